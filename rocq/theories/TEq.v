(** C67: the comparisons a user writes (`==`, `<`) on packets, errors, headers and QoS levels. *)
From Coq Require Import Lia.
From Verif Require Import Types MLib Model MEq Spec Wire Samples.
From Verif Require Import PWire PRound PWrite PVarint PBase PEq TFraming TWrite TRound TDriver TBack TFields TParts TAlike.

(** ** C67: `==` *)

(** Two packets compare equal exactly if they are the same packet: same kind, and the same contents in every field. *)
Theorem C67_packets_equal a b : Packet_eq a b = true <-> a = b.
Proof. apply decides_Packet. Qed.

(** The same for errors and fixed headers ... *)
Theorem C67_errors_equal a b : Error_eq a b = true <-> a = b.
Proof. apply decides_Error. Qed.
Theorem C67_headers_equal a b : FixedHeader_eq a b = true <-> a = b.
Proof. apply decides_FixedHeader. Qed.

(** ... and for every structure and code a packet is made of. *)
Theorem C67_parts_equal :
  (forall a b, Connect_eq a b = true <-> a = b)
  /\ (forall a b, ConnectProperties_eq a b = true <-> a = b)
  /\ (forall a b, LastWill_eq a b = true <-> a = b)
  /\ (forall a b, LastWillProperties_eq a b = true <-> a = b)
  /\ (forall a b, Login_eq a b = true <-> a = b)
  /\ (forall a b, ConnAck_eq a b = true <-> a = b)
  /\ (forall a b, ConnAckProperties_eq a b = true <-> a = b)
  /\ (forall a b, ConnectReturnCode_eq a b = true <-> a = b)
  /\ (forall a b, Publish_eq a b = true <-> a = b)
  /\ (forall a b, PublishProperties_eq a b = true <-> a = b)
  /\ (forall a b, PubAck_eq a b = true <-> a = b)
  /\ (forall a b, PubAckProperties_eq a b = true <-> a = b)
  /\ (forall a b, PubAckReason_eq a b = true <-> a = b)
  /\ (forall a b, PubRec_eq a b = true <-> a = b)
  /\ (forall a b, PubRecProperties_eq a b = true <-> a = b)
  /\ (forall a b, PubRecReason_eq a b = true <-> a = b)
  /\ (forall a b, PubRel_eq a b = true <-> a = b)
  /\ (forall a b, PubRelProperties_eq a b = true <-> a = b)
  /\ (forall a b, PubRelReason_eq a b = true <-> a = b)
  /\ (forall a b, PubComp_eq a b = true <-> a = b)
  /\ (forall a b, PubCompProperties_eq a b = true <-> a = b)
  /\ (forall a b, PubCompReason_eq a b = true <-> a = b)
  /\ (forall a b, Subscribe_eq a b = true <-> a = b)
  /\ (forall a b, SubscribeProperties_eq a b = true <-> a = b)
  /\ (forall a b, Filter_eq a b = true <-> a = b)
  /\ (forall a b, RetainForwardRule_eq a b = true <-> a = b)
  /\ (forall a b, SubAck_eq a b = true <-> a = b)
  /\ (forall a b, SubAckProperties_eq a b = true <-> a = b)
  /\ (forall a b, SubscribeReasonCode_eq a b = true <-> a = b)
  /\ (forall a b, Unsubscribe_eq a b = true <-> a = b)
  /\ (forall a b, UnsubscribeProperties_eq a b = true <-> a = b)
  /\ (forall a b, UnsubAck_eq a b = true <-> a = b)
  /\ (forall a b, UnsubAckProperties_eq a b = true <-> a = b)
  /\ (forall a b, UnsubAckReason_eq a b = true <-> a = b)
  /\ (forall a b, Disconnect_eq a b = true <-> a = b)
  /\ (forall a b, DisconnectProperties_eq a b = true <-> a = b)
  /\ (forall a b, DisconnectReasonCode_eq a b = true <-> a = b)
  /\ (forall a b, PacketType_eq a b = true <-> a = b)
  /\ (forall a b, QoS_eq a b = true <-> a = b).
Proof.
  repeat match goal with
  | |- _ /\ _ => split
  | |- forall a b, ?f a b = true <-> a = b => change (decides f); solve [auto 2 with dec]
  end.
Qed.

(** ** C67: equality and the wire *)

(** What the crate's own tests assert: write the packet, read it back, compare with `==`.  This succeeds exactly for packets
    that can be encoded, survive the round trip and have no present-but-empty property section or login (C01). *)
Theorem C67_read_back_compares_equal ft p :
  rust_packet ft p ->
  (exists n out q, Packet_write p [] = (Ok n, out) /\ Packet_read ft out None = (Ok q, []) /\ Packet_eq q p = true)
  <-> encodable p /\ roundtrip_safe p = true /\ normalize p = p.
Proof.
  intros Hr. pose proof (C01_exact ft p Hr) as X. split.
  - intros (n & out & q & Ew & Er & Eq). apply C67_packets_equal in Eq. subst q.
    assert (Hn : normalize p = p).
    { destruct (bad_disconnect p) eqn:B.
      - destruct p as [| | | | | | | | | | | | |d]; try discriminate B.
        apply bad_disconnect_cases in B. destruct B as (d' & E & Hd & [Hp|(q & Hq & Hi)]); injection E as <-; cbn [normalize].
        + rewrite Hp. cbn [drop_empty]. destruct d; cbn in *; congruence.
        + exfalso. rewrite (bad_disconnect_empty _ _ _ Hq Hi) in Ew. injection Ew as <- <-.
          destruct d as [dr dp]. cbn in Hd, Hq. subst dp. destruct ft; cbn in Er; discriminate Er.
      - destruct (C13_success_means_encoding p [] n out Ew) as (He & _ & ->); [auto|auto|].
        cbn [app] in Er. apply (C31_decoded_is_normal ft None (encode p) p []); [eapply encode_bytes_ok; eassumption|exact Er]. }
    rewrite Hn in X. assert (Y : encodable p /\ roundtrip_safe p = true) by (apply X; eauto). tauto.
  - intros (He & Hs & Hn). rewrite Hn in X. destruct X as [_ X]. destruct (X (conj He Hs)) as (n & out & Ew & Er).
    exists n, out, p. split; [exact Ew|]. split; [exact Er|]. apply C67_packets_equal. reflexivity.
Qed.
Example C67_read_back_instance ft : Forall (fun p => rust_packet ft p /\ encodable p /\ roundtrip_safe p = true /\ normalize p = p) samples.
Proof. apply Forall_forall. intros p H. destruct (C01_instances ft p [] H (Forall_nil _)) as (? & ? & ? & ? & _). auto. Qed.

(** Packets that were read, from whatever streams under whatever limits, and written again: they compare equal exactly if
    they are written as the same bytes. *)
Theorem C67_decoded_equal_iff_same_bytes ft max1 max2 s1 s2 p1 p2 rest1 rest2 n1 n2 out1 out2 :
  bytes_ok s1 -> Packet_read ft s1 max1 = (Ok p1, rest1) -> bytes_ok s2 -> Packet_read ft s2 max2 = (Ok p2, rest2) ->
  Packet_write p1 [] = (Ok n1, out1) -> Packet_write p2 [] = (Ok n2, out2) ->
  (Packet_eq p1 p2 = true <-> out1 = out2).
Proof.
  intros Hb1 R1 Hb2 R2 E1 E2. rewrite C67_packets_equal. split; [intros <-; congruence|]. intros <-.
  destruct (C31_decoded_is_normal _ _ _ _ _ Hb1 R1) as (Hr1 & Hn1 & _).
  destruct (C31_decoded_is_normal _ _ _ _ _ Hb2 R2) as (Hr2 & Hn2 & _).
  assert (X : forall p, normalize p = p -> empty_props_disconnect p = false).
  { intros p Hn. destruct p as [| | | | | | | | | | | | |[r [q|]]]; try reflexivity; cbn [normalize di_reason_code di_properties drop_empty] in Hn;
      cbn [empty_props_disconnect di_reason_code di_properties]; [|destruct r; reflexivity].
    destruct (nonempty (DisconnectProperties_items q)); [destruct r; reflexivity|discriminate Hn]. }
  rewrite <- Hn1, <- Hn2.
  apply (C35_written_bytes_tell_the_packet ft p1 p2 n1 n2 out1 out1 [] Hr1 Hr2); auto. rewrite app_nil_r. reflexivity.
Qed.

(** ** C67: `<`, `<=`, `>`, `>=` *)

(** QoS levels compare as the numbers that stand for them on the wire. *)
Theorem C67_qos_order m n a b :
  qos m = Some a -> qos n = Some b ->
  (is_lt (QoS_partial_cmp a b) = true <-> m < n) /\ (is_le (QoS_partial_cmp a b) = true <-> m <= n)
  /\ (is_gt (QoS_partial_cmp a b) = true <-> n < m) /\ (is_ge (QoS_partial_cmp a b) = true <-> n <= m)
  /\ (QoS_eq a b = true <-> m = n).
Proof.
  intros Ha Hb.
  assert (A : QoS_disc a = m).
  { destruct (N.ltb_spec m 3) as [L|L].
    - assert (m = 0 \/ m = 1 \/ m = 2) as [->|[->| ->]] by lia; injection Ha as <-; reflexivity.
    - destruct m as [|[[|[]|]|[|[]|]|]]; try discriminate; lia. }
  assert (B : QoS_disc b = n).
  { destruct (N.ltb_spec n 3) as [L|L].
    - assert (n = 0 \/ n = 1 \/ n = 2) as [->|[->| ->]] by lia; injection Hb as <-; reflexivity.
    - destruct n as [|[[|[]|]|[|[]|]|]]; try discriminate; lia. }
  unfold QoS_partial_cmp, QoS_eq. rewrite A, B. rewrite N.eqb_eq.
  destruct (N.compare_spec m n); cbn [is_lt is_le is_gt is_ge]; repeat split; intros; try discriminate; try lia; reflexivity.
Qed.
Example C67_qos_order_instance := C67_qos_order 1 2 AtLeastOnce ExactlyOnce eq_refl eq_refl.

(** Fixed headers compare lexicographically: first byte, then header length, then remaining length; any two are
    comparable, and neither is below the other exactly if they are equal. *)
Theorem C67_header_order a b :
  (is_lt (FixedHeader_partial_cmp a b) = true <->
     fh_byte1 a < fh_byte1 b
     \/ (fh_byte1 a = fh_byte1 b /\ fh_fixed_header_len a < fh_fixed_header_len b)
     \/ (fh_byte1 a = fh_byte1 b /\ fh_fixed_header_len a = fh_fixed_header_len b /\ fh_remaining_len a < fh_remaining_len b))
  /\ (is_gt (FixedHeader_partial_cmp a b) = is_lt (FixedHeader_partial_cmp b a))
  /\ (is_le (FixedHeader_partial_cmp a b) = negb (is_gt (FixedHeader_partial_cmp a b)))
  /\ (is_ge (FixedHeader_partial_cmp a b) = negb (is_lt (FixedHeader_partial_cmp a b)))
  /\ (is_le (FixedHeader_partial_cmp a b) && is_ge (FixedHeader_partial_cmp a b) = FixedHeader_eq a b).
Proof.
  destruct a as [x y z], b as [x' y' z'].
  unfold FixedHeader_partial_cmp, FixedHeader_eq, uint_partial_cmp. cbn [fh_byte1 fh_fixed_header_len fh_remaining_len].
  rewrite (N.compare_antisym x x'), (N.compare_antisym y y'), (N.compare_antisym z z').
  rewrite (N.eqb_compare x x'), (N.eqb_compare y y'), (N.eqb_compare z z').
  destruct (N.compare_spec x x'); destruct (N.compare_spec y y'); destruct (N.compare_spec z z');
    cbn [then_cmp is_lt is_le is_gt is_ge CompOpp andb negb]; repeat split; intros; try discriminate; try lia; reflexivity.
Qed.

(** Among headers of written packets with the same first byte, the order is that of the sizes. *)
Theorem C67_written_headers_order ft p1 p2 n1 n2 out1 out2 h1 h2 :
  rust_packet ft p1 -> bad_disconnect p1 = false -> rust_packet ft p2 -> bad_disconnect p2 = false ->
  Packet_write p1 [] = (Ok n1, out1) -> Packet_write p2 [] = (Ok n2, out2) ->
  check out1 None = Ok h1 -> check out2 None = Ok h2 -> hd_error out1 = hd_error out2 ->
  (is_lt (FixedHeader_partial_cmp h1 h2) = true <-> n1 < n2) /\ (is_le (FixedHeader_partial_cmp h1 h2) = true <-> n1 <= n2).
Proof.
  intros Hr1 B1 Hr2 B2 E1 E2 K1 K2 Hh.
  destruct (C13_success_means_encoding p1 [] n1 out1 E1) as (He1 & -> & ->); [auto|auto|].
  destruct (C13_success_means_encoding p2 [] n2 out2 E2) as (He2 & -> & ->); [auto|auto|].
  cbn [app] in *.
  assert (X : forall p h, rust_packet ft p -> encodable p -> check (encode p) None = Ok h ->
            h = mkFixedHeader (first_byte p) (1 + len_len (body_size p)) (body_size p)
            /\ blen (encode p) = 1 + len_len (body_size p) + body_size p /\ hd_error (encode p) = Some (first_byte p)).
  { intros p h Hr He K. pose proof (encodable_body _ He) as [Hb Hn].
    assert (S : blen (encode p) = 1 + len_len (body_size p) + body_size p).
    { rewrite encode_split. cbn [app]. rewrite blen_cons, blen_app, varint_len. unfold body_size. lia. }
    split; [|split; [exact S|rewrite encode_split; reflexivity]].
    assert (K' : check (encode p) None = Ok (mkFixedHeader (first_byte p) (1 + len_len (body_size p)) (body_size p))).
    { apply C45_check_accepts; [eapply encode_bytes_ok; eassumption|].
      exists (first_byte p), (fields_bytes (body_fields p)), (encode p), [].
      split; [rewrite app_nil_r; reflexivity|]. split; [apply encode_framed; exact He|]. split; [exact I|].
      cbn [fh_byte1 fh_remaining_len fh_fixed_header_len]. unfold frame_length. cbn [fh_fixed_header_len fh_remaining_len].
      rewrite S. unfold body_size. repeat split; lia. }
    congruence. }
  destruct (X p1 h1 Hr1 He1 K1) as (-> & S1 & F1). destruct (X p2 h2 Hr2 He2 K2) as (-> & S2 & F2). clear X.
  rewrite F1, F2 in Hh. injection Hh as Hh. rewrite S1, S2, Hh.
  unfold FixedHeader_partial_cmp, uint_partial_cmp. cbn [fh_byte1 fh_fixed_header_len fh_remaining_len].
  rewrite N.compare_refl. cbn [then_cmp].
  assert (M : forall x y, x <= y -> len_len x <= len_len y).
  { intros x y L. unfold len_len. destruct (N.leb_spec 2097152 x), (N.leb_spec 2097152 y), (N.leb_spec 16384 x), (N.leb_spec 16384 y),
      (N.leb_spec 128 x), (N.leb_spec 128 y); lia. }
  pose proof (M (body_size p1) (body_size p2)) as M1. pose proof (M (body_size p2) (body_size p1)) as M2.
  destruct (N.compare_spec (1 + len_len (body_size p1)) (1 + len_len (body_size p2)));
    destruct (N.compare_spec (body_size p1) (body_size p2));
    cbn [then_cmp is_lt is_le]; split; split; intros; try discriminate; try lia; reflexivity.
Qed.

(** ** C67: strings *)

(** A string made by mqtt_string_new has the contents given, in every build: it compares equal to a literal exactly if the
    literal is that text, and it is written as the text with its length in front. *)
Theorem C67_string_new ft s t buf :
  (mqtt_string_eq (mqtt_string_new ft s) t = true <-> s = t)
  /\ (blen s <= 65535 -> write_mqtt_string (mqtt_string_new ft s) buf = (Ok tt, buf ++ u16be (blen s) ++ s)).
Proof.
  assert (E : mqtt_string_new ft s = s) by (destruct ft; reflexivity). rewrite E. split; [apply bytes_eqb_iff|].
  intros H. unfold write_mqtt_string, write_mqtt_bytes. destruct (N.leb_spec (blen s) 65535); [|lia].
  unfold wbind, put_u16, put_slice. rewrite <- app_assoc. reflexivity.
Qed.

(** Concrete cases: a PUBACK in its short and its long form, and a PUBLISH against a longer one. *)
Example C67_decoded_instance :=
  C67_decoded_equal_iff_same_bytes F_cow None (Some 10) [64; 2; 0; 1] [64; 4; 0; 1; 0; 0; 9]
    (P_PubAck (mkPubAck 1 PAR_Success None)) (P_PubAck (mkPubAck 1 PAR_Success None)) [] [9] 4 4 [64; 2; 0; 1] [64; 2; 0; 1]
    ltac:(repeat constructor) eq_refl ltac:(repeat constructor) eq_refl eq_refl eq_refl.
Example C67_written_headers_instance :=
  C67_written_headers_order F_default (P_PubAck (mkPubAck 1 PAR_Success None)) (P_PubAck (mkPubAck 7 PAR_NotAuthorized None))
    4 6 [64; 2; 0; 1] [64; 4; 0; 7; 135; 0] (mkFixedHeader 64 2 2) (mkFixedHeader 64 2 4)
    ltac:(repeat constructor) eq_refl ltac:(repeat constructor) eq_refl eq_refl eq_refl eq_refl eq_refl eq_refl.
(** Two PUBLISH packets that do not survive a round trip (C21); the packet id of the second is not written at QoS 0. *)
Definition many_ids (pkid : N) : Packet :=
  P_Publish (mkPublish false AtMostOnce false [97] pkid [] (Some (mkPublishProperties None None None None None [] [1; 2; 3; 4] None))).
Example C35_written_bytes_instance :=
  C35_written_bytes_tell_the_packet F_binary (many_ids 0) (many_ids 5) 14 14
    [48; 12; 0; 1; 97; 8; 11; 1; 11; 2; 11; 3; 11; 4] [48; 12; 0; 1; 97; 8; 11; 1; 11; 2; 11; 3; 11; 4] []
    ltac:(repeat constructor) ltac:(repeat constructor) eq_refl eq_refl eq_refl eq_refl eq_refl.
