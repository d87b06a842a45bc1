(** Fields: variable byte integers (C16, C17), reason codes (C18), length-prefixed data (C23),
    and the per-packet readers as functions of their own (C40). *)
From Verif Require Import Types Model Spec Wire Sites Faults PBase PVarint PUtf8 PRead PItems PProps PFrame PWire PTotal PFaults.
Ltac Zify.zify_post_hook ::= Z.div_mod_to_equations.

(** ** C16 *)

Lemma wire_min n l : varint_wire n l -> blen (varint n) <= blen l /\ (blen l = blen (varint n) -> l = varint n).
Proof.
  intros H. rewrite varint_len. apply varint_wire_cases in H. unfold varint, len_len.
  repeat match type of H with _ \/ _ => destruct H as [H|H] end;
    repeat match type of H with exists _, _ => destruct H as [? H] | _ /\ _ => destruct H as [? H] end; subst; 
    repeat match goal with |- context [?a <=? ?b] => destruct (N.leb_spec a b) | |- context [?a <? ?b] => destruct (N.ltb_spec a b) end;
    unfold blen in *; cbn [length] in *; try lia;
    (split; [lia|]); intros _; repeat f_equal; lia.
Qed.
(** Every number up to 268435455 is written as 1 to 4 bytes, as many as predicted and no more
    than any other spelling; reading them back, whatever follows, gives the number and the
    count. *)
Theorem C16_varint_roundtrip n buf rest :
  n <= 268435455 -> bytes_ok rest ->
  exists out, write_remaining_length n buf = (Ok (blen out), buf ++ out)
    /\ length_ (out ++ rest) = Ok (blen out, n)
    /\ len_len n = blen out /\ 1 <= blen out <= 4
    /\ varint_wire n out
    /\ forall other, varint_wire n other -> blen out <= blen other /\ (blen other = blen out -> other = out).
Proof.
  intros Hn Hr. exists (varint n). pose proof (varint_is_wire n Hn) as W.
  rewrite write_remaining_length_eq. unfold max_varint. destruct (N.leb_spec n 268435455); [|lia].
  split; [reflexivity|]. split; [apply length_app; assumption|]. split; [symmetry; apply varint_len|].
  split; [apply (varint_wire_bound _ _ W)|]. split; [exact W|]. intros other Ho. apply wire_min. exact Ho.
Qed.
(** How many bytes that is. *)
Theorem C16_size_classes n :
  (len_len n = 1 <-> n < 128) /\ (len_len n = 2 <-> 128 <= n < 16384)
  /\ (len_len n = 3 <-> 16384 <= n < 2097152) /\ (len_len n = 4 <-> 2097152 <= n).
Proof.
  unfold len_len. destruct (N.leb_spec 2097152 n); destruct (N.leb_spec 16384 n); destruct (N.leb_spec 128 n); lia.
Qed.
(** Larger numbers are refused and nothing is written. *)
Theorem C16_too_large_refused n buf : 268435455 < n -> write_remaining_length n buf = (Err PayloadTooLong, buf).
Proof. intros H. rewrite write_remaining_length_eq. unfold max_varint. destruct (N.leb_spec n 268435455); [lia|reflexivity]. Qed.
Example C16_borders :
  map (fun n => snd (write_remaining_length n [])) [0; 127; 128; 16383; 16384; 2097151; 2097152; 268435455]
  = [[0]; [127]; [128; 1]; [255; 127]; [128; 128; 1]; [255; 255; 127]; [128; 128; 128; 1]; [255; 255; 255; 127]].
Proof. reflexivity. Qed.

(** ** C17 *)

(** What a variable byte integer is read as: value, count; or the two errors. *)
Theorem C17_decoding b : bytes_ok b ->
  (forall k v, length_ b = Ok (k, v) <-> exists l r, b = l ++ r /\ k = blen l /\ varint_wire v l)
  /\ (forall e, length_ b = Err e <->
        (e = InsufficientBytes 1 /\ blen b < 4 /\ Forall (fun x => 128 <= x) b)
        \/ (e = MalformedRemainingLength /\ exists b0 b1 b2 b3 r, b = [b0; b1; b2; b3] ++ r
              /\ 128 <= b0 /\ 128 <= b1 /\ 128 <= b2 /\ 128 <= b3))
  /\ length_ b <> Panic /\ length_ b <> Diverge.
Proof.
  intros Hb. split; [|split].
  - intros k v. split.
    + intros E. destruct (length_inv b k v Hb E) as (l & r & -> & -> & H). exists l, r. auto.
    + intros (l & r & -> & -> & H). apply length_app; [exact H|]. bok; auto.
  - intros e. rewrite (length_err b e Hb). unfold varint_faulty, broken_varint. split.
    + intros [[[H1 H2] ->]|(l & r & -> & H1 & H2 & ->)]; [left; auto|right]. split; [reflexivity|].
      destruct l as [|b0 [|b1 [|b2 [|b3 [|b4 l]]]]]; unfold blen in H1; cbn [length] in H1; try lia.
      exists b0, b1, b2, b3, r. repeat (apply Forall_cons_iff in H2; destruct H2 as [? H2]). auto.
    + intros [(-> & H1 & H2)|(-> & b0 & b1 & b2 & b3 & r & -> & ? & ? & ? & ?)]; [left; auto|right].
      exists [b0; b1; b2; b3], r. repeat (split; [reflexivity|]). split; [|reflexivity]. repeat constructor; assumption.
  - destruct (length_total b Hb) as [(l & r & v & _ & _ & E)|[(_ & _ & E)|(l & r & _ & _ & _ & E)]]; rewrite E; split; discriminate.
Qed.
(** At most four bytes, at most 268435455. *)
Theorem C17_bounds b k v : bytes_ok b -> length_ b = Ok (k, v) -> v <= 268435455 /\ 1 <= k <= 4 /\ k <= blen b.
Proof.
  intros Hb E. destruct (length_inv b k v Hb E) as (l & r & -> & -> & H). apply varint_wire_bound in H.
  rewrite blen_app. lia.
Qed.
(** Not only the minimal spelling is accepted. *)
Example C17_overlong : length_ [129; 128; 128; 0] = Ok (4, 1) /\ length_ [1] = Ok (1, 1).
Proof. split; reflexivity. Qed.

(** ** C18 *)

(** [code] and [decode] match: each value's code decodes to it, each byte that decodes to a
    value is its code, and all other bytes are rejected with an error carrying them. *)
Definition one_to_one {A} (code : A -> N) (decode : N -> res A) (err : N -> error) : Prop :=
  (forall r, decode (code r) = Ok r)
  /\ (forall n r, decode n = Ok r -> code r = n)
  /\ (forall n, (exists r, decode n = Ok r) \/ decode n = Err (err n)).

Lemma one_to_one_intro {A} (code code' : A -> N) decode err : (forall r, code r = code' r) ->
  (forall r, decode (code' r) = Ok r) -> (forall n r, decode n = Ok r -> code' r = n) ->
  (forall n, (exists r, decode n = Ok r) \/ decode n = Err (err n)) -> one_to_one code decode err.
Proof. intros E H1 H2 H3. split; [|split]; [intros r; rewrite E; apply H1|intros n r H; rewrite E; apply H2; exact H|exact H3]. Qed.

Theorem C18_acknowledgement_codes :
  one_to_one PubAck_code PubAck_reason InvalidConnectReturnCode
  /\ one_to_one PubRec_code PubRec_reason InvalidConnectReturnCode
  /\ one_to_one PubRel_code PubRel_reason InvalidConnectReturnCode
  /\ one_to_one PubComp_code PubComp_reason InvalidConnectReturnCode
  /\ one_to_one SubAck_code SubAck_reason InvalidSubscribeReasonCode
  /\ one_to_one UnsubAck_code UnsubAck_reason InvalidSubscribeReasonCode
  /\ one_to_one DisconnectReasonCode_u8 DisconnectReasonCode_try_from InvalidConnectReturnCode.
Proof.
  repeat split.
  all: try (intros r; destruct r; try match goal with q : QoS |- _ => destruct q end; reflexivity).
  all: try (intros n r H;
    first [apply PubAck_reason_inv in H|apply PubRec_reason_inv in H|apply PubRel_reason_inv in H|apply PubComp_reason_inv in H
          |apply SubAck_reason_inv in H|apply UnsubAck_reason_inv in H|apply DisconnectReasonCode_try_from_inv in H];
    rewrite <- H; destruct r; try match goal with q : QoS |- _ => destruct q end; reflexivity).
  - apply PubAck_reason_total.
  - apply PubRec_reason_total.
  - apply PubRel_reason_total.
  - apply PubComp_reason_total.
  - apply SubAck_reason_total.
  - apply UnsubAck_reason_total.
  - apply DisconnectReasonCode_try_from_total.
Qed.
(** The codes are those of the standard. *)
Theorem C18_codes_of_the_standard :
  (forall r, PubAck_code r = puback_code r) /\ (forall r, PubRec_code r = pubrec_code r)
  /\ (forall r, PubRel_code r = pubrel_code r) /\ (forall r, PubComp_code r = pubcomp_code r)
  /\ (forall r, SubAck_code r = suback_code r) /\ (forall r, UnsubAck_code r = unsuback_code r)
  /\ (forall r, DisconnectReasonCode_u8 r = disconnect_code r).
Proof. repeat split; intros r; destruct r; try match goal with q : QoS |- _ => destruct q end; reflexivity. Qed.
(** CONNACK: all codes but the three that MQTT 5 does not have (C14). *)
Theorem C18_connack_codes :
  (forall r, legacy_code r = false -> connect_code r = Ok (connack_code r) /\ connect_return (connack_code r) = Ok r)
  /\ (forall r, legacy_code r = true -> connect_code r = Panic)
  /\ (forall n r, connect_return n = Ok r -> legacy_code r = false /\ connack_code r = n)
  /\ (forall n, (exists r, connect_return n = Ok r) \/ connect_return n = Err (InvalidConnectReturnCode n)).
Proof.
  split; [|split; [|split]].
  - intros r H. split; [destruct r; try discriminate; reflexivity|apply connect_return_code; exact H].
  - intros r H. destruct r; try discriminate; reflexivity.
  - intros n r H. split; [eapply connect_return_legacy; exact H|apply connect_return_inv; exact H].
  - apply connect_return_total.
Qed.

(** ** C23 *)

(** A length-prefixed field: the announced bytes exactly, or the two errors. *)
Theorem C23_length_prefixed_field b : bytes_ok b ->
  (forall s r, read_mqtt_bytes b = Ok (s, r) <-> b = u16be (blen s) ++ s ++ r /\ blen s < 65536)
  /\ (forall e, read_mqtt_bytes b = Err e <->
        (blen b < 2 /\ e = MalformedPacket)
        \/ exists n r, n < 65536 /\ b = u16be n ++ r /\ blen r < n /\ e = BoundaryCrossed n)
  /\ read_mqtt_bytes b <> Panic /\ read_mqtt_bytes b <> Diverge.
Proof.
  intros Hb. destruct (bin_reader b Hb) as [A B]. split; [|split].
  - intros s r. rewrite A. unfold bin_wire. split.
    + intros (l & -> & _ & H & ->). rewrite <- app_assoc. auto.
    + intros [-> H]. exists (u16be (blen s) ++ s). rewrite <- app_assoc. bok; auto.
  - intros e. rewrite B. reflexivity.
  - pose proof (read_mqtt_bytes_tame b Hb) as T. destruct (read_mqtt_bytes b); cbn in T; try contradiction; split; discriminate.
Qed.
(** Text fields: the same, and the bytes must be UTF-8 unless the check is switched off. *)
Theorem C23_text_field ft b : bytes_ok b ->
  (forall s r, read_mqtt_string ft b = Ok (s, r)
     <-> b = u16be (blen s) ++ s ++ r /\ blen s < 65536 /\ (ft = F_binary \/ utf8 s))
  /\ (forall e, read_mqtt_string ft b = Err e <->
        read_mqtt_bytes b = Err e
        \/ ft <> F_binary /\ e = TopicNotUtf8 /\ exists s r, b = u16be (blen s) ++ s ++ r /\ blen s < 65536 /\ ~ utf8 s).
Proof.
  intros Hb. destruct (str_reader ft b Hb) as [A B]. destruct (bin_reader b Hb) as [_ C]. split.
  - intros s r. rewrite A. unfold str_wire, bin_wire, text. split.
    + intros (l & -> & [_ Ht] & _ & H & ->). rewrite <- app_assoc. split; [reflexivity|]. split; [exact H|]. destruct ft; auto.
    + intros (-> & H & Ht). exists (u16be (blen s) ++ s). rewrite <- app_assoc. bok. split; [reflexivity|].
      split; [|auto]. split; [assumption|]. destruct Ht as [->|Ht]; [exact I|]. destruct ft; auto.
  - intros e. rewrite B, C. unfold str_faulty, bin_wire. split; (intros [H|(H1 & H2 & H)]; [left; exact H|right; split; [exact H1|split; [exact H2|]]]).
    + destruct H as (s & l & r & -> & (_ & H & ->) & Hn). exists s, r. rewrite <- app_assoc. auto.
    + destruct H as (s & r & -> & H & Hn). exists s, (u16be (blen s) ++ s), r. rewrite <- app_assoc. bok; auto.
Qed.
(** What Packet::read makes of a frame depends on the frame alone, so no field reaches beyond
    it: see C07.  An instance: a topic announcing 2 bytes in a frame with only 1 left. *)
Example C23_topic_beyond_the_frame :
  Packet_read F_default [48; 3; 0; 2; 97; 98; 99] None = (Err (BoundaryCrossed 2), [98; 99]).
Proof. reflexivity. Qed.

(** ** C40 *)

Lemma advance_panic b n : advance b n = Panic <-> blen b < n.
Proof. unfold advance. destruct (N.leb_spec n (blen b)); split; intros; try discriminate; try reflexivity; lia. Qed.
Lemma tame_no_panic {A} (Q : A -> Prop) r : tame Q r -> r <> Panic /\ r <> Diverge.
Proof. destruct r; cbn; try contradiction; split; discriminate. Qed.

Definition panics_only_on_header {A} (rd : FixedHeader -> bytes -> res A) : Prop :=
  forall h b, bytes_ok b ->
    (rd h b = Panic <-> blen b < fh_fixed_header_len h) /\ rd h b <> Diverge.
Lemma header_only {A} (rd : FixedHeader -> bytes -> res A) :
  (forall h b, bytes_ok b -> fh_fixed_header_len h <= blen b -> tame (fun _ => True) (rd h b)) ->
  (forall h b, advance b (fh_fixed_header_len h) = Panic -> rd h b = Panic) -> panics_only_on_header rd.
Proof.
  intros T P h b Hb. destruct (N.le_gt_cases (fh_fixed_header_len h) (blen b)) as [H|H].
  - destruct (tame_no_panic _ _ (T h b Hb H)) as [H1 H2]. split; [|exact H2]. split; [contradiction|lia].
  - assert (E : rd h b = Panic) by (apply P; apply advance_panic; lia). rewrite E. split; [|discriminate]. split; auto.
Qed.

(** Called on their own, the readers panic exactly when the header is said to be longer than
    the bytes given; they always end. *)
Theorem C40_readers_panic_iff_header_too_long ft :
  panics_only_on_header (Connect_read ft) /\ panics_only_on_header (ConnAck_read ft)
  /\ panics_only_on_header (PubAck_read ft) /\ panics_only_on_header (PubRec_read ft)
  /\ panics_only_on_header (PubRel_read ft) /\ panics_only_on_header (PubComp_read ft)
  /\ panics_only_on_header (Subscribe_read ft) /\ panics_only_on_header (SubAck_read ft)
  /\ panics_only_on_header (Unsubscribe_read ft) /\ panics_only_on_header (UnsubAck_read ft)
  /\ panics_only_on_header (Disconnect_read ft).
Proof.
  repeat match goal with |- _ /\ _ => split end; apply header_only.
  all: try (intros h b Hb Hh;
    first [apply Connect_tame|apply ConnAck_tame|apply PubAck_tame|apply PubRec_tame|apply PubRel_tame|apply PubComp_tame
          |apply Subscribe_tame|apply SubAck_tame|apply Unsubscribe_tame|apply UnsubAck_tame|apply Disconnect_tame]; assumption).
  - intros h b E. unfold Connect_read. rewrite E. reflexivity.
  - intros h b E. unfold ConnAck_read. rewrite E. reflexivity.
  - intros h b E. unfold PubAck_read. rewrite E. reflexivity.
  - intros h b E. unfold PubRec_read. rewrite E. reflexivity.
  - intros h b E. unfold PubRel_read. rewrite E. reflexivity.
  - intros h b E. unfold PubComp_read. rewrite E. reflexivity.
  - intros h b E. unfold Subscribe_read. rewrite E. reflexivity.
  - intros h b E. unfold SubAck_read. rewrite E. reflexivity.
  - intros h b E. unfold Unsubscribe_read. rewrite E. reflexivity.
  - intros h b E. unfold UnsubAck_read. rewrite E. reflexivity.
  - intros h b E. unfold Disconnect_read. rewrite E. reflexivity.
Qed.
(** Publish::read looks at the QoS bits first. *)
Theorem C40_publish_reader_panics ft h b : bytes_ok b ->
  (Publish_read ft h b = Panic <-> blen b < fh_fixed_header_len h /\ (fh_byte1 h / 2) mod 4 <> 3)
  /\ Publish_read ft h b <> Diverge.
Proof.
  intros Hb. destruct (N.le_gt_cases (fh_fixed_header_len h) (blen b)) as [H|H].
  - destruct (tame_no_panic _ _ (Publish_tame ft h b Hb H)) as [H1 H2]. split; [|exact H2]. split; [contradiction|lia].
  - unfold Publish_read.
    assert (Q : N.shiftr (N.land (fh_byte1 h) 6) 1 = (fh_byte1 h / 2) mod 4).
    { rewrite N.shiftr_land. change (N.shiftr 6 1) with (N.ones 2). rewrite N.land_ones, N.shiftr_div_pow2. reflexivity. }
    rewrite Q. destruct (N.eqb_spec ((fh_byte1 h / 2) mod 4) 3) as [E|E].
    + rewrite E. cbn [qos]. split; [|discriminate]. split; [discriminate|tauto].
    + assert (L : (fh_byte1 h / 2) mod 4 < 3) by lia.
      destruct (qos ((fh_byte1 h / 2) mod 4)) as [q|] eqn:Eq.
      * rewrite (proj2 (advance_panic _ _)) by lia. cbn [rbind]. split; [|discriminate]. tauto.
      * exfalso. destruct ((fh_byte1 h / 2) mod 4) as [|[|[]|]]; try discriminate; lia.
Qed.
Example C40_instance : PubAck_read F_default (mkFixedHeader 64 2 2) [64] = Panic
  /\ PubAck_read F_default (mkFixedHeader 64 2 2) [64; 2; 0; 7] = Ok (mkPubAck 7 PAR_Success None).
Proof. split; reflexivity. Qed.
