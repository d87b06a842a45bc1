(** Rules of single packet types: C19, C20, C28, C32, C36, C39, C41, C43. *)
From Verif Require Import Types Model Spec Wire Sites Faults PBase PVarint PUtf8 PRead PItems PProps PFrame PWire PWrite PTotal PRound PSites PFaults PBack PFeat.
From Verif Require Import TFraming TWrite TRound TBack TFaults TProps.
Import Faults.
Ltac Zify.zify_post_hook ::= Z.div_mod_to_equations.

(** ** C43 *)

Lemma fixed_errs n b e : fixed_faulty n b e -> e = MalformedPacket.
Proof. intros [_ ->]. reflexivity. Qed.
Lemma bin_errs b e : bin_faulty b e -> e = MalformedPacket \/ exists n, e = BoundaryCrossed n.
Proof. intros [[_ ->]|(n & r & _ & _ & _ & ->)]; eauto. Qed.
Lemma str_errs ft b e : str_faulty ft b e -> e = MalformedPacket \/ (exists n, e = BoundaryCrossed n) \/ ft <> F_binary /\ e = TopicNotUtf8.
Proof. intros [H|(? & -> & _)]; [apply bin_errs in H; tauto|auto]. Qed.
Lemma varint_errs b e : varint_faulty b e -> e = InsufficientBytes 1 \/ e = MalformedRemainingLength.
Proof. intros [[_ ->]|(l & r & _ & _ & _ & ->)]; auto. Qed.
Lemma str_field ft b e : str_faulty ft b e -> field_error_of ft e.
Proof. intros H. apply str_errs in H. destruct H as [->|[[n ->]|[H ->]]]; [exact I|exact I|exact H]. Qed.
Lemma bin_field ft b e : bin_faulty b e -> field_error_of ft e.
Proof. intros H. apply bin_errs in H. destruct H as [->|[n ->]]; exact I. Qed.
Lemma fixed_field ft n b e : fixed_faulty n b e -> field_error_of ft e.
Proof. intros [_ ->]. exact I. Qed.
Lemma varint_field ft b e : varint_faulty b e -> field_error_of ft e.
Proof. intros H. apply varint_errs in H. destruct H as [->| ->]; reflexivity || exact I. Qed.
Lemma section_field ft allowed b e : section_faulty ft allowed b e -> field_error_of ft e.
Proof.
  intros [H|(d & lb & r & _ & _ & sp & t & _ & _ & _ & H)]; [eapply varint_field; exact H|].
  destruct t as [|id v]; [rewrite H; exact I|]. cbn [property_faulty] in H. destruct (property_kind id) as [k|]; [|rewrite H; exact I].
  destruct H as [[_ ->]|[_ H]]; [exact I|]. destruct k; cbn [value_faulty] in H;
    try (eapply fixed_field; exact H); try (eapply str_field; exact H); try (eapply bin_field; exact H); try (eapply varint_field; exact H).
  destruct H as [H|(? & ? & ? & _ & _ & H)]; eapply str_field; exact H.
Qed.

(** Takes a fault apart. *)
Ltac fparts H := cbv beta in H;
  lazymatch type of H with
  | part _ _ _ _ _ => destruct H as [H|(? & ? & ? & ? & ? & H)]; fparts H
  | guard _ _ _ _ _ => destruct H as [[? H]|[? H]]; fparts H
  | fine _ _ => destruct H
  | False => destruct H
  | _ => idtac
  end.
Ltac fld := first [eapply section_field; eassumption | eapply str_field; eassumption | eapply bin_field; eassumption | eapply fixed_field; eassumption].

Lemma list_errs {A} (R : A -> bytes -> Prop) (F : fault) b e : list_faulty R F b e -> exists r, F r e.
Proof. intros (xs & l & r & _ & _ & _ & H). exists r. exact H. Qed.

Lemma body_vocabulary ft byte1 body e : byte1 < 256 -> body_faulty ft byte1 body e -> vocabulary ft (byte1 / 16) e.
Proof.
  intros H1 H. unfold body_faulty in H. pose proof (nibble_cases byte1 H1) as Hn. cbn [In] in Hn.
  assert (ACK : forall v b, ack_faulty ft v b e -> field_error_of ft e \/ exists c, e = InvalidConnectReturnCode c).
  { intros v b HH. unfold ack_faulty in HH. fparts HH; [left; fld|]. destruct x1 as [|code [|y r]]; [destruct HH|destruct HH as [_ ->]; eauto|].
    fparts HH; [left; fld|]. subst; eauto. }
  assert (COD : forall v b, codes_faulty ft v b e -> field_error_of ft e \/ exists c, e = InvalidSubscribeReasonCode c).
  { intros v b HH. unfold codes_faulty in HH. fparts HH; [left; fld|left; fld|]. destruct HH as [[_ ->]|HH]; [left; exact I|].
    apply list_errs in HH. destruct HH as [r HH]. unfold reason_faulty in HH. fparts HH. subst; eauto. }
  repeat (destruct Hn as [Hn|Hn]; [rewrite <- Hn in H |- *; unfold vocabulary |]); [..|destruct Hn].
  - exact H.
  - destruct H as [[_ ->]|[_ H]]; [auto|right]. unfold connect_faulty in H. fparts H; try (left; fld); subst.
    + auto.
    + right. right. left. eauto.
    + unfold will_faulty in H. destruct (N.testbit _ 2).
      * fparts H; try (left; fld). subst. auto.
      * fparts H. subst. auto.
    + unfold login_faulty, optional_str_faulty in H. fparts H; (match type of H with context [N.testbit ?a ?b] => destruct (N.testbit a b) end); first [left; fld|destruct H].
  - destruct H as [[_ ->]|[_ H]]; [auto|right]. unfold connack_faulty in H. fparts H; try (left; fld). subst. eauto.
  - destruct H as [[_ ->]|[_ H]]; [auto|right]. unfold publish_faulty in H. fparts H; try (left; fld); [subst; auto|].
    destruct (_ =? 0); [left; fld|]. fparts H; try (left; fld). subst. auto.
  - destruct H as [[_ ->]|[_ H]]; [auto|right]. eapply ACK; exact H.
  - destruct H as [[_ ->]|[_ H]]; [auto|right]. eapply ACK; exact H.
  - destruct H as [[_ ->]|[_ H]]; [auto|right]. eapply ACK; exact H.
  - destruct H as [[_ ->]|[_ H]]; [auto|right]. eapply ACK; exact H.
  - destruct H as [[_ ->]|[_ H]]; [auto|right]. unfold subscribe_faulty in H. fparts H; try (left; fld).
    destruct H as [[_ ->]|H]; [auto|]. apply list_errs in H. destruct H as [r H]. unfold filter_faulty in H.
    fparts H; try (left; fld); subst; auto.
  - destruct H as [[_ ->]|[_ H]]; [auto|right]. eapply COD; exact H.
  - destruct H as [[_ ->]|[_ H]]; [auto|right]. unfold unsubscribe_faulty in H. fparts H; try (left; fld).
    apply list_errs in H. destruct H as [r H]. left; fld.
  - destruct H as [[_ ->]|[_ H]]; [auto|right]. eapply COD; exact H.
  - destruct H.
  - destruct H.
  - unfold disconnect_faulty in H. fparts H; [subst; left; exact I|]. destruct body as [|code r]; [destruct H|].
    fparts H; [subst; eauto|left; fld].
  - exact H.
Qed.

(** Each packet type is rejected only with the errors of its vocabulary; an error that leaves
    the stream untouched is one of the fixed header.  In particular the errors of writing
    (BinaryDataTooLong, PayloadTooLong) are never returned. *)
Theorem C43_error_vocabulary ft max s e rest :
  bytes_ok s -> Packet_read ft s max = (Err e, rest) ->
  (rest = s /\ header_vocabulary e)
  \/ (exists byte1 body f, s = f ++ rest /\ framed byte1 body f /\ vocabulary ft (byte1 / 16) e).
Proof.
  intros Hs E. apply C42_errors_are_the_described_faults in E; [|exact Hs].
  destruct E as [[-> H]|(byte1 & body & f & -> & Hf & Hm & H)].
  - left. split; [reflexivity|].
    destruct H as [[H ->]|[(byte1 & t & -> & Hne & H)|(byte1 & lb & t & n & -> & Hw & [(m & -> & H & ->)|(_ & H & ->)])]]; cbn [header_vocabulary]; try lia.
    apply varint_errs in H. destruct H as [->| ->]; cbn; [lia|exact I].
  - right. exists byte1, body, f. split; [reflexivity|]. split; [exact Hf|]. apply (body_vocabulary ft byte1 body); [|exact H].
    eapply framed_byte1; [exact Hf|bok; auto].
Qed.
(** ** C34, continued *)

(** The binary_string build never complains about a string ... *)
Theorem C34_binary_never_complains max s :
  bytes_ok s -> fst (Packet_read F_binary s max) <> Err TopicNotUtf8.
Proof.
  intros Hs E. destruct (Packet_read F_binary s max) as [r rest] eqn:X. cbn [fst] in E. subst r.
  apply C43_error_vocabulary in X; [|exact Hs]. destruct X as [[_ []]|(byte1 & body & f & -> & Hf & H)].
  assert (H1 : byte1 < 256) by (eapply framed_byte1; [exact Hf|bok; auto]).
  pose proof (nibble_cases byte1 H1) as Hn. cbn [In] in Hn.
  repeat (destruct Hn as [Hn|Hn]; [rewrite <- Hn in H; unfold vocabulary in H; cbn [field_error_of] in H;
    repeat match goal with
    | H : _ \/ _ |- _ => destruct H | H : exists _, _ |- _ => destruct H | H : _ /\ _ |- _ => destruct H end;
    try discriminate; try congruence|]); destruct Hn.
Qed.
(** ... so it returns what the others return, whatever that is, unless they complain; and then it
    consumes the same. *)
Theorem C34_binary_against_the_others ft max s r rest :
  bytes_ok s -> ft <> F_binary -> Packet_read ft s max = (r, rest) ->
  snd (Packet_read F_binary s max) = rest
  /\ (fst (Packet_read F_binary s max) = r <-> r <> Err TopicNotUtf8).
Proof.
  intros Hs Hft E. pose proof (C34_binary_never_complains max s Hs) as B.
  destruct (read_stricter ft s max) as [X|[X Y]]; rewrite E in *; cbn [fst snd] in *.
  - rewrite <- X in *. cbn [fst snd] in *. tauto.
  - subst r. split; [congruence|]. split; [contradiction|congruence].
Qed.
(** All of them occur. *)
Example C43_examples : map (fun s => fst (Packet_read F_default s None))
  [ [0; 0]; [16; 0]; [16; 7; 0; 4; 77; 81; 84; 84; 4]; [16; 7; 0; 4; 77; 81; 84; 85; 5];
    [16; 13; 0; 4; 77; 81; 84; 84; 5; 8; 0; 0; 0; 0; 0];
    [16; 18; 0; 4; 77; 81; 84; 84; 5; 28; 0; 0; 0; 0; 0; 0; 0; 0; 0; 0];
    [32; 3; 0; 1; 0]; [54; 3; 0; 0; 0]; [50; 5; 0; 0; 0; 0; 0]; [48; 3; 0; 1; 255]; [48; 2; 0; 1];
    [64; 3; 0; 1; 1]; [64; 1; 0]; [130; 3; 0; 1; 0]; [130; 6; 0; 1; 0; 0; 0; 3]; [130; 6; 0; 1; 0; 0; 0; 48];
    [144; 4; 0; 1; 0; 3]; [64; 5; 0; 1; 0; 1; 1]; [64; 7; 0; 1; 0; 128; 128; 128; 128]; [64; 4; 0; 1; 0; 128] ]
  = [ Err (InvalidPacketType 0); Err PayloadRequired; Err (InvalidProtocolLevel 4); Err InvalidProtocol;
      Err IncorrectPacketFormat; Err (InvalidQoS 3);
      Err (InvalidConnectReturnCode 1); Err (InvalidQoS 3); Err PacketIdZero; Err TopicNotUtf8; Err (BoundaryCrossed 1);
      Err (InvalidConnectReturnCode 1); Err MalformedPacket; Err EmptySubscription; Err (InvalidQoS 3); Err (InvalidRetainForwardRule 3);
      Err (InvalidSubscribeReasonCode 3); Err (InvalidPropertyType 1); Err MalformedRemainingLength; Err (InsufficientBytes 1) ].
Proof. reflexivity. Qed.

(** ** Frames and their contents *)

Lemma frame_ok_iff ft max byte1 body f rest p : framed byte1 body f -> bytes_ok (f ++ rest) -> within max (blen body) ->
  Packet_read ft (f ++ rest) max = (Ok p, rest) <-> body_wire ft byte1 p body.
Proof.
  intros Hf Hb Hm. assert (H1 : byte1 < 256) by (eapply framed_byte1; [exact Hf|bok; auto]).
  assert (Hbody : bytes_ok body) by (destruct Hf as (lb & -> & _); bok; auto).
  rewrite (framed_read ft max byte1 body f rest) by (auto; bok; auto).
  rewrite <- (body_read_wire ft byte1 body p H1 Hbody).
  split; intros E; [exact (f_equal fst E)|f_equal; exact E].
Qed.
Lemma frame_err_iff ft max byte1 body f rest e : framed byte1 body f -> bytes_ok (f ++ rest) -> within max (blen body) ->
  Packet_read ft (f ++ rest) max = (Err e, rest) <-> body_faulty ft byte1 body e.
Proof.
  intros Hf Hb Hm. assert (H1 : byte1 < 256) by (eapply framed_byte1; [exact Hf|bok; auto]).
  assert (Hbody : bytes_ok body) by (destruct Hf as (lb & -> & _); bok; auto).
  rewrite (framed_read ft max byte1 body f rest) by (auto; bok; auto).
  rewrite <- (body_err ft byte1 body e H1 Hbody).
  split; intros E; [exact (f_equal fst E)|f_equal; exact E].
Qed.
Lemma decoded_frame ft max s p rest : bytes_ok s -> Packet_read ft s max = (Ok p, rest) ->
  exists byte1 body f, s = f ++ rest /\ framed byte1 body f /\ within max (blen body) /\ body_wire ft byte1 p body.
Proof.
  intros Hs E. apply C37_read_is_the_wire_language in E; [|exact Hs]. destruct E as (b1 & body & f & -> & F & B & M).
  exists b1, body, f. auto.
Qed.

(** ** C19 *)

(** The flags of a decoded PUBLISH are bits of the first byte; the packet identifier is 0
    exactly for QoS 0. *)
Theorem C19_header_bits ft max s p rest :
  bytes_ok s -> Packet_read ft s max = (Ok (P_Publish p), rest) ->
  exists byte1 body f, s = f ++ rest /\ framed byte1 body f /\ byte1 / 16 = 3
    /\ pu_dup p = N.testbit byte1 3
    /\ qos_num (pu_qos p) = (byte1 / 2) mod 4
    /\ pu_retain p = N.testbit byte1 0
    /\ (pu_pkid p = 0 <-> pu_qos p = AtMostOnce) /\ pu_pkid p < 65536.
Proof.
  intros Hs E. destruct (decoded_frame _ _ _ _ _ Hs E) as (byte1 & body & f & -> & Hf & _ & HB).
  cbn [body_wire] in HB. destruct HB as (H3 & H4 & H5 & H6 & _ & lt & li & ls & _ & _ & Hi & _).
  exists byte1, body, f. split; [reflexivity|]. split; [exact Hf|]. split; [exact H3|]. split; [exact H4|]. split; [exact H6|].
  split; [exact H5|]. destruct (pu_qos p).
  - destruct Hi as [Hi _]. split; [tauto|lia].
  - destruct Hi as [Hz [Hk _]]. split; [split; [contradiction|discriminate]|exact Hk].
  - destruct Hi as [Hz [Hk _]]. split; [split; [contradiction|discriminate]|exact Hk].
Qed.
(** QoS bits 3 are rejected, whatever the (non-empty) body. *)
Theorem C19_qos_3_rejected ft max byte1 body f rest :
  framed byte1 body f -> byte1 / 16 = 3 -> bytes_ok (f ++ rest) -> within max (blen body) ->
  forall q, Packet_read ft (f ++ rest) max = (Err (InvalidQoS q), rest)
  <-> q = 3 /\ body <> [] /\ (byte1 / 2) mod 4 = 3.
Proof.
  intros Hf H3 Hb Hm q. rewrite (frame_err_iff ft max byte1 body f rest _ Hf Hb Hm). unfold body_faulty. rewrite H3.
  assert (SF : forall a b, ~ section_faulty ft a b (InvalidQoS q)) by (intros a b X; apply section_field in X; exact X).
  split.
  - intros [[_ X]|[Hne H]]; [discriminate|]. unfold publish_faulty in H. destruct H as [[Hq X]|[Hq H]].
    + injection X as ->. split; [reflexivity|]. split; [exact Hne|]. destruct (N.eq_dec ((byte1 / 2) mod 4) 3); [assumption|contradiction].
    + exfalso. fparts H; [apply str_field in H; exact H|]. destruct (_ =? 0); [exact (SF _ _ H)|].
      fparts H; [apply (fixed_field ft) in H; exact H|discriminate|exact (SF _ _ H)].
  - intros (-> & Hne & Hq). right. split; [exact Hne|]. left. split; [tauto|reflexivity].
Qed.
(** A zero packet identifier with QoS 1 or 2 is rejected. *)
Theorem C19_zero_id_rejected ft max byte1 body f rest :
  framed byte1 body f -> byte1 / 16 = 3 -> bytes_ok (f ++ rest) -> within max (blen body) ->
  Packet_read ft (f ++ rest) max = (Err PacketIdZero, rest)
  <-> ((byte1 / 2) mod 4 = 1 \/ (byte1 / 2) mod 4 = 2)
      /\ exists topic lt after, body = lt ++ [0; 0] ++ after /\ str_wire ft topic lt.
Proof.
  intros Hf H3 Hb Hm. rewrite (frame_err_iff ft max byte1 body f rest _ Hf Hb Hm). unfold body_faulty. rewrite H3.
  assert (SF : forall a b, ~ section_faulty ft a b PacketIdZero) by (intros a b X; apply section_field in X; exact X).
  split.
  - intros [[_ X]|[Hne H]]; [discriminate|]. unfold publish_faulty in H. destruct H as [[_ X]|[Hq H]]; [discriminate|].
    destruct H as [H|(t & lt & r & -> & Ht & H)]; [apply str_field in H; destruct H|].
    destruct (N.eqb_spec ((byte1 / 2) mod 4) 0) as [E|E]; [destruct (SF _ _ H)|].
    destruct H as [H|(k & lk & r2 & -> & [Hk ->] & [[Hz _]|[_ H]])]; [apply (fixed_field ft) in H; destruct H| |destruct (SF _ _ H)].
    split; [lia|]. assert (k = 0) as -> by lia. exists t, lt, r2. auto.
  - intros [Hq (t & lt & after & -> & Ht)]. right. split.
    { apply str_wire_nonempty in Ht. destruct lt; [tauto|discriminate]. }
    right. split; [lia|]. right. exists t, lt, ([0; 0] ++ after). split; [reflexivity|]. split; [exact Ht|].
    destruct (N.eqb_spec ((byte1 / 2) mod 4) 0); [lia|]. right. exists 0, [0; 0], after. split; [reflexivity|].
    split; [split; [lia|reflexivity]|]. left. split; [tauto|reflexivity].
Qed.
Example C19_instances :
  Packet_read F_default [59; 7; 0; 1; 97; 0; 5; 0; 98] None
  = (Ok (P_Publish (mkPublish true AtLeastOnce true [97] 5 [98] None)), [])
  /\ Packet_read F_default [54; 7; 0; 1; 97; 0; 5; 0; 98] None = (Err (InvalidQoS 3), [])
  /\ Packet_read F_default [52; 7; 0; 1; 97; 0; 0; 0; 98] None = (Err PacketIdZero, []).
Proof. repeat split; reflexivity. Qed.

(** ** C20 *)

(** The payload is everything after the property section, any number of bytes. *)
Theorem C20_payload_is_the_rest ft max byte1 pre o ls payload f rest :
  byte1 / 16 = 3 -> before_section ft byte1 Main pre -> section_wire ft publish_allowed o ls ->
  framed byte1 (pre ++ ls ++ payload) f -> bytes_ok (f ++ rest) -> within max (blen (pre ++ ls ++ payload)) ->
  exists p, Packet_read ft (f ++ rest) max = (Ok (P_Publish p), rest) /\ pu_payload p = payload
    /\ pu_properties p = option_map PublishProperties_of o.
Proof.
  intros H3 Hp Hs Hf Hb Hm. unfold before_section in Hp. rewrite H3 in Hp. destruct Hp as (topic & lt & li & -> & Ht & Hi).
  assert (Hpay : bytes_ok payload) by (destruct Hf as (lb & -> & _); bok; auto).
  assert (exists q pkid, qos_num q = (byte1 / 2) mod 4
    /\ match q with AtMostOnce => pkid = 0 /\ li = [] | _ => pkid <> 0 /\ u16_wire pkid li end) as (q & pkid & Hq & Hk).
  { destruct Hi as [[E ->]|[[E|E] (k & Hk & Hw)]]; rewrite E; [exists AtMostOnce, 0|exists AtLeastOnce, k|exists ExactlyOnce, k]; auto. }
  exists (mkPublish (N.testbit byte1 3) q (N.testbit byte1 0) topic pkid payload (option_map PublishProperties_of o)).
  split; [|auto]. apply (frame_ok_iff ft max byte1 ((lt ++ li) ++ ls ++ payload) f rest); auto.
  cbn [body_wire]. split; [exact H3|]. unfold publish_wire. cbn [pu_dup pu_qos pu_retain pu_topic pu_pkid pu_payload pu_properties].
  split; [reflexivity|]. split; [reflexivity|]. split; [exact Hq|]. split; [exact Hpay|].
  exists lt, li, ls. split; [rewrite <- app_assoc; reflexivity|]. split; [exact Ht|]. split; [exact Hk|]. exists o. auto.
Qed.
(** In particular after a section whose length field is right and whose subscription
    identifiers fit (at most one always does, C24). *)
Theorem C20_payload_untouched ft max byte1 pre sp ls payload f rest :
  byte1 / 16 = 3 -> before_section ft byte1 Main pre ->
  Forall (spelled_wire ft publish_allowed) sp -> identifiers_fit sp -> exact_section sp ls ->
  framed byte1 (pre ++ ls ++ payload) f -> bytes_ok (f ++ rest) -> within max (blen (pre ++ ls ++ payload)) ->
  exists p, Packet_read ft (f ++ rest) max = (Ok (P_Publish p), rest) /\ pu_payload p = payload.
Proof.
  intros H3 Hp Hsp Hn Hx Hf Hb Hm. destruct (exact_is_section _ _ _ _ Hsp Hn Hx) as (o & S & _ & _).
  destruct (C20_payload_is_the_rest ft max byte1 pre o ls payload f rest H3 Hp S Hf Hb Hm) as (p & E & Q & _). exists p. auto.
Qed.
(** With subscription identifiers it can come out wrong (C21): the payload sent here is empty. *)
Example C20_identifiers_refuted :
  Packet_read F_default [48; 9; 0; 0; 6; 11; 1; 11; 2; 11; 3] None
  = (Ok (P_Publish (mkPublish false AtMostOnce false [] 0 [11; 3]
       (Some (mkPublishProperties None None None None None [] [1; 2] None)))), []).
Proof. reflexivity. Qed.

(** ** C39 *)

(** The short forms of the four acknowledgements. *)
Theorem C39_two_bytes ft max byte1 pkid f rest :
  framed byte1 (u16be pkid) f -> pkid < 65536 -> bytes_ok (f ++ rest) -> within max 2 ->
  (byte1 / 16 = 4 -> Packet_read ft (f ++ rest) max = (Ok (P_PubAck (mkPubAck pkid PAR_Success None)), rest))
  /\ (byte1 / 16 = 5 -> Packet_read ft (f ++ rest) max = (Ok (P_PubRec (mkPubRec pkid PRR_Success None)), rest))
  /\ (byte1 / 16 = 6 -> Packet_read ft (f ++ rest) max = (Ok (P_PubRel (mkPubRel pkid PLR_Success None)), rest))
  /\ (byte1 / 16 = 7 -> Packet_read ft (f ++ rest) max = (Ok (P_PubComp (mkPubComp pkid PCR_Success None)), rest)).
Proof.
  intros Hf Hk Hb Hm. repeat split; intros Ht; apply (frame_ok_iff ft max byte1 (u16be pkid) f rest); auto; (split; [exact Ht|]);
    exists (u16be pkid); (split; [split; [exact Hk|reflexivity]|]); left; auto.
Qed.
Theorem C39_three_bytes ft max byte1 pkid code f rest :
  framed byte1 (u16be pkid ++ [code]) f -> pkid < 65536 -> bytes_ok (f ++ rest) -> within max 3 ->
  (byte1 / 16 = 4 -> forall r, puback_code r = code ->
     Packet_read ft (f ++ rest) max = (Ok (P_PubAck (mkPubAck pkid r None)), rest))
  /\ (byte1 / 16 = 5 -> forall r, pubrec_code r = code ->
     Packet_read ft (f ++ rest) max = (Ok (P_PubRec (mkPubRec pkid r None)), rest))
  /\ (byte1 / 16 = 6 -> forall r, pubrel_code r = code ->
     Packet_read ft (f ++ rest) max = (Ok (P_PubRel (mkPubRel pkid r None)), rest))
  /\ (byte1 / 16 = 7 -> forall r, pubcomp_code r = code ->
     Packet_read ft (f ++ rest) max = (Ok (P_PubComp (mkPubComp pkid r None)), rest)).
Proof.
  intros Hf Hk Hb Hm. repeat split; intros Ht r Hr; apply (frame_ok_iff ft max byte1 (u16be pkid ++ [code]) f rest); auto; (split; [exact Ht|]);
    exists (u16be pkid); (split; [split; [exact Hk|reflexivity]|]); right; left; subst code; auto.
Qed.
(** Any other reason byte is rejected with an error carrying it. *)
Theorem C39_unknown_reason ft max byte1 pkid code f rest :
  framed byte1 (u16be pkid ++ [code]) f -> pkid < 65536 -> bytes_ok (f ++ rest) -> within max 3 ->
  (byte1 / 16 = 4 /\ (forall r, puback_code r <> code) \/ byte1 / 16 = 5 /\ (forall r, pubrec_code r <> code)
   \/ byte1 / 16 = 6 /\ (forall r, pubrel_code r <> code) \/ byte1 / 16 = 7 /\ (forall r, pubcomp_code r <> code)) ->
  Packet_read ft (f ++ rest) max = (Err (InvalidConnectReturnCode code), rest).
Proof.
  intros Hf Hk Hb Hm Ht. assert (M : within max (blen (u16be pkid ++ [code]))) by exact Hm.
  apply (frame_err_iff ft max byte1 _ f rest _ Hf Hb M).
  assert (ACK : forall (v : N -> Prop), ~ v code -> ack_faulty ft v (u16be pkid ++ [code]) (InvalidConnectReturnCode code)).
  { intros v Hv. right. exists pkid, (u16be pkid), [code]. split; [reflexivity|]. split; [split; [exact Hk|reflexivity]|]. auto. }
  assert (NE : u16be pkid ++ [code] <> []) by discriminate.
  unfold body_faulty.
  destruct Ht as [[E Hn]|[[E Hn]|[[E Hn]|[E Hn]]]]; rewrite E; right; (split; [exact NE|]); apply ACK; intros [r Hr]; exact (Hn r Hr).
Qed.
Example C39_instances :
  Packet_read F_default [80; 2; 1; 2] None = (Ok (P_PubRec (mkPubRec 258 PRR_Success None)), [])
  /\ Packet_read F_default [98; 3; 1; 2; 146] None = (Ok (P_PubRel (mkPubRel 258 PLR_PacketIdentifierNotFound None)), []).
Proof. split; reflexivity. Qed.
