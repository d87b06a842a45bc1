(** Writing: C10, C11, C12, C13, C14, C15, C28 (writing half). *)
From Verif Require Import Types Model Spec Wire PBase PVarint PRead PItems PProps PWrite Samples.
Ltac Zify.zify_post_hook ::= Z.div_mod_to_equations.

(** DISCONNECT with a reason other than normal disconnection and properties None. *)
Definition bare_disconnect (p : Packet) : Prop :=
  match p with
  | P_Disconnect d => di_reason_code d <> DRC_NormalDisconnection /\ di_properties d = None
  | _ => False
  end.
(** A buffer with one byte replaced. *)
Definition overwrite (i v : N) (b : bytes) : bytes :=
  firstn (N.to_nat i) b ++ v :: skipn (S (N.to_nat i)) b.

(** Packets written like any other: not CONNECT, not one of the mishandled shapes. *)
Lemma packet_write_eq p buf :
  is_connect p = false -> bad_disconnect p = false -> legacy_connack p = false ->
  Packet_write p buf = match first_error (packet_fields p) with
    | None => (Ok (blen (encode p)), buf ++ encode p)
    | Some e => (Err e, buf ++ fields_bytes (before_error (packet_fields p)))
    end.
Proof. intros H1 H2 H3. apply emits_eq. apply packet_emits; assumption. Qed.

Lemma bad_disconnect_cases p : bad_disconnect p = true ->
  exists d, p = P_Disconnect d /\ di_reason_code d <> DRC_NormalDisconnection
    /\ (di_properties d = None \/ exists q, di_properties d = Some q /\ DisconnectProperties_items q = []).
Proof.
  destruct p; cbn [bad_disconnect]; try discriminate. intros H. exists d. split; [reflexivity|].
  apply andb_true_iff in H. destruct H as [H1 H2]. split.
  - intros E. rewrite E in H1. discriminate.
  - destruct (di_properties d) as [q|]; [|left; reflexivity]. right. exists q. split; [reflexivity|].
    cbn [opt_items] in H2. destruct (DisconnectProperties_items q); [reflexivity|discriminate].
Qed.

Lemma pair_ok_inj {A B} (a n : A) (b b' : B) : (Ok a, b) = (Ok n, b') -> n = a /\ b' = b.
Proof. intros E. injection E as -> ->. auto. Qed.
Lemma overwrite_length i v b : i < blen b -> blen (overwrite i v b) = blen b.
Proof.
  intros H. unfold overwrite, blen in *. rewrite app_length, firstn_length. cbn [length]. rewrite skipn_length. lia.
Qed.
Lemma raw_length c w l : blen (fields_bytes (connect_raw c w l)) = blen (encode (P_Connect c w l)).
Proof.
  unfold connect_raw. destruct (connect_raw_split (bit (co_clean_start c) 2) c w l) as (post & E1 & E2).
  rewrite E1. unfold encode, packet_fields. cbn [first_byte body_fields].
  rewrite (E2 (connect_flags (co_clean_start c) w l)).
  rewrite !blen_app, !blen_cons. reflexivity.
Qed.
Lemma index_in_raw c w l : 8 + connect_count c w l < blen (fields_bytes (connect_raw c w l)).
Proof.
  unfold connect_raw. destruct (connect_raw_split (bit (co_clean_start c) 2) c w l) as (post & E1 & _).
  rewrite E1, blen_app, (blen_cons (bit _ _)), connect_prefix_len. lia.
Qed.

(** ** C13 (and the positive part of C10 and C12) *)

(** A packet whose fields all have an encoding is written as its MQTT 5 encoding (Spec.encode),
    appended to the buffer, and the number of bytes is returned.  Excluded: CONNECT into a
    non-empty buffer, the DISCONNECT shapes of C30 and the CONNACK codes without a code. *)
Theorem C13_write_is_the_encoding p buf :
  encodable p -> (is_connect p = true -> buf = []) ->
  bad_disconnect p = false -> legacy_connack p = false ->
  Packet_write p buf = (Ok (blen (encode p)), buf ++ encode p).
Proof.
  intros He Hc Hb Hl. apply first_error_forall in He.
  destruct (is_connect p) eqn:E.
  - rewrite (Hc eq_refl). destruct p as [c w l| | | | | | | | | | | | | ]; try discriminate. rewrite connect_empty, He. reflexivity.
  - rewrite packet_write_eq, He by assumption. reflexivity.
Qed.
(** The sample packets meet the hypotheses; two of the encodings in full. *)
Example C13_instances :
  Forall (fun p => encodable p /\ bad_disconnect p = false /\ legacy_connack p = false
            /\ Packet_write p [] = (Ok (blen (encode p)), encode p)) samples
  /\ encode s_subscribe
     = [130; 31; 0; 12; 18; 11; 160; 156; 1; 38; 0; 1; 107; 0; 2; 118; 49; 38; 0; 1; 107; 0; 0]
       ++ [0; 3; 97; 47; 98; 22] ++ [0; 1; 35; 40]
  /\ encode s_connect_plain = [16; 13; 0; 4; 77; 81; 84; 84; 5; 0; 0; 0; 0; 0; 0].
Proof.
  split; [|split; reflexivity]. apply Forall_forall. intros p Hp.
  pose proof (proj1 (Forall_forall _ _) samples_encodable p Hp) as He.
  assert (Hb : bad_disconnect p = false /\ legacy_connack p = false)
    by (clear He; repeat destruct Hp as [<-|Hp]; try contradiction; split; reflexivity).
  destruct Hb as [Hb Hl]. repeat (split; [assumption|]).
  apply C13_write_is_the_encoding; auto.
Qed.
(** Conversely a successful write was of an encodable packet. *)
Theorem C13_success_means_encoding p buf n buf' :
  Packet_write p buf = (Ok n, buf') ->
  (is_connect p = true -> buf = []) -> bad_disconnect p = false ->
  encodable p /\ n = blen (encode p) /\ buf' = buf ++ encode p.
Proof.
  intros E Hc Hb.
  assert (Hl : legacy_connack p = false).
  { destruct (legacy_connack p) eqn:L; [|reflexivity]. destruct p; try discriminate. cbn [legacy_connack] in L.
    rewrite (legacy_write _ _ L) in E. cbv zeta in E. destruct (_ <=? _); discriminate. }
  assert (He : encodable p).
  { apply first_error_forall. destruct (first_error (packet_fields p)) eqn:F; [|reflexivity]. exfalso.
    destruct (is_connect p) eqn:C.
    - rewrite (Hc eq_refl) in E. destruct p as [c w l| | | | | | | | | | | | | ]; try discriminate. rewrite connect_empty, F in E. discriminate.
    - rewrite packet_write_eq, F in E by assumption. discriminate. }
  rewrite C13_write_is_the_encoding in E by assumption. injection E as <- <-. auto.
Qed.

(** ** C14 *)

(** Written without error iff every field has an encoding ... *)
Theorem C14_write_ok_iff_encodable p buf :
  legacy_connack p = false -> bad_disconnect p = false ->
  (exists n, fst (Packet_write p buf) = Ok n) <-> encodable p.
Proof.
  intros Hl Hb. unfold encodable. rewrite <- first_error_forall. destruct (is_connect p) eqn:C.
  - destruct p as [c w l| | | | | | | | | | | | | ]; try discriminate. rewrite connect_eq. unfold connect_raw at 1.
    rewrite (first_error_flags _ (connect_flags (co_clean_start c) w l)).
    change (frame_fields 16 (connect_fields (connect_flags (co_clean_start c) w l) c w l))
      with (packet_fields (P_Connect c w l)).
    destruct (first_error _); cbn [fst]; split; intros H; try discriminate; eauto. destruct H as [n H]; discriminate.
  - rewrite packet_write_eq by assumption. destruct (first_error _); cbn [fst]; split; intros H; try discriminate; eauto.
    destruct H as [n H]; discriminate.
Qed.
(** Packets that are not encodable, one per reason: packet identifier 0, a string of 65536
    bytes, a subscription identifier above 268435455. *)
Example C14_instances :
  let no_id := P_Publish (mkPublish false AtLeastOnce false t_topic 0 [] None) in
  let long := P_Unsubscribe (mkUnsubscribe 1 [repeat 97 (N.to_nat 65536)] None) in
  let big_id := P_Subscribe (mkSubscribe 1 [] (Some (mkSubscribeProperties (Some 268435456) []))) in
  map (fun p => (first_error (packet_fields p), fst (Packet_write p []))) [no_id; long; big_id]
  = [(Some PacketIdZero, Err PacketIdZero); (Some BinaryDataTooLong, Err BinaryDataTooLong);
     (Some PayloadTooLong, Err PayloadTooLong)].
Proof. vm_compute. reflexivity. Qed.
(** ... otherwise the error is that of the first field, in wire order, without an encoding
    (Spec.field_error: BinaryDataTooLong, PayloadTooLong or PacketIdZero). *)
Theorem C14_write_error_is_first_cause p buf :
  legacy_connack p = false -> bad_disconnect p = false ->
  forall e, fst (Packet_write p buf) = Err e <-> first_error (packet_fields p) = Some e.
Proof.
  intros Hl Hb e. destruct (is_connect p) eqn:C.
  - destruct p as [c w l| | | | | | | | | | | | | ]; try discriminate. rewrite connect_eq. unfold connect_raw at 1.
    rewrite (first_error_flags _ (connect_flags (co_clean_start c) w l)).
    change (frame_fields 16 (connect_fields (connect_flags (co_clean_start c) w l) c w l))
      with (packet_fields (P_Connect c w l)).
    destruct (first_error _); cbn [fst]; split; intros H; congruence.
  - rewrite packet_write_eq by assumption. destruct (first_error _); cbn [fst]; split; intros H; congruence.
Qed.
Theorem C14_write_errors p buf e :
  fst (Packet_write p buf) = Err e -> e = BinaryDataTooLong \/ e = PayloadTooLong \/ e = PacketIdZero.
Proof.
  assert (X : forall l e, first_error l = Some e -> e = BinaryDataTooLong \/ e = PayloadTooLong \/ e = PacketIdZero).
  { clear. induction l as [|f l IH]; intros e; cbn [first_error]; [discriminate|].
    destruct (field_error f) eqn:E; [|apply IH]. intros H; injection H as <-.
    destruct f; cbn [field_error] in E; try discriminate.
    - destruct (n <=? max_varint); [discriminate|]. injection E as <-. auto.
    - destruct (blen s <=? 65535); [discriminate|]. injection E as <-. auto.
    - destruct (n =? 0); [|discriminate]. injection E as <-. auto. }
  intros H. destruct (legacy_connack p) eqn:L.
  { destruct p; try discriminate. cbn [legacy_connack] in L. rewrite (legacy_write _ _ L) in H. cbv zeta in H.
    destruct (_ <=? _); cbn [fst] in H; [discriminate|]. injection H as <-. auto. }
  destruct (bad_disconnect p) eqn:B.
  { apply bad_disconnect_cases in B. destruct B as (d & -> & Hr & [Hp|(q & Hq & Hi)]).
    - rewrite bad_disconnect_none in H by assumption. discriminate.
    - rewrite (bad_disconnect_empty _ _ _ Hq Hi) in H. discriminate. }
  apply C14_write_error_is_first_cause in H; [|assumption|assumption]. eapply X; exact H.
Qed.
(** The two DISCONNECT shapes are always written. *)
Theorem C14_bad_disconnect_always_ok p buf :
  bad_disconnect p = true -> exists n, fst (Packet_write p buf) = Ok n.
Proof.
  intros B. apply bad_disconnect_cases in B. destruct B as (d & -> & Hr & [Hp|(q & Hq & Hi)]).
  - rewrite bad_disconnect_none by assumption. eexists. reflexivity.
  - rewrite (bad_disconnect_empty _ _ _ Hq Hi). eexists. reflexivity.
Qed.
(** Writing panics exactly for the three CONNACK codes without an MQTT 5 code (when the body is
    not too long in the first place), and never runs forever. *)
Theorem C14_write_panics_iff_legacy p buf :
  fst (Packet_write p buf) = Panic
  <-> legacy_connack p = true /\ blen (fields_bytes (body_fields p)) <= max_varint.
Proof.
  destruct (legacy_connack p) eqn:L.
  - destruct p; try discriminate. cbn [legacy_connack] in L. rewrite (legacy_write _ _ L). cbv zeta.
    destruct (N.leb_spec (blen (fields_bytes (body_fields (P_ConnAck a)))) max_varint); cbn [fst]; split;
      intros X; try discriminate; try (split; [reflexivity|assumption]); try reflexivity. lia.
  - split; [|intros [X _]; discriminate]. intros H. exfalso.
    destruct (bad_disconnect p) eqn:B.
    { destruct (C14_bad_disconnect_always_ok p buf B) as [n E]. congruence. }
    destruct (first_error (packet_fields p)) as [e|] eqn:F.
    + apply (C14_write_error_is_first_cause p buf L B) in F. congruence.
    + apply first_error_forall in F. apply (C14_write_ok_iff_encodable p buf L B) in F. destruct F as [n F]. congruence.
Qed.
Example C14_panic_instance :
  fst (Packet_write (P_ConnAck (mkConnAck false CRC_BadClientId None)) []) = Panic
  /\ fst (Packet_write s_connack_refused []) = Ok 5.
Proof. split; reflexivity. Qed.
Theorem C14_write_never_diverges p buf : fst (Packet_write p buf) <> Diverge.
Proof.
  intros H. destruct (legacy_connack p) eqn:L.
  { destruct p; try discriminate. cbn [legacy_connack] in L. rewrite (legacy_write _ _ L) in H. cbv zeta in H.
    destruct (_ <=? _); discriminate. }
  destruct (bad_disconnect p) eqn:B.
  { destruct (C14_bad_disconnect_always_ok p buf B) as [n E]. congruence. }
  destruct (first_error (packet_fields p)) as [e|] eqn:F.
  + apply (C14_write_error_is_first_cause p buf L B) in F. congruence.
  + apply first_error_forall in F. apply (C14_write_ok_iff_encodable p buf L B) in F. destruct F as [n F]. congruence.
Qed.

(** ** C10 *)

(** The number returned is the growth of the buffer, except for a bare DISCONNECT. *)
Theorem C10_write_returns_growth p buf n buf' :
  Packet_write p buf = (Ok n, buf') -> ~ bare_disconnect p -> blen buf' = blen buf + n.
Proof.
  intros E Hb. destruct (bad_disconnect p) eqn:B.
  { apply bad_disconnect_cases in B. destruct B as (d & -> & Hr & [Hp|(q & Hq & Hi)]).
    - exfalso. apply Hb. split; assumption.
    - rewrite (bad_disconnect_empty _ _ _ Hq Hi) in E. injection E as <- <-. rewrite blen_app. reflexivity. }
  destruct (is_connect p) eqn:C.
  - destruct p as [c w l| | | | | | | | | | | | | ]; try discriminate. rewrite connect_eq in E. destruct (first_error _); [discriminate|].
    apply pair_ok_inj in E. destruct E as [-> ->]. change patch with overwrite. rewrite overwrite_length.
    + rewrite blen_app, raw_length. reflexivity.
    + pose proof (index_in_raw c w l). rewrite blen_app. lia.
  - destruct (C13_success_means_encoding p buf n buf' E) as (_ & -> & ->); [congruence|exact B|].
    apply blen_app.
Qed.
(** Refutation of C10 as stated: a bare DISCONNECT returns 3 but appends 4 bytes. *)
Theorem C10_bare_disconnect_refuted p buf :
  bare_disconnect p -> exists buf', Packet_write p buf = (Ok 3, buf') /\ blen buf' = blen buf + 4.
Proof.
  destruct p; cbn [bare_disconnect]; try contradiction. intros [H1 H2].
  rewrite bad_disconnect_none by assumption. eexists. split; [reflexivity|]. rewrite blen_app. reflexivity.
Qed.
Example C10_instances :
  Packet_write s_puback [1; 2] = (Ok 24, [1; 2] ++ encode s_puback) /\ blen (encode s_puback) = 24
  /\ ~ bare_disconnect s_puback
  /\ bare_disconnect (P_Disconnect (mkDisconnect DRC_ServerBusy None))
  /\ Packet_write (P_Disconnect (mkDisconnect DRC_ServerBusy None)) [] = (Ok 3, [224; 1; 137; 0]).
Proof. repeat split; cbn; try discriminate; tauto. Qed.

(** ** C11 *)

(** size() of the packet types that offer it. *)
Definition size_of (p : Packet) : option N :=
  match p with
  | P_Publish x => Some (Publish_size x)
  | P_ConnAck x => Some (ConnAck_size x)
  | P_PubAck x => Some (PubAck_size x)
  | P_PubRec x => Some (PubRec_size x)
  | P_PubRel x => Some (PubRel_size x)
  | P_PubComp x => Some (PubComp_size x)
  | P_Subscribe x => Some (Subscribe_size x)
  | P_SubAck x => Some (SubAck_size x)
  | P_Unsubscribe x => Some (Unsubscribe_size x)
  | P_UnsubAck x => Some (UnsubAck_size x)
  | P_Disconnect x => Some (Disconnect_size x)
  | P_Connect _ _ _ | P_PingReq | P_PingResp => None
  end.
Lemma frame_size' byte1 body : blen (fields_bytes (frame_fields byte1 body))
  = 1 + len_len (blen (fields_bytes body)) + blen (fields_bytes body).
Proof. rewrite frame_size, varint_len. reflexivity. Qed.
Theorem C11_size_is_write_result p buf n buf' m :
  Packet_write p buf = (Ok n, buf') -> size_of p = Some m -> m = n.
Proof.
  intros E S. destruct (bad_disconnect p) eqn:B.
  { apply bad_disconnect_cases in B. destruct B as (d & -> & Hr & [Hp|(q & Hq & Hi)]).
    - rewrite bad_disconnect_none in E by assumption. injection E as <- <-. injection S as <-.
      unfold Disconnect_size. rewrite Disconnect_len_cases, Hp. cbn [is_none].
      destruct (disconnect_code (di_reason_code d) =? 0) eqn:Z; [|reflexivity].
      exfalso. apply Hr. destruct (di_reason_code d); try discriminate. reflexivity.
    - rewrite (bad_disconnect_empty _ _ _ Hq Hi) in E. injection E as <- <-. injection S as <-.
      unfold Disconnect_size. rewrite Disconnect_len_cases, Hq. cbn [is_none opt_items].
      rewrite andb_false_r, Hi. reflexivity. }
  assert (Hc : is_connect p = false) by (destruct p; try reflexivity; discriminate).
  destruct (C13_success_means_encoding p buf n buf' E) as (_ & -> & _); [congruence|exact B|].
  unfold encode, packet_fields. rewrite frame_size'.
  destruct p; cbn [size_of] in S; try discriminate; injection S as <-.
  - unfold ConnAck_size. rewrite ConnAck_len_eq. reflexivity.
  - unfold Publish_size. rewrite Publish_len_eq. reflexivity.
  - unfold PubAck_size. rewrite PubAck_len_eq, PubAck_short.
    destruct (_ && _) eqn:Z; [|reflexivity]. cbn [body_fields]. unfold ack_fields. rewrite Z. reflexivity.
  - unfold Subscribe_size. rewrite Subscribe_len_eq. reflexivity.
  - unfold SubAck_size. rewrite SubAck_len_eq. reflexivity.
  - unfold PubRec_size. rewrite PubRec_len_eq. reflexivity.
  - unfold PubRel_size. rewrite PubRel_len_eq, PubRel_short.
    destruct (_ && _) eqn:Z; [|reflexivity]. cbn [body_fields]. unfold ack_fields. rewrite Z. reflexivity.
  - unfold PubComp_size. rewrite PubComp_len_eq, PubComp_short.
    destruct (_ && _) eqn:Z; [|reflexivity]. cbn [body_fields]. unfold ack_fields. rewrite Z. reflexivity.
  - unfold Unsubscribe_size. rewrite Unsubscribe_len_eq. reflexivity.
  - unfold UnsubAck_size. rewrite UnsubAck_len_eq. reflexivity.
  - unfold Disconnect_size. rewrite Disconnect_len_cases. cbn [bad_disconnect body_fields] in *.
    destruct (di_properties d) as [q|]; cbn [is_none opt_items] in *.
    + rewrite andb_false_r.
      destruct (DisconnectProperties_items q) as [|i l] eqn:I; cbn [nonempty negb] in *.
      * rewrite andb_true_r in *. destruct (disconnect_code (di_reason_code d) =? 0); [reflexivity|discriminate].
      * rewrite andb_false_r. cbn [app]. rewrite fsize_cons. change (blen (field_bytes (FByte _))) with 1.
        destruct (N.eqb_spec (1 + blen (fields_bytes (section_fields (i :: l)))) 2) as [Z|_]; [|reflexivity].
        exfalso. assert (Z' : blen (fields_bytes (section_fields (i :: l))) = 1) by lia.
        apply section_two in Z'. discriminate.
    + cbn [nonempty negb] in *. rewrite andb_true_r in *.
      destruct (disconnect_code (di_reason_code d) =? 0); [reflexivity|discriminate].
Qed.
(** Hence size() is the number of bytes appended, except for a bare DISCONNECT. *)
Theorem C11_size_is_growth p buf n buf' m :
  Packet_write p buf = (Ok n, buf') -> size_of p = Some m -> ~ bare_disconnect p ->
  blen buf' = blen buf + m.
Proof.
  intros E S B. rewrite (C11_size_is_write_result p buf n buf' m E S). eapply C10_write_returns_growth; eassumption.
Qed.
Example C11_instances :
  size_of s_publish = Some (blen (encode s_publish)) /\ size_of s_suback = Some 11
  /\ size_of (P_Disconnect (mkDisconnect DRC_ServerBusy None)) = Some 3.
Proof. repeat split. Qed.

(** ** C12 *)

(** For every packet but CONNECT there are an outcome and appended bytes that do not depend on
    what is in the buffer, which is left as it was. *)
Theorem C12_write_only_appends p :
  is_connect p = false -> exists r app, forall buf, Packet_write p buf = (r, buf ++ app).
Proof.
  intros C. destruct (legacy_connack p) eqn:L.
  { destruct p; try discriminate. cbn [legacy_connack] in L.
    destruct (N.leb_spec (blen (fields_bytes (body_fields (P_ConnAck a)))) max_varint) as [H|H].
    - eexists _, _. intros buf. rewrite (legacy_write _ _ L). cbv zeta. rewrite (proj2 (N.leb_le _ _) H). reflexivity.
    - eexists _, _. intros buf. rewrite (legacy_write _ _ L). cbv zeta. rewrite (proj2 (N.leb_gt _ _) H). reflexivity. }
  destruct (bad_disconnect p) eqn:B.
  { apply bad_disconnect_cases in B. destruct B as (d & -> & Hr & [Hp|(q & Hq & Hi)]).
    - eexists _, _. intros buf. apply bad_disconnect_none; assumption.
    - eexists _, _. intros buf. apply (bad_disconnect_empty _ _ _ Hq Hi). }
  destruct (first_error (packet_fields p)) as [e|] eqn:F.
  - eexists _, _. intros buf. rewrite packet_write_eq, F by assumption. reflexivity.
  - eexists _, _. intros buf. rewrite packet_write_eq, F by assumption. reflexivity.
Qed.
(** So does a CONNECT that fails. *)
Theorem C12_failing_connect_only_appends c w l e :
  first_error (packet_fields (P_Connect c w l)) = Some e ->
  exists app, forall buf, Packet_write (P_Connect c w l) buf = (Err e, buf ++ app).
Proof.
  intros F. eexists. intros buf. rewrite connect_eq. unfold connect_raw at 1.
  rewrite (first_error_flags _ (connect_flags (co_clean_start c) w l)).
  change (frame_fields 16 (connect_fields (connect_flags (co_clean_start c) w l) c w l))
    with (packet_fields (P_Connect c w l)).
  rewrite F. reflexivity.
Qed.
(** A successful CONNECT appends its encoding with a flags byte that holds clean start only, then
    overwrites the byte at absolute index 8 + (bytes of the remaining length) with the flags. *)
Theorem C12_connect_patches_absolute_index c w l buf :
  encodable (P_Connect c w l) ->
  exists before after flags_at,
    encode (P_Connect c w l) = before ++ connect_flags (co_clean_start c) w l :: after
    /\ blen before = flags_at
    /\ flags_at = 8 + blen (varint (blen (fields_bytes (body_fields (P_Connect c w l)))))
    /\ Packet_write (P_Connect c w l) buf
       = (Ok (blen (encode (P_Connect c w l))),
          overwrite flags_at (connect_flags (co_clean_start c) w l)
            (buf ++ before ++ bit (co_clean_start c) 2 :: after)).
Proof.
  intros F. apply first_error_forall in F.
  destruct (connect_raw_split (bit (co_clean_start c) 2) c w l) as (post & E1 & E2).
  eexists _, post, _. split; [|split; [|split]].
  - unfold encode, packet_fields. cbn [first_byte body_fields]. apply E2.
  - apply connect_prefix_len.
  - unfold connect_count. f_equal. f_equal. f_equal. apply Connect_len_eq.
  - rewrite connect_eq. unfold connect_raw at 1.
    rewrite (first_error_flags _ (connect_flags (co_clean_start c) w l)).
    change (frame_fields 16 (connect_fields (connect_flags (co_clean_start c) w l) c w l))
      with (packet_fields (P_Connect c w l)).
    rewrite F. unfold connect_raw. rewrite E1. reflexivity.
Qed.
Lemma nth_error_overwrite i v (b : bytes) : i < blen b -> nth_error (overwrite i v b) (N.to_nat i) = Some v.
Proof.
  intros H. unfold overwrite, blen in *.
  rewrite nth_error_app2; rewrite firstn_length; [|lia].
  replace (N.to_nat i - Nat.min (N.to_nat i) (length b))%nat with 0%nat by lia. reflexivity.
Qed.
(** Refutation of C12 for CONNECT: whenever the buffer holds at least 13 bytes and its byte at
    that index differs from the flags, that byte of an earlier packet is destroyed. *)
Theorem C12_connect_destroys_earlier_bytes_refuted c w l buf :
  encodable (P_Connect c w l) -> 12 < blen buf ->
  let i := 8 + blen (varint (blen (fields_bytes (body_fields (P_Connect c w l))))) in
  nth_error buf (N.to_nat i) <> Some (connect_flags (co_clean_start c) w l) ->
  forall app, snd (Packet_write (P_Connect c w l) buf) <> buf ++ app.
Proof.
  intros He Hl i Hn app E.
  destruct (C12_connect_patches_absolute_index c w l buf He) as (before & after & k & _ & Hk1 & Hk & Ew).
  rewrite Ew in E. cbn [snd] in E. fold i in Hk. rewrite Hk in E.
  assert (Hi : i < blen buf).
  { unfold i. rewrite varint_len.
    assert (Y : forall n, len_len n <= 4)
      by (intros n; unfold len_len; destruct (2097152 <=? n), (16384 <=? n), (128 <=? n); lia).
    specialize (Y (blen (fields_bytes (body_fields (P_Connect c w l))))). lia. }
  apply (f_equal (fun b => nth_error b (N.to_nat i))) in E.
  rewrite nth_error_overwrite in E by (rewrite blen_app; lia).
  rewrite nth_error_app1 in E by (unfold blen in Hi; lia). congruence.
Qed.
(** The same CONNECT written after 13 zero bytes: the flags land in the ninth of them, and the
    flags byte of the packet holds only "clean start". *)
Example C12_instance :
  let p := P_Connect (mkConnect 0 [] true None) None (Some (mkLogin [117] [])) in
  encodable p
  /\ Packet_write p [] = (Ok 18, [16; 16; 0; 4; 77; 81; 84; 84; 5; 130; 0; 0; 0; 0; 0; 0; 1; 117])
  /\ Packet_write p (repeat 0 13)
     = (Ok 18, [0; 0; 0; 0; 0; 0; 0; 0; 0; 130; 0; 0; 0] ++ [16; 16; 0; 4; 77; 81; 84; 84; 5; 2; 0; 0; 0; 0; 0; 0; 1; 117]).
Proof. repeat split. repeat constructor. Qed.

(** ** C15 *)

(** A failed write keeps the old contents, but always leaves at least one byte of the failed
    packet behind, so no failing write leaves the buffer unchanged; for every packet but
    CONNECT the leftovers are the beginning of what would be its encoding. *)
Theorem C15_failed_write_leaves_bytes_refuted p buf e buf' :
  Packet_write p buf = (Err e, buf') -> exists app, buf' = buf ++ app /\ app <> [].
Proof.
  assert (X : forall byte1 body, fields_bytes (before_error (frame_fields byte1 body)) <> []).
  { intros. unfold frame_fields. cbn [before_error field_error]. discriminate. }
  intros E. destruct (legacy_connack p) eqn:L.
  { destruct p; try discriminate. cbn [legacy_connack] in L. rewrite (legacy_write _ _ L) in E. cbv zeta in E.
    destruct (_ <=? _); [discriminate|]. injection E as <- <-. exists [32]. split; [reflexivity|discriminate]. }
  destruct (bad_disconnect p) eqn:B.
  { destruct (C14_bad_disconnect_always_ok p buf B) as [n Y]. rewrite E in Y. discriminate. }
  destruct (is_connect p) eqn:C.
  - destruct p as [c w l| | | | | | | | | | | | | ]; try discriminate. rewrite connect_eq in E.
    destruct (first_error _); [|discriminate].
    apply (f_equal snd) in E. cbn [snd] in E. eexists. split; [symmetry; exact E|apply X].
  - rewrite packet_write_eq in E by assumption. destruct (first_error _); [|discriminate].
    apply (f_equal snd) in E. cbn [snd] in E. eexists. split; [symmetry; exact E|apply X].
Qed.
Theorem C15_leftovers_are_a_prefix p buf e buf' :
  Packet_write p buf = (Err e, buf') -> is_connect p = false ->
  exists app more, buf' = buf ++ app /\ encode p = app ++ more.
Proof.
  intros E C. destruct (legacy_connack p) eqn:L.
  { destruct p; try discriminate. cbn [legacy_connack] in L. rewrite (legacy_write _ _ L) in E. cbv zeta in E.
    destruct (_ <=? _); [discriminate|]. injection E as <- <-. exists [32]. eexists. split; reflexivity. }
  destruct (bad_disconnect p) eqn:B.
  { destruct (C14_bad_disconnect_always_ok p buf B) as [n Y]. rewrite E in Y. discriminate. }
  rewrite packet_write_eq in E by assumption. destruct (first_error _); [|discriminate].
  apply (f_equal snd) in E. cbn [snd] in E. destruct (before_error_prefix (packet_fields p)) as [r Hr].
  eexists _, r. split; [symmetry; exact E|exact Hr].
Qed.
(** Exactly: the fields of the packet up to the first that has no encoding are left behind, for
    CONNECT with a flags byte that holds clean start only. *)
Definition fields_in_order (p : Packet) : list field :=
  match p with
  | P_Connect c w l => frame_fields 16 (connect_fields (bit (co_clean_start c) 2) c w l)
  | _ => packet_fields p
  end.
Lemma before_error_split l e : first_error l = Some e ->
  exists f after, l = before_error l ++ f :: after /\ field_error f = Some e /\ Forall (fun g => field_error g = None) (before_error l).
Proof.
  induction l as [|f l IH]; cbn [first_error before_error]; [discriminate|]. destruct (field_error f) as [e'|] eqn:F.
  - intros E. injection E as ->. exists f, l. auto.
  - intros E. destruct (IH E) as (g & after & E1 & E2 & E3). exists g, after. split; [cbn [app]; f_equal; exact E1|].
    split; [exact E2|]. constructor; assumption.
Qed.
Theorem C15_leftovers_exactly p buf e buf' :
  Packet_write p buf = (Err e, buf') ->
  exists before f after, fields_in_order p = before ++ f :: after
    /\ Forall (fun g => field_error g = None) before /\ field_error f = Some e
    /\ buf' = buf ++ fields_bytes before.
Proof.
  assert (X : forall l, first_error l = Some e -> buf' = buf ++ fields_bytes (before_error l) ->
    exists before f after, l = before ++ f :: after
    /\ Forall (fun g => field_error g = None) before /\ field_error f = Some e
    /\ buf' = buf ++ fields_bytes before).
  { intros l H1 H2. destruct (before_error_split l e H1) as (f & after & E1 & E2 & E3).
    exists (before_error l), f, after. auto. }
  intros E. destruct (legacy_connack p) eqn:L.
  { destruct p as [c w l|a|p|a| | |s|a|a|a|a|u|a|d]; try discriminate. cbn [legacy_connack] in L. rewrite (legacy_write _ _ L) in E. cbv zeta in E.
    destruct (N.leb_spec (blen (fields_bytes (body_fields (P_ConnAck a)))) max_varint) as [H|H]; [discriminate|]. injection E as <- <-.
    apply X; unfold fields_in_order, packet_fields, frame_fields; cbn [first_error before_error field_error];
      rewrite (proj2 (N.leb_gt _ _)) by exact H; reflexivity. }
  destruct (bad_disconnect p) eqn:B.
  { destruct (C14_bad_disconnect_always_ok p buf B) as [n Y]. rewrite E in Y. discriminate. }
  destruct (is_connect p) eqn:C.
  - destruct p as [c w l|a|p|a| | |s|a|a|a|a|u|a|d]; try discriminate. rewrite connect_eq in E.
    change (fields_in_order (P_Connect c w l)) with (connect_raw c w l).
    destruct (first_error (connect_raw c w l)) as [e'|] eqn:F; [|discriminate].
    pose proof (f_equal fst E) as E1. pose proof (f_equal snd E) as E2. cbn [fst snd] in E1, E2. assert (e' = e) by congruence. subst e'.
    apply X; [exact F|symmetry; exact E2].
  - rewrite packet_write_eq in E by assumption. destruct (first_error (packet_fields p)) as [e'|] eqn:F; [|discriminate].
    pose proof (f_equal fst E) as E1. pose proof (f_equal snd E) as E2. cbn [fst snd] in E1, E2. assert (e' = e) by congruence. subst e'.
    assert (Y : fields_in_order p = packet_fields p) by (destruct p; try reflexivity; discriminate C).
    rewrite Y. apply X; [exact F|symmetry; exact E2].
Qed.
(** A CONNECT with a user name that is too long: everything before it is left, the flags (here
    clean start) without the bit of the user name. *)
Example C15_connect_instance : let long := repeat 97 (N.to_nat 65536) in
  Packet_write (P_Connect (mkConnect 10 [97] true None) None (Some (mkLogin long []))) [192; 0]
  = (Err BinaryDataTooLong, [192; 0] ++ [16; 144; 128; 4; 0; 4; 77; 81; 84; 84; 5; 2; 0; 10; 0; 0; 1; 97]).
Proof. vm_compute. reflexivity. Qed.
(** A QoS 1 PUBLISH without packet identifier leaves its header and topic behind. *)
Example C15_instance :
  Packet_write (P_Publish (mkPublish false AtLeastOnce false t_topic 0 [9] None)) [192; 0]
  = (Err PacketIdZero, [192; 0] ++ [50; 7; 0; 3; 97; 47; 98]).
Proof. reflexivity. Qed.
