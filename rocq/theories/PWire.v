(** The body readers accept exactly the language of Wire.v. *)
From Verif Require Import Types MLib MConnect Model Spec Wire PBase PVarint PUtf8 PRead PItems PProps PFrame.
Ltac Zify.zify_post_hook ::= Z.div_mod_to_equations.

(** ---------- Codes ---------- *)

Ltac code_tac n :=
  destruct n as [|n]; [try (left; eexists; reflexivity); try (right; reflexivity)|];
  do 8 (try (destruct n as [n|n|]; try (left; eexists; reflexivity); try (right; reflexivity))).
Ltac code_inv n :=
  destruct n as [|n]; [intros H; first [discriminate H | injection H as <-; reflexivity]|];
  do 8 (try (destruct n as [n|n|];
             try (intros H; first [discriminate H | injection H as <-; reflexivity]))).

Lemma connect_return_inv n r : connect_return n = Ok r -> connack_code r = n.
Proof. unfold connect_return. code_inv n. Qed.
Lemma connect_return_code r : legacy_code r = false -> connect_return (connack_code r) = Ok r.
Proof. intros H; destruct r; try discriminate H; reflexivity. Qed.
Lemma connect_return_total n : (exists r, connect_return n = Ok r) \/ connect_return n = Err (InvalidConnectReturnCode n).
Proof. unfold connect_return. code_tac n. Qed.
Lemma connect_return_legacy n r : connect_return n = Ok r -> legacy_code r = false.
Proof. unfold connect_return. code_inv n. Qed.

Lemma PubAck_reason_inv n r : PubAck_reason n = Ok r -> puback_code r = n.
Proof. unfold PubAck_reason. code_inv n. Qed.
Lemma PubAck_reason_code r : PubAck_reason (puback_code r) = Ok r.
Proof. destruct r; reflexivity. Qed.
Lemma PubAck_reason_total n : (exists r, PubAck_reason n = Ok r) \/ PubAck_reason n = Err (InvalidConnectReturnCode n).
Proof. unfold PubAck_reason. code_tac n. Qed.

Lemma PubRec_reason_inv n r : PubRec_reason n = Ok r -> pubrec_code r = n.
Proof. unfold PubRec_reason. code_inv n. Qed.
Lemma PubRec_reason_code r : PubRec_reason (pubrec_code r) = Ok r.
Proof. destruct r; reflexivity. Qed.
Lemma PubRec_reason_total n : (exists r, PubRec_reason n = Ok r) \/ PubRec_reason n = Err (InvalidConnectReturnCode n).
Proof. unfold PubRec_reason. code_tac n. Qed.

Lemma PubRel_reason_inv n r : PubRel_reason n = Ok r -> pubrel_code r = n.
Proof. unfold PubRel_reason. code_inv n. Qed.
Lemma PubRel_reason_code r : PubRel_reason (pubrel_code r) = Ok r.
Proof. destruct r; reflexivity. Qed.
Lemma PubRel_reason_total n : (exists r, PubRel_reason n = Ok r) \/ PubRel_reason n = Err (InvalidConnectReturnCode n).
Proof. unfold PubRel_reason. code_tac n. Qed.

Lemma PubComp_reason_inv n r : PubComp_reason n = Ok r -> pubcomp_code r = n.
Proof. unfold PubComp_reason. code_inv n. Qed.
Lemma PubComp_reason_code r : PubComp_reason (pubcomp_code r) = Ok r.
Proof. destruct r; reflexivity. Qed.
Lemma PubComp_reason_total n : (exists r, PubComp_reason n = Ok r) \/ PubComp_reason n = Err (InvalidConnectReturnCode n).
Proof. unfold PubComp_reason. code_tac n. Qed.

Lemma SubAck_reason_inv n r : SubAck_reason n = Ok r -> suback_code r = n.
Proof. unfold SubAck_reason. code_inv n. Qed.
Lemma SubAck_reason_code r : SubAck_reason (suback_code r) = Ok r.
Proof. destruct r; try match goal with q : QoS |- _ => destruct q end; reflexivity. Qed.
Lemma SubAck_reason_total n : (exists r, SubAck_reason n = Ok r) \/ SubAck_reason n = Err (InvalidSubscribeReasonCode n).
Proof. unfold SubAck_reason. code_tac n. Qed.

Lemma UnsubAck_reason_inv n r : UnsubAck_reason n = Ok r -> unsuback_code r = n.
Proof. unfold UnsubAck_reason. code_inv n. Qed.
Lemma UnsubAck_reason_code r : UnsubAck_reason (unsuback_code r) = Ok r.
Proof. destruct r; reflexivity. Qed.
Lemma UnsubAck_reason_total n : (exists r, UnsubAck_reason n = Ok r) \/ UnsubAck_reason n = Err (InvalidSubscribeReasonCode n).
Proof. unfold UnsubAck_reason. code_tac n. Qed.

Lemma DisconnectReasonCode_try_from_inv n r : DisconnectReasonCode_try_from n = Ok r -> disconnect_code r = n.
Proof. unfold DisconnectReasonCode_try_from. code_inv n. Qed.
Lemma DisconnectReasonCode_try_from_code r : DisconnectReasonCode_try_from (disconnect_code r) = Ok r.
Proof. destruct r; reflexivity. Qed.
Lemma DisconnectReasonCode_try_from_total n : (exists r, DisconnectReasonCode_try_from n = Ok r) \/ DisconnectReasonCode_try_from n = Err (InvalidConnectReturnCode n).
Proof. unfold DisconnectReasonCode_try_from. code_tac n. Qed.

Lemma qos_iff n q : qos n = Some q <-> qos_num q = n.
Proof.
  split.
  - unfold qos. destruct n as [|[p|p|]]; try destruct p; intros H; inversion H; reflexivity.
  - intros <-. destruct q; reflexivity.
Qed.
Lemma qos_none n : qos n = None -> forall q, qos_num q <> n.
Proof. intros H q E. apply qos_iff in E. congruence. Qed.

(** ---------- Masks ---------- *)

Lemma mask_24 f : f < 256 -> N.shiftr (N.land f 24) 3 = (f / 8) mod 4.
Proof.
  intros H. apply N.eqb_eq.
  apply (byte_sweep (fun f => N.shiftr (N.land f 24) 3 =? (f / 8) mod 4)); [vm_compute; reflexivity|exact H].
Qed.
Lemma mask_56 f : f < 256 -> (N.land f 56 =? 0) = ((f / 8) mod 8 =? 0).
Proof.
  intros H. apply Bool.eqb_prop.
  apply (byte_sweep (fun f => Bool.eqb (N.land f 56 =? 0) ((f / 8) mod 8 =? 0))); [vm_compute; reflexivity|exact H].
Qed.
Lemma mask_6 f : f < 256 -> N.shiftr (N.land f 6) 1 = (f / 2) mod 4.
Proof.
  intros H. apply N.eqb_eq.
  apply (byte_sweep (fun f => N.shiftr (N.land f 6) 1 =? (f / 2) mod 4)); [vm_compute; reflexivity|exact H].
Qed.
Lemma mask_1 f : f < 256 -> (N.land f 1 =? 1) = N.testbit f 0.
Proof.
  intros H. apply Bool.eqb_prop.
  apply (byte_sweep (fun f => Bool.eqb (N.land f 1 =? 1) (N.testbit f 0))); [vm_compute; reflexivity|exact H].
Qed.
Lemma mask_3 f : f < 256 -> N.land f 3 = f mod 4.
Proof.
  intros H. apply N.eqb_eq.
  apply (byte_sweep (fun f => N.land f 3 =? f mod 4)); [vm_compute; reflexivity|exact H].
Qed.
Lemma mask_rule f : f < 256 -> N.land (N.shiftr f 4) 3 = (f / 16) mod 4.
Proof.
  intros H. apply N.eqb_eq.
  apply (byte_sweep (fun f => N.land (N.shiftr f 4) 3 =? (f / 16) mod 4)); [vm_compute; reflexivity|exact H].
Qed.
Lemma mask_s2 f : f < 256 -> negb (N.land (N.shiftr f 2) 1 =? 0) = N.testbit f 2.
Proof.
  intros H. apply Bool.eqb_prop.
  apply (byte_sweep (fun f => Bool.eqb (negb (N.land (N.shiftr f 2) 1 =? 0)) (N.testbit f 2))); [vm_compute; reflexivity|exact H].
Qed.
Lemma mask_s3 f : f < 256 -> negb (N.land (N.shiftr f 3) 1 =? 0) = N.testbit f 3.
Proof.
  intros H. apply Bool.eqb_prop.
  apply (byte_sweep (fun f => Bool.eqb (negb (N.land (N.shiftr f 3) 1 =? 0)) (N.testbit f 3))); [vm_compute; reflexivity|exact H].
Qed.
Lemma mask_15 f : f < 256 -> N.land f 15 = f mod 16.
Proof. intros _. change 15 with (N.ones 4). rewrite N.land_ones. reflexivity. Qed.
Lemma bit_0 f : (N.land f 1 =? 0) = negb (N.testbit f 0). Proof. exact (land_pow2_eqb f 0). Qed.
Lemma bit_1 f : (N.land f 2 =? 0) = negb (N.testbit f 1). Proof. exact (land_pow2_eqb f 1). Qed.
Lemma bit_2 f : (N.land f 4 =? 0) = negb (N.testbit f 2). Proof. exact (land_pow2_eqb f 2). Qed.
Lemma bit_3 f : (N.land f 8 =? 0) = negb (N.testbit f 3). Proof. exact (land_pow2_eqb f 3). Qed.
Lemma bit_5 f : (N.land f 32 =? 0) = negb (N.testbit f 5). Proof. exact (land_pow2_eqb f 5). Qed.
Lemma bit_6 f : (N.land f 64 =? 0) = negb (N.testbit f 6). Proof. exact (land_pow2_eqb f 6). Qed.
Lemma bit_7 f : (N.land f 128 =? 0) = negb (N.testbit f 7). Proof. exact (land_pow2_eqb f 7). Qed.

Lemma bytes_eqb_iff a b : bytes_eqb a b = true <-> a = b.
Proof.
  revert b. induction a as [|x a IH]; intros [|y b]; cbn [bytes_eqb]; try (split; intros; congruence).
  rewrite andb_true_iff, N.eqb_eq, IH. split; [intros [-> ->]; reflexivity|intros E; injection E as -> ->; auto].
Qed.

(** ---------- Property sections ---------- *)

Definition reads_section {A} (ft : feature) (rd : bytes -> res (option A * bytes)) (allowed : list N)
    (of : list item -> A) : Prop :=
  forall b, rd b = let? (o, b) := gread ft allowed b in Ok (option_map of o, b).

Lemma section_read_inv {A} ft (rd : bytes -> res (option A * bytes)) allowed of b o r :
  reads_section ft rd allowed of -> bytes_ok b -> rd b = Ok (o, r) ->
  exists l, b = l ++ r /\ props_wire ft allowed of o l.
Proof.
  intros Hrd Hb H. rewrite Hrd in H. bo H E. ginv H.
  apply gread_inv in E; [|exact Hb]. destruct E as (l & -> & Hl). exists l. split; [reflexivity|].
  eexists; split; [exact Hl|reflexivity].
Qed.
Lemma section_read_app {A} ft (rd : bytes -> res (option A * bytes)) allowed of o l r :
  reads_section ft rd allowed of -> props_wire ft allowed of o l -> bytes_ok r ->
  rd (l ++ r) = Ok (o, r).
Proof.
  intros Hrd (items & Hs & ->) Hr. rewrite Hrd, (gread_app _ _ items) by assumption. reflexivity.
Qed.
Lemma props_wire_ok {A} ft allowed (of : list item -> A) o l :
  props_wire ft allowed of o l -> bytes_ok l /\ l <> [].
Proof. intros (items & Hs & _). eapply section_wire_ok. exact Hs. Qed.
Lemma ConnectProperties_read_section ft : reads_section ft (ConnectProperties_read ft) connect_allowed ConnectProperties_of.
Proof. intros b. apply ConnectProperties_read_eq. Qed.
Lemma LastWillProperties_read_section ft : reads_section ft (LastWillProperties_read ft) will_allowed LastWillProperties_of.
Proof. intros b. apply LastWillProperties_read_eq. Qed.
Lemma ConnAckProperties_read_section ft : reads_section ft (ConnAckProperties_read ft) connack_allowed ConnAckProperties_of.
Proof. intros b. apply ConnAckProperties_read_eq. Qed.
Lemma PublishProperties_read_section ft : reads_section ft (PublishProperties_read ft) publish_allowed PublishProperties_of.
Proof. intros b. apply PublishProperties_read_eq. Qed.
Lemma PubAckProperties_read_section ft : reads_section ft (PubAckProperties_read ft) ack_allowed PubAckProperties_of.
Proof. intros b. apply PubAckProperties_read_eq. Qed.
Lemma PubRecProperties_read_section ft : reads_section ft (PubRecProperties_read ft) ack_allowed PubRecProperties_of.
Proof. intros b. apply PubRecProperties_read_eq. Qed.
Lemma PubRelProperties_read_section ft : reads_section ft (PubRelProperties_read ft) ack_allowed PubRelProperties_of.
Proof. intros b. apply PubRelProperties_read_eq. Qed.
Lemma PubCompProperties_read_section ft : reads_section ft (PubCompProperties_read ft) ack_allowed PubCompProperties_of.
Proof. intros b. apply PubCompProperties_read_eq. Qed.
Lemma SubAckProperties_read_section ft : reads_section ft (SubAckProperties_read ft) ack_allowed SubAckProperties_of.
Proof. intros b. apply SubAckProperties_read_eq. Qed.
Lemma UnsubAckProperties_read_section ft : reads_section ft (UnsubAckProperties_read ft) ack_allowed UnsubAckProperties_of.
Proof. intros b. apply UnsubAckProperties_read_eq. Qed.
Lemma SubscribeProperties_read_section ft : reads_section ft (SubscribeProperties_read ft) subscribe_allowed SubscribeProperties_of.
Proof. intros b. apply SubscribeProperties_read_eq. Qed.
Lemma UnsubscribeProperties_read_section ft : reads_section ft (UnsubscribeProperties_read ft) unsubscribe_allowed UnsubscribeProperties_of.
Proof. intros b. apply UnsubscribeProperties_read_eq. Qed.
Lemma DisconnectProperties_extract_section ft : reads_section ft (DisconnectProperties_extract ft) disconnect_allowed DisconnectProperties_of.
Proof. intros b. apply DisconnectProperties_extract_eq. Qed.

Lemma PubAck_wire ft byte1 b a : bytes_ok b ->
  PubAck_read ft (mkFixedHeader byte1 0 (blen b)) b = Ok a
  <-> ack_wire ft PubAckProperties_of (pa_pkid a) (puback_code (pa_reason a)) (pa_properties a) b.
Proof.
  intros Hb. unfold PubAck_read. cbn [fh_fixed_header_len fh_remaining_len]. rewrite advance_0. cbn [rbind].
  split.
  - intros H. bo H E1. apply read_u16_inv in E1; [|exact Hb]. destruct E1 as (lk & -> & Hk).
    assert (L : blen lk = 2) by (destruct Hk as [_ ->]; reflexivity).
    rewrite blen_app, L in H. bok. exists lk.
    destruct (N.eqb_spec (2 + blen x) 2) as [E|E].
    + assert (x = []) as -> by (apply blen_0; lia). ginv H. cbn. split; [exact Hk|].
      left. rewrite app_nil_r. auto.
    + bo H E2. apply read_u8_inv in E2. subst x. rewrite blen_cons in H.
      destruct (N.ltb_spec (2 + (1 + blen x0)) 4).
      * assert (x0 = []) as -> by (apply blen_0; lia). bo H E3. ginv H. cbn.
        apply PubAck_reason_inv in E3. subst. split; [exact Hk|]. right; left. auto.
      * bo H E3. bok. apply (section_read_inv _ _ _ _ _ _ _ (PubAckProperties_read_section ft)) in E3; [|assumption].
        destruct E3 as (ls & -> & Hs). bo H E4. apply PubAck_reason_inv in E4. subst. ginv H. cbn.
        split; [exact Hk|]. right; right. exists ls, x. bok.
  - intros (lk & Hk & H).
    assert (L : blen lk = 2) by (destruct Hk as [_ ->]; reflexivity).
    destruct a as [pkid reason props]; cbn in *.
    destruct H as [(-> & Hc & ->)|[(-> & ->)|(ls & junk & -> & Hj & Hs)]].
    + rewrite <- (app_nil_r lk). rewrite (read_u16_app pkid) by exact Hk. cbn [rbind].
      rewrite app_nil_r, L. cbn [N.eqb Pos.eqb].
      destruct reason; cbn in Hc; try discriminate Hc; reflexivity.
    + rewrite (read_u16_app pkid) by exact Hk. cbn [rbind]. rewrite blen_app, L.
      change (blen [puback_code reason]) with 1. change (2 + 1 =? 2) with false. cbv iota.
      rewrite read_u8_cons. cbn [rbind]. change (2 + 1 <? 4) with true. cbv iota.
      rewrite PubAck_reason_code. reflexivity.
    + rewrite (read_u16_app pkid) by exact Hk. cbn [rbind]. cbn [app].
      destruct (props_wire_ok _ _ _ _ _ Hs) as [Hls Hne].
      assert (blen ls <> 0) by (intros E; apply blen_0 in E; congruence).
      rewrite blen_app, L, blen_cons, blen_app.
      destruct (N.eqb_spec (2 + (1 + (blen ls + blen junk))) 2); [lia|].
      rewrite read_u8_cons. cbn [rbind].
      destruct (N.ltb_spec (2 + (1 + (blen ls + blen junk))) 4).
      { assert (blen junk = 0) as Ej by lia. apply blen_0 in Ej. subst junk.
        rewrite blen_nil in *. lia. }
      rewrite (section_read_app _ _ _ _ _ _ _ (PubAckProperties_read_section ft) Hs Hj). cbn [rbind].
      rewrite PubAck_reason_code. reflexivity.
Qed.

Lemma PubRec_wire ft byte1 b a : bytes_ok b ->
  PubRec_read ft (mkFixedHeader byte1 0 (blen b)) b = Ok a
  <-> ack_wire ft PubRecProperties_of (pr_pkid a) (pubrec_code (pr_reason a)) (pr_properties a) b.
Proof.
  intros Hb. unfold PubRec_read. cbn [fh_fixed_header_len fh_remaining_len]. rewrite advance_0. cbn [rbind].
  split.
  - intros H. bo H E1. apply read_u16_inv in E1; [|exact Hb]. destruct E1 as (lk & -> & Hk).
    assert (L : blen lk = 2) by (destruct Hk as [_ ->]; reflexivity).
    rewrite blen_app, L in H. bok. exists lk.
    destruct (N.eqb_spec (2 + blen x) 2) as [E|E].
    + assert (x = []) as -> by (apply blen_0; lia). ginv H. cbn. split; [exact Hk|].
      left. rewrite app_nil_r. auto.
    + bo H E2. apply read_u8_inv in E2. subst x. rewrite blen_cons in H.
      destruct (N.ltb_spec (2 + (1 + blen x0)) 4).
      * assert (x0 = []) as -> by (apply blen_0; lia). bo H E3. ginv H. cbn.
        apply PubRec_reason_inv in E3. subst. split; [exact Hk|]. right; left. auto.
      * bo H E3. bok. apply (section_read_inv _ _ _ _ _ _ _ (PubRecProperties_read_section ft)) in E3; [|assumption].
        destruct E3 as (ls & -> & Hs). bo H E4. apply PubRec_reason_inv in E4. subst. ginv H. cbn.
        split; [exact Hk|]. right; right. exists ls, x. bok.
  - intros (lk & Hk & H).
    assert (L : blen lk = 2) by (destruct Hk as [_ ->]; reflexivity).
    destruct a as [pkid reason props]; cbn in *.
    destruct H as [(-> & Hc & ->)|[(-> & ->)|(ls & junk & -> & Hj & Hs)]].
    + rewrite <- (app_nil_r lk). rewrite (read_u16_app pkid) by exact Hk. cbn [rbind].
      rewrite app_nil_r, L. cbn [N.eqb Pos.eqb].
      destruct reason; cbn in Hc; try discriminate Hc; reflexivity.
    + rewrite (read_u16_app pkid) by exact Hk. cbn [rbind]. rewrite blen_app, L.
      change (blen [pubrec_code reason]) with 1. change (2 + 1 =? 2) with false. cbv iota.
      rewrite read_u8_cons. cbn [rbind]. change (2 + 1 <? 4) with true. cbv iota.
      rewrite PubRec_reason_code. reflexivity.
    + rewrite (read_u16_app pkid) by exact Hk. cbn [rbind]. cbn [app].
      destruct (props_wire_ok _ _ _ _ _ Hs) as [Hls Hne].
      assert (blen ls <> 0) by (intros E; apply blen_0 in E; congruence).
      rewrite blen_app, L, blen_cons, blen_app.
      destruct (N.eqb_spec (2 + (1 + (blen ls + blen junk))) 2); [lia|].
      rewrite read_u8_cons. cbn [rbind].
      destruct (N.ltb_spec (2 + (1 + (blen ls + blen junk))) 4).
      { assert (blen junk = 0) as Ej by lia. apply blen_0 in Ej. subst junk.
        rewrite blen_nil in *. lia. }
      rewrite (section_read_app _ _ _ _ _ _ _ (PubRecProperties_read_section ft) Hs Hj). cbn [rbind].
      rewrite PubRec_reason_code. reflexivity.
Qed.

Lemma PubRel_wire ft byte1 b a : bytes_ok b ->
  PubRel_read ft (mkFixedHeader byte1 0 (blen b)) b = Ok a
  <-> ack_wire ft PubRelProperties_of (pl_pkid a) (pubrel_code (pl_reason a)) (pl_properties a) b.
Proof.
  intros Hb. unfold PubRel_read. cbn [fh_fixed_header_len fh_remaining_len]. rewrite advance_0. cbn [rbind].
  split.
  - intros H. bo H E1. apply read_u16_inv in E1; [|exact Hb]. destruct E1 as (lk & -> & Hk).
    assert (L : blen lk = 2) by (destruct Hk as [_ ->]; reflexivity).
    rewrite blen_app, L in H. bok. exists lk.
    destruct (N.eqb_spec (2 + blen x) 2) as [E|E].
    + assert (x = []) as -> by (apply blen_0; lia). ginv H. cbn. split; [exact Hk|].
      left. rewrite app_nil_r. auto.
    + bo H E2. apply read_u8_inv in E2. subst x. rewrite blen_cons in H.
      destruct (N.ltb_spec (2 + (1 + blen x0)) 4).
      * assert (x0 = []) as -> by (apply blen_0; lia). bo H E3. ginv H. cbn.
        apply PubRel_reason_inv in E3. subst. split; [exact Hk|]. right; left. auto.
      * bo H E3. bok. apply (section_read_inv _ _ _ _ _ _ _ (PubRelProperties_read_section ft)) in E3; [|assumption].
        destruct E3 as (ls & -> & Hs). bo H E4. apply PubRel_reason_inv in E4. subst. ginv H. cbn.
        split; [exact Hk|]. right; right. exists ls, x. bok.
  - intros (lk & Hk & H).
    assert (L : blen lk = 2) by (destruct Hk as [_ ->]; reflexivity).
    destruct a as [pkid reason props]; cbn in *.
    destruct H as [(-> & Hc & ->)|[(-> & ->)|(ls & junk & -> & Hj & Hs)]].
    + rewrite <- (app_nil_r lk). rewrite (read_u16_app pkid) by exact Hk. cbn [rbind].
      rewrite app_nil_r, L. cbn [N.eqb Pos.eqb].
      destruct reason; cbn in Hc; try discriminate Hc; reflexivity.
    + rewrite (read_u16_app pkid) by exact Hk. cbn [rbind]. rewrite blen_app, L.
      change (blen [pubrel_code reason]) with 1. change (2 + 1 =? 2) with false. cbv iota.
      rewrite read_u8_cons. cbn [rbind]. change (2 + 1 <? 4) with true. cbv iota.
      rewrite PubRel_reason_code. reflexivity.
    + rewrite (read_u16_app pkid) by exact Hk. cbn [rbind]. cbn [app].
      destruct (props_wire_ok _ _ _ _ _ Hs) as [Hls Hne].
      assert (blen ls <> 0) by (intros E; apply blen_0 in E; congruence).
      rewrite blen_app, L, blen_cons, blen_app.
      destruct (N.eqb_spec (2 + (1 + (blen ls + blen junk))) 2); [lia|].
      rewrite read_u8_cons. cbn [rbind].
      destruct (N.ltb_spec (2 + (1 + (blen ls + blen junk))) 4).
      { assert (blen junk = 0) as Ej by lia. apply blen_0 in Ej. subst junk.
        rewrite blen_nil in *. lia. }
      rewrite (section_read_app _ _ _ _ _ _ _ (PubRelProperties_read_section ft) Hs Hj). cbn [rbind].
      rewrite PubRel_reason_code. reflexivity.
Qed.

Lemma PubComp_wire ft byte1 b a : bytes_ok b ->
  PubComp_read ft (mkFixedHeader byte1 0 (blen b)) b = Ok a
  <-> ack_wire ft PubCompProperties_of (pc_pkid a) (pubcomp_code (pc_reason a)) (pc_properties a) b.
Proof.
  intros Hb. unfold PubComp_read. cbn [fh_fixed_header_len fh_remaining_len]. rewrite advance_0. cbn [rbind].
  split.
  - intros H. bo H E1. apply read_u16_inv in E1; [|exact Hb]. destruct E1 as (lk & -> & Hk).
    assert (L : blen lk = 2) by (destruct Hk as [_ ->]; reflexivity).
    rewrite blen_app, L in H. bok. exists lk.
    destruct (N.eqb_spec (2 + blen x) 2) as [E|E].
    + assert (x = []) as -> by (apply blen_0; lia). ginv H. cbn. split; [exact Hk|].
      left. rewrite app_nil_r. auto.
    + bo H E2. apply read_u8_inv in E2. subst x. rewrite blen_cons in H.
      destruct (N.ltb_spec (2 + (1 + blen x0)) 4).
      * assert (x0 = []) as -> by (apply blen_0; lia). bo H E3. ginv H. cbn.
        apply PubComp_reason_inv in E3. subst. split; [exact Hk|]. right; left. auto.
      * bo H E3. bok. apply (section_read_inv _ _ _ _ _ _ _ (PubCompProperties_read_section ft)) in E3; [|assumption].
        destruct E3 as (ls & -> & Hs). bo H E4. apply PubComp_reason_inv in E4. subst. ginv H. cbn.
        split; [exact Hk|]. right; right. exists ls, x. bok.
  - intros (lk & Hk & H).
    assert (L : blen lk = 2) by (destruct Hk as [_ ->]; reflexivity).
    destruct a as [pkid reason props]; cbn in *.
    destruct H as [(-> & Hc & ->)|[(-> & ->)|(ls & junk & -> & Hj & Hs)]].
    + rewrite <- (app_nil_r lk). rewrite (read_u16_app pkid) by exact Hk. cbn [rbind].
      rewrite app_nil_r, L. cbn [N.eqb Pos.eqb].
      destruct reason; cbn in Hc; try discriminate Hc; reflexivity.
    + rewrite (read_u16_app pkid) by exact Hk. cbn [rbind]. rewrite blen_app, L.
      change (blen [pubcomp_code reason]) with 1. change (2 + 1 =? 2) with false. cbv iota.
      rewrite read_u8_cons. cbn [rbind]. change (2 + 1 <? 4) with true. cbv iota.
      rewrite PubComp_reason_code. reflexivity.
    + rewrite (read_u16_app pkid) by exact Hk. cbn [rbind]. cbn [app].
      destruct (props_wire_ok _ _ _ _ _ Hs) as [Hls Hne].
      assert (blen ls <> 0) by (intros E; apply blen_0 in E; congruence).
      rewrite blen_app, L, blen_cons, blen_app.
      destruct (N.eqb_spec (2 + (1 + (blen ls + blen junk))) 2); [lia|].
      rewrite read_u8_cons. cbn [rbind].
      destruct (N.ltb_spec (2 + (1 + (blen ls + blen junk))) 4).
      { assert (blen junk = 0) as Ej by lia. apply blen_0 in Ej. subst junk.
        rewrite blen_nil in *. lia. }
      rewrite (section_read_app _ _ _ _ _ _ _ (PubCompProperties_read_section ft) Hs Hj). cbn [rbind].
      rewrite PubComp_reason_code. reflexivity.
Qed.

(** ---------- ConnAck ---------- *)

Lemma ConnAck_wire ft byte1 n b a : bytes_ok b ->
  ConnAck_read ft (mkFixedHeader byte1 0 n) b = Ok a <-> connack_wire ft a b.
Proof.
  intros Hb. unfold ConnAck_read. cbn [fh_fixed_header_len]. rewrite advance_0. cbn [rbind].
  split.
  - intros H. bo H E1. apply read_u8_inv in E1. subst b. bo H E2. apply read_u8_inv in E2. subst x. bok.
    bo H E3. apply (section_read_inv _ _ _ _ _ _ _ (ConnAckProperties_read_section ft)) in E3; [|assumption].
    destruct E3 as (ls & -> & Hs). bo H E4. ginv H.
    pose proof (connect_return_inv _ _ E4). pose proof (connect_return_legacy _ _ E4). subst.
    bok. exists a0, ls, x. cbn. rewrite mask_1 by assumption. auto 10.
  - intros (flags & ls & junk & -> & Hf & Hj & Hl & Hp & Hs). cbn [app]. rewrite read_u8_cons. cbn [rbind].
    rewrite read_u8_cons. cbn [rbind].
    rewrite (section_read_app _ _ _ _ _ _ _ (ConnAckProperties_read_section ft) Hs Hj). cbn [rbind].
    rewrite connect_return_code by exact Hl. cbn [rbind]. rewrite mask_1 by exact Hf. rewrite <- Hp.
    destruct a; reflexivity.
Qed.

(** ---------- Publish ---------- *)

Lemma Publish_wire ft byte1 n b p : byte1 < 256 -> bytes_ok b ->
  Publish_read ft (mkFixedHeader byte1 0 n) b = Ok p <-> publish_wire ft byte1 p b.
Proof.
  intros H1 Hb. unfold Publish_read. cbn [fh_fixed_header_len fh_byte1]. rewrite mask_6 by exact H1.
  rewrite bit_3, bit_0, !negb_involutive.
  split.
  - destruct (qos ((byte1 / 2) mod 4)) as [q|] eqn:Eq; [|discriminate].
    apply qos_iff in Eq. rewrite advance_0. cbn [rbind].
    intros H. bo H E1. apply read_mqtt_string_inv in E1; [|exact Hb]. destruct E1 as (lt & -> & Ht). bok.
    bo H E2.
    destruct (negb (QoS_eqb q AtMostOnce) && (a0 =? 0)) eqn:Ez; [discriminate|].
    bo H E3.
    assert (A : exists li, x = li ++ x0 /\ match q with AtMostOnce => a0 = 0 /\ li = [] | _ => a0 <> 0 /\ u16_wire a0 li end).
    { destruct q.
      - ginv E2. exists []. auto.
      - apply read_u16_inv in E2; [|assumption]. destruct E2 as (li & -> & Hi). exists li. split; [reflexivity|].
        split; [|exact Hi]. cbn in Ez. destruct (N.eqb_spec a0 0); [discriminate|assumption].
      - apply read_u16_inv in E2; [|assumption]. destruct E2 as (li & -> & Hi). exists li. split; [reflexivity|].
        split; [|exact Hi]. cbn in Ez. destruct (N.eqb_spec a0 0); [discriminate|assumption]. }
    destruct A as (li & -> & Hli). bok.
    apply (section_read_inv _ _ _ _ _ _ _ (PublishProperties_read_section ft)) in E3; [|assumption].
    destruct E3 as (ls & -> & Hs). ginv H. bok.
    unfold publish_wire; cbn. repeat (split; [assumption || reflexivity|]). exists lt, li, ls. auto.
  - intros (Hd & Hre & Hq & Hpl & lt & li & ls & -> & Ht & Hi & Hs). bok.
    pose proof (proj2 (qos_iff _ _) Hq) as Eq. rewrite Eq. rewrite advance_0. cbn [rbind].
    rewrite (read_mqtt_string_app ft (pu_topic p)) by exact Ht. cbn [rbind].
    match goal with |- rbind ?m _ = _ => replace m with (Ok (pu_pkid p, ls ++ pu_payload p) : res (N * bytes)) end.
    2: { symmetry. destruct (pu_qos p); destruct Hi as [Hi Hw].
      - subst li. rewrite Hi. reflexivity.
      - apply read_u16_app. exact Hw.
      - apply read_u16_app. exact Hw. }
    cbn [rbind].
    assert (Ez : negb (QoS_eqb (pu_qos p) AtMostOnce) && (pu_pkid p =? 0) = false).
    { destruct (pu_qos p); cbn; try reflexivity; destruct Hi as [Hi _]; destruct (N.eqb_spec (pu_pkid p) 0); congruence. }
    rewrite Ez. rewrite (section_read_app _ _ _ _ _ _ _ (PublishProperties_read_section ft) Hs) by assumption.
    cbn [rbind]. rewrite <- Hd, <- Hre. destruct p; reflexivity.
Qed.

(** ---------- Loops over the rest of the body ---------- *)

Lemma list_wire_ok {A} (R : A -> bytes -> Prop) l b :
  (forall a la, R a la -> bytes_ok la) -> list_wire R l b -> bytes_ok b.
Proof. intros HR. induction 1; bok. eapply HR; eassumption. Qed.
Lemma list_wire_nil_iff {A} (R : A -> bytes -> Prop) l b :
  (forall a la, R a la -> la <> []) -> list_wire R l b -> (l = [] <-> b = []).
Proof.
  intros HR. induction 1 as [|a l la ll Ha Hl IH]; [tauto|]. split; [discriminate|].
  intros E. apply app_eq_nil in E. exfalso. apply (HR _ _ Ha). tauto.
Qed.

Lemma str_wire_nonempty ft s l : str_wire ft s l -> l <> [].
Proof. intros (_ & _ & _ & ->) E. discriminate. Qed.
Lemma filter_wire_ok ft f l : filter_wire ft f l -> bytes_ok l.
Proof. intros (lp & o & -> & Ho & Hp & _). apply str_wire_ok in Hp. bok. Qed.
Lemma filter_wire_nonempty ft f l : filter_wire ft f l -> l <> [].
Proof. intros (lp & o & -> & _) E. apply app_eq_nil in E. destruct E; discriminate. Qed.

Lemma SubAck_loop_wire fuel : forall codes b r, (length b < fuel)%nat ->
  SubAck_read_loop fuel codes b = Ok r <-> exists l, r = codes ++ l /\ b = map suback_code l.
Proof.
  induction fuel as [|fuel IH]; intros codes b r Hf; [lia|].
  destruct b as [|x b]; cbn [SubAck_read_loop].
  - split.
    + intros H. ginv H. exists []. rewrite app_nil_r. auto.
    + intros (l & -> & E). destruct l; [rewrite app_nil_r; reflexivity|discriminate].
  - rewrite read_u8_cons. cbn [rbind]. cbn [length] in Hf. split.
    + intros H. bo H E. apply IH in H; [|lia]. destruct H as (l & -> & ->).
      apply SubAck_reason_inv in E. subst. exists (a :: l). rewrite <- app_assoc. auto.
    + intros (l & -> & E). destruct l as [|a l]; [discriminate|]. cbn [map] in E. injection E as -> ->.
      rewrite SubAck_reason_code. cbn [rbind]. apply IH; [lia|]. exists l. rewrite <- app_assoc. auto.
Qed.
Lemma UnsubAck_loop_wire fuel : forall codes b r, (length b < fuel)%nat ->
  UnsubAck_read_loop fuel codes b = Ok r <-> exists l, r = codes ++ l /\ b = map unsuback_code l.
Proof.
  induction fuel as [|fuel IH]; intros codes b r Hf; [lia|].
  destruct b as [|x b]; cbn [UnsubAck_read_loop].
  - split.
    + intros H. ginv H. exists []. rewrite app_nil_r. auto.
    + intros (l & -> & E). destruct l; [rewrite app_nil_r; reflexivity|discriminate].
  - rewrite read_u8_cons. cbn [rbind]. cbn [length] in Hf. split.
    + intros H. bo H E. apply IH in H; [|lia]. destruct H as (l & -> & ->).
      apply UnsubAck_reason_inv in E. subst. exists (a :: l). rewrite <- app_assoc. auto.
    + intros (l & -> & E). destruct l as [|a l]; [discriminate|]. cbn [map] in E. injection E as -> ->.
      rewrite UnsubAck_reason_code. cbn [rbind]. apply IH; [lia|]. exists l. rewrite <- app_assoc. auto.
Qed.

Lemma str_wire_length ft s l : str_wire ft s l -> (2 <= length l)%nat.
Proof. intros (_ & _ & _ & ->). cbn [u16be app length]. lia. Qed.

Lemma Unsubscribe_loop_wire ft fuel : forall fs b r, (length b < fuel)%nat -> bytes_ok b ->
  Unsubscribe_read_loop ft fuel fs b = Ok r <-> exists l, r = fs ++ l /\ list_wire (str_wire ft) l b.
Proof.
  induction fuel as [|fuel IH]; intros fs b r Hf Hb; [lia|].
  destruct b as [|x b]; cbn [Unsubscribe_read_loop].
  - split.
    + intros H. ginv H. exists []. rewrite app_nil_r. split; [reflexivity|constructor].
    + intros (l & -> & E).
      apply (list_wire_nil_iff _ _ _ (str_wire_nonempty ft)) in E. rewrite (proj2 E eq_refl), app_nil_r. reflexivity.
  - split.
    + intros H. bo H E. apply read_mqtt_string_inv in E; [|exact Hb]. destruct E as (lp & E & Hp).
      rewrite E in Hf, Hb. rewrite app_length in Hf. pose proof (str_wire_length _ _ _ Hp). bok.
      apply IH in H; [|lia|assumption]. destruct H as (l & -> & Hl). exists (a :: l).
      rewrite <- app_assoc. split; [reflexivity|]. rewrite E. constructor; assumption.
    + intros (l & -> & E). inversion E as [E0|a l' la ll Ha Hl E1 E2]; subst l.
      rewrite <- E2 in Hf, Hb. rewrite app_length in Hf. pose proof (str_wire_length _ _ _ Ha). bok.
      rewrite (read_mqtt_string_app ft a) by exact Ha. cbn [rbind].
      apply IH; [lia|assumption|]. exists l'. rewrite <- app_assoc. auto.
Qed.

Definition rule_num (r : RetainForwardRule) : N :=
  match r with OnEverySubscribe => 0 | OnNewSubscribe => 1 | Never => 2 end.
Lemma rule_iff n r :
  match n with
  | 0 => Ok OnEverySubscribe
  | 1 => Ok OnNewSubscribe
  | 2 => Ok Never
  | _ => Err (InvalidRetainForwardRule n)
  end = Ok r <-> n = rule_num r.
Proof.
  split.
  - destruct n as [|[p|p|]]; try destruct p; intros H; inversion H; reflexivity.
  - intros ->. destruct r; reflexivity.
Qed.

Lemma Filter_loop_wire ft fuel : forall fs b r, (length b < fuel)%nat -> bytes_ok b ->
  Filter_read_loop ft fuel fs b = Ok r <-> exists l, r = fs ++ l /\ list_wire (filter_wire ft) l b.
Proof.
  induction fuel as [|fuel IH]; intros fs b r Hf Hb; [lia|].
  destruct b as [|x b]; cbn [Filter_read_loop].
  - split.
    + intros H. ginv H. exists []. rewrite app_nil_r. split; [reflexivity|constructor].
    + intros (l & -> & E).
      apply (list_wire_nil_iff _ _ _ (filter_wire_nonempty ft)) in E. rewrite (proj2 E eq_refl), app_nil_r. reflexivity.
  - split.
    + intros H. bo H E. apply read_mqtt_string_inv in E; [|exact Hb]. destruct E as (lp & E & Hp).
      rewrite E in Hf, Hb. rewrite app_length in Hf. pose proof (str_wire_length _ _ _ Hp). bok.
      bo H E2. apply read_u8_inv in E2. subst x0. bok. cbn [length] in Hf.
      rewrite mask_rule, mask_3, mask_s2, mask_s3 in H by assumption.
      bo H E3. rewrite rule_iff in E3.
      destruct (qos (a0 mod 4)) as [q|] eqn:Eq; [|discriminate]. apply qos_iff in Eq.
      apply IH in H; [|lia|assumption]. destruct H as (l & -> & Hl).
      eexists (_ :: l). rewrite <- app_assoc. split; [reflexivity|]. rewrite E.
      change (lp ++ a0 :: x1) with (lp ++ [a0] ++ x1). rewrite app_assoc. constructor; [|exact Hl].
      exists lp, a0. cbn. auto 10.
    + intros (l & -> & E). inversion E as [E0|a l' la ll Ha Hl E1 E2]; subst l.
      rewrite <- E2 in Hf, Hb. rewrite app_length in Hf. bok.
      destruct Ha as (lp & o & -> & Ho & Hp & Hq & Hnl & Hpr & Hrule).
      rewrite <- app_assoc. rewrite (read_mqtt_string_app ft (fi_path a)) by exact Hp. cbn [rbind].
      cbn [app]. rewrite read_u8_cons. cbn [rbind].
      rewrite mask_rule, mask_3, mask_s2, mask_s3 by assumption.
      rewrite (proj2 (rule_iff _ (fi_retain_forward_rule a)) Hrule). cbn [rbind].
      rewrite (proj2 (qos_iff _ _) Hq). rewrite app_length in Hf. cbn [length] in Hf.
      apply IH; [lia|assumption|]. exists l'. rewrite <- app_assoc, <- Hnl, <- Hpr. destruct a; auto.
Qed.

Lemma Subscribe_wire ft byte1 n b s : bytes_ok b ->
  Subscribe_read ft (mkFixedHeader byte1 0 n) b = Ok s <-> subscribe_wire ft s b.
Proof.
  intros Hb. unfold Subscribe_read, Filter_read. cbn [fh_fixed_header_len]. rewrite advance_0. cbn [rbind].
  split.
  - intros H. bo H E1. apply read_u16_inv in E1; [|exact Hb]. destruct E1 as (lk & -> & Hk). bok.
    bo H E2. apply (section_read_inv _ _ _ _ _ _ _ (SubscribeProperties_read_section ft)) in E2; [|assumption].
    destruct E2 as (ls & -> & Hs). bok. bo H E3. apply Filter_loop_wire in E3; [|lia|assumption].
    destruct E3 as (l & -> & Hl). cbn [app] in H. destruct l as [|f l]; [discriminate|]. ginv H.
    exists lk, ls, x0. cbn. repeat (split; [assumption || reflexivity|]). discriminate.
  - intros (lk & ls & lf & -> & Hk & Hs & Hl & Hne). bok.
    rewrite (read_u16_app (su_pkid s)) by exact Hk. cbn [rbind].
    rewrite (section_read_app _ _ _ _ _ _ _ (SubscribeProperties_read_section ft) Hs) by assumption. cbn [rbind].
    rewrite (proj2 (Filter_loop_wire ft _ [] lf (su_filters s) (Nat.lt_succ_diag_r _) ltac:(assumption)))
      by (exists (su_filters s); auto).
    cbn [rbind]. destruct s as [pkid fs props]; cbn in *. destruct fs; [congruence|reflexivity].
Qed.

Lemma Unsubscribe_wire ft byte1 n b u : bytes_ok b ->
  Unsubscribe_read ft (mkFixedHeader byte1 0 n) b = Ok u <-> unsubscribe_wire ft u b.
Proof.
  intros Hb. unfold Unsubscribe_read. cbn [fh_fixed_header_len]. rewrite advance_0. cbn [rbind].
  split.
  - intros H. bo H E1. apply read_u16_inv in E1; [|exact Hb]. destruct E1 as (lk & -> & Hk). bok.
    bo H E2. apply (section_read_inv _ _ _ _ _ _ _ (UnsubscribeProperties_read_section ft)) in E2; [|assumption].
    destruct E2 as (ls & -> & Hs). bok. bo H E3. apply Unsubscribe_loop_wire in E3; [|lia|assumption].
    destruct E3 as (l & -> & Hl). ginv H.
    exists lk, ls, x0. cbn. auto 10.
  - intros (lk & ls & lf & -> & Hk & Hs & Hl). bok.
    rewrite (read_u16_app (un_pkid u)) by exact Hk. cbn [rbind].
    rewrite (section_read_app _ _ _ _ _ _ _ (UnsubscribeProperties_read_section ft) Hs) by assumption. cbn [rbind].
    rewrite (proj2 (Unsubscribe_loop_wire ft _ [] lf (un_filters u) (Nat.lt_succ_diag_r _) ltac:(assumption)))
      by (exists (un_filters u); auto).
    cbn [rbind]. destruct u; reflexivity.
Qed.

Lemma SubAck_wire ft byte1 n b a : bytes_ok b ->
  SubAck_read ft (mkFixedHeader byte1 0 n) b = Ok a <-> suback_wire ft a b.
Proof.
  intros Hb. unfold SubAck_read. cbn [fh_fixed_header_len]. rewrite advance_0. cbn [rbind].
  split.
  - intros H. bo H E1. apply read_u16_inv in E1; [|exact Hb]. destruct E1 as (lk & -> & Hk). bok.
    bo H E2. apply (section_read_inv _ _ _ _ _ _ _ (SubAckProperties_read_section ft)) in E2; [|assumption].
    destruct E2 as (ls & -> & Hs). bok. destruct x0 as [|c x0]; [discriminate|].
    bo H E3. apply SubAck_loop_wire in E3; [|lia].
    destruct E3 as (l & -> & Hl). ginv H.
    exists lk, ls. cbn. rewrite Hl. repeat (split; [assumption || reflexivity|]).
    intros ->. discriminate.
  - intros (lk & ls & -> & Hk & Hs & Hne). bok.
    rewrite (read_u16_app (sa_pkid a)) by exact Hk. cbn [rbind].
    rewrite (section_read_app _ _ _ _ _ _ _ (SubAckProperties_read_section ft) Hs) by assumption. cbn [rbind].
    pose proof (proj2 (SubAck_loop_wire _ [] (map suback_code (sa_return_codes a)) (sa_return_codes a) (Nat.lt_succ_diag_r _))
      (ex_intro _ _ (conj eq_refl eq_refl))) as E.
    destruct (map suback_code (sa_return_codes a)) eqn:Em.
    + destruct (sa_return_codes a); [congruence|discriminate].
    + rewrite E. cbn [rbind]. destruct a; reflexivity.
Qed.

Lemma UnsubAck_wire ft byte1 n b a : bytes_ok b ->
  UnsubAck_read ft (mkFixedHeader byte1 0 n) b = Ok a <-> unsuback_wire ft a b.
Proof.
  intros Hb. unfold UnsubAck_read. cbn [fh_fixed_header_len]. rewrite advance_0. cbn [rbind].
  split.
  - intros H. bo H E1. apply read_u16_inv in E1; [|exact Hb]. destruct E1 as (lk & -> & Hk). bok.
    bo H E2. apply (section_read_inv _ _ _ _ _ _ _ (UnsubAckProperties_read_section ft)) in E2; [|assumption].
    destruct E2 as (ls & -> & Hs). bok. destruct x0 as [|c x0]; [discriminate|].
    bo H E3. apply UnsubAck_loop_wire in E3; [|lia].
    destruct E3 as (l & -> & Hl). ginv H.
    exists lk, ls. cbn. rewrite Hl. repeat (split; [assumption || reflexivity|]).
    intros ->. discriminate.
  - intros (lk & ls & -> & Hk & Hs & Hne). bok.
    rewrite (read_u16_app (ua_pkid a)) by exact Hk. cbn [rbind].
    rewrite (section_read_app _ _ _ _ _ _ _ (UnsubAckProperties_read_section ft) Hs) by assumption. cbn [rbind].
    pose proof (proj2 (UnsubAck_loop_wire _ [] (map unsuback_code (ua_reasons a)) (ua_reasons a) (Nat.lt_succ_diag_r _))
      (ex_intro _ _ (conj eq_refl eq_refl))) as E.
    destruct (map unsuback_code (ua_reasons a)) eqn:Em.
    + destruct (ua_reasons a); [congruence|discriminate].
    + rewrite E. cbn [rbind]. destruct a; reflexivity.
Qed.

Lemma Disconnect_wire ft byte1 b d : byte1 < 256 -> byte1 / 16 = 14 -> bytes_ok b ->
  Disconnect_read ft (mkFixedHeader byte1 0 (blen b)) b = Ok d <-> disconnect_wire ft byte1 d b.
Proof.
  intros H1 Ht Hb. unfold Disconnect_read. cbn [fh_fixed_header_len fh_byte1 fh_remaining_len].
  rewrite advance_0. cbn [rbind]. rewrite mask_15 by exact H1. rewrite N.shiftr_div_pow2.
  change (2 ^ 4) with 16. rewrite Ht. change (negb (14 =? 14)) with false. cbv iota.
  assert (E16 : byte1 mod 16 = 0 <-> byte1 = 224) by lia.
  unfold disconnect_wire.
  destruct (N.eqb_spec (byte1 mod 16) 0) as [E|E]; cbn [negb].
  2: { split; [discriminate|]. intros [E' _]. apply E16 in E'. congruence. }
  apply E16 in E. clear E16. split.
  - intros H. split; [exact E|].
    destruct (N.eqb_spec (blen b) 0) as [E0|E0].
    + apply blen_0 in E0. ginv H. left. auto.
    + bo H E1. apply read_u8_inv in E1. subst b. bok. bo H E2. apply DisconnectReasonCode_try_from_inv in E2. subst a.
      bo H E3. apply (section_read_inv _ _ _ _ _ _ _ (DisconnectProperties_extract_section ft)) in E3; [|assumption].
      destruct E3 as (ls & -> & Hs). ginv H. bok. right. exists ls, x0. cbn. auto.
  - intros [_ [[-> ->]|(ls & junk & -> & Hj & Hs)]]; [reflexivity|].
    cbn [app]. rewrite blen_cons. destruct (N.eqb_spec (1 + blen (ls ++ junk)) 0); [lia|].
    rewrite read_u8_cons. cbn [rbind]. rewrite DisconnectReasonCode_try_from_code. cbn [rbind].
    rewrite (section_read_app _ _ _ _ _ _ _ (DisconnectProperties_extract_section ft) Hs Hj). cbn [rbind].
    destruct d; reflexivity.
Qed.

(** ---------- Connect ---------- *)

Lemma LastWill_wire_inv ft flags b w r : flags < 256 -> bytes_ok b ->
  LastWill_read ft flags b = Ok (w, r) -> exists l, b = l ++ r /\ will_wire ft flags w l.
Proof.
  intros Hf Hb. unfold LastWill_read. rewrite bit_2, mask_56, mask_24, bit_5, negb_involutive by exact Hf.
  destruct (N.testbit flags 2) eqn:E2; cbn [negb].
  - intros H. bo H E3. apply (section_read_inv _ _ _ _ _ _ _ (LastWillProperties_read_section ft)) in E3; [|assumption].
    destruct E3 as (ls & -> & Hs). bok. bo H E4. apply read_mqtt_bytes_inv in E4; [|assumption].
    destruct E4 as (lt & -> & Hlt). bok. bo H E5. apply read_mqtt_bytes_inv in E5; [|assumption].
    destruct E5 as (lm & -> & Hlm).
    destruct (qos _) as [q|] eqn:Eq; [|discriminate]. apply qos_iff in Eq. ginv H.
    exists (ls ++ lt ++ lm). rewrite <- !app_assoc. split; [reflexivity|]. cbn. repeat (split; [assumption || reflexivity|]).
    exists ls, lt, lm. auto.
  - destruct (N.eqb_spec ((flags / 8) mod 8) 0); cbn [negb]; [|discriminate]. intros H. ginv H.
    exists []. split; [reflexivity|]. cbn. auto.
Qed.
Lemma LastWill_wire_app ft flags w l r : flags < 256 -> will_wire ft flags w l -> bytes_ok r -> bytes_ok l ->
  LastWill_read ft flags (l ++ r) = Ok (w, r).
Proof.
  intros Hf H Hr Hl. unfold LastWill_read. rewrite bit_2, mask_56, mask_24, bit_5, negb_involutive by exact Hf.
  destruct w as [w|]; cbn in H.
  - destruct H as (H2 & Hq & Hre & ls & lt & lm & -> & Hs & Ht & Hm). rewrite H2. cbn [negb].
    bok. rewrite <- !app_assoc.
    rewrite (section_read_app _ _ _ _ _ _ _ (LastWillProperties_read_section ft) Hs) by (bok). cbn [rbind].
    rewrite (read_mqtt_bytes_app (lw_topic w)) by exact Ht. cbn [rbind].
    rewrite (read_mqtt_bytes_app (lw_message w)) by exact Hm. cbn [rbind].
    rewrite (proj2 (qos_iff _ _) Hq). rewrite <- Hre. destruct w; reflexivity.
  - destruct H as (H2 & H0 & ->). rewrite H2. cbn [negb]. rewrite H0. reflexivity.
Qed.
Lemma will_wire_ok ft flags w l : will_wire ft flags w l -> bytes_ok l.
Proof.
  destruct w as [w|]; cbn.
  - intros (_ & _ & _ & ls & lt & lm & -> & Hs & Ht & Hm). apply props_wire_ok in Hs.
    apply bin_wire_ok in Ht. apply bin_wire_ok in Hm. destruct Hs. bok.
  - intros (_ & _ & ->). auto.
Qed.

Lemma opt_str_inv ft c b s r : bytes_ok b ->
  (if negb c then Ok ([], b) else read_mqtt_string ft b) = Ok (s, r) ->
  exists l, b = l ++ r /\ optional_str_wire ft c s l.
Proof.
  intros Hb H. destruct c; cbn [negb] in H; cbn [optional_str_wire].
  - apply read_mqtt_string_inv in H; assumption.
  - ginv H. exists []. auto.
Qed.
Lemma opt_str_app ft c s l r : optional_str_wire ft c s l ->
  (if negb c then Ok ([], l ++ r) else read_mqtt_string ft (l ++ r)) = Ok (s, r).
Proof.
  intros H. destruct c; cbn [negb]; cbn [optional_str_wire] in H.
  - apply read_mqtt_string_app. exact H.
  - destruct H as [-> ->]. reflexivity.
Qed.
Lemma opt_str_ok ft c s l : optional_str_wire ft c s l -> bytes_ok l.
Proof. destruct c; cbn; [apply str_wire_ok|intros [_ ->]; auto]. Qed.
Lemma empty_login u p : is_empty u && is_empty p = negb (nonempty u || nonempty p).
Proof. destruct u, p; reflexivity. Qed.

Lemma Login_wire_inv ft flags b o r : bytes_ok b ->
  Login_read ft flags b = Ok (o, r) -> exists l, b = l ++ r /\ login_wire ft flags o l.
Proof.
  intros Hb. unfold Login_read. rewrite bit_7, bit_6. intros H.
  bo H E1. apply opt_str_inv in E1; [|exact Hb]. destruct E1 as (lu & -> & Hu). bok.
  bo H E2. apply opt_str_inv in E2; [|assumption]. destruct E2 as (lp & -> & Hp).
  rewrite empty_login in H. exists (lu ++ lp). rewrite <- app_assoc.
  destruct (nonempty a || nonempty a0) eqn:E; cbn [negb] in H; ginv H; (split; [reflexivity|]);
    exists a, a0, lu, lp; rewrite E; auto.
Qed.
Lemma Login_wire_app ft flags o l r : login_wire ft flags o l -> Login_read ft flags (l ++ r) = Ok (o, r).
Proof.
  intros (u & p & lu & lp & -> & Hu & Hp & ->). unfold Login_read. rewrite bit_7, bit_6, <- app_assoc.
  rewrite (opt_str_app ft _ u) by exact Hu. cbn [rbind].
  rewrite (opt_str_app ft _ p) by exact Hp. cbn [rbind].
  rewrite empty_login. destruct (nonempty u || nonempty p); reflexivity.
Qed.
Lemma login_wire_ok ft flags o l : login_wire ft flags o l -> bytes_ok l.
Proof.
  intros (u & p & lu & lp & -> & Hu & Hp & _). apply opt_str_ok in Hu. apply opt_str_ok in Hp. bok.
Qed.

Lemma mqtt_wire ft : str_wire ft mqtt (u16be 4 ++ mqtt).
Proof.
  split.
  - split; [unfold mqtt; bok; lia|]. destruct ft; try exact I; apply (proj1 (from_utf8_iff mqtt)); reflexivity.
  - split; [unfold mqtt; bok; lia|]. split; reflexivity.
Qed.

Lemma Connect_wire ft byte1 n b c w l : bytes_ok b ->
  Connect_read ft (mkFixedHeader byte1 0 n) b = Ok (c, w, l) <-> connect_wire ft c w l b.
Proof.
  intros Hb. unfold Connect_read. cbn [fh_fixed_header_len]. rewrite advance_0. cbn [rbind].
  split.
  - intros H. bo H E1. apply read_mqtt_string_inv in E1; [|exact Hb]. destruct E1 as (ln & -> & Hn). bok.
    bo H E2. apply read_u8_inv in E2. subst x. bok.
    unfold mqtt_string_eq in H. destruct (bytes_eqb a str_MQTT) eqn:Em; [|discriminate]. cbn [negb] in H.
    apply bytes_eqb_iff in Em. subst a.
    destruct (N.eqb_spec a0 5) as [->|]; [|discriminate]. cbn [negb] in H.
    bo H E3. apply read_u8_inv in E3. subst x0. bok. rewrite bit_1, negb_involutive in H.
    bo H E4. apply read_u16_inv in E4; [|assumption]. destruct E4 as (lk & -> & Hk). bok.
    bo H E5. apply (section_read_inv _ _ _ _ _ _ _ (ConnectProperties_read_section ft)) in E5; [|assumption].
    destruct E5 as (ls & -> & Hs). bok.
    bo H E6. apply read_mqtt_string_inv in E6; [|assumption]. destruct E6 as (lc & -> & Hc). bok.
    bo H E7. apply LastWill_wire_inv in E7; [|assumption|assumption]. destruct E7 as (lw & -> & Hw). bok.
    bo H E8. apply Login_wire_inv in E8; [|assumption]. destruct E8 as (ll & -> & Hl). bok.
    ginv H. exists a, lk, ls, lc, lw, ll, x0.
    assert (ln = u16be 4 ++ mqtt) as ->. { destruct Hn as (_ & _ & _ & ->). reflexivity. }
    rewrite <- !app_assoc. cbn. repeat (split; [assumption || reflexivity|]). assumption.
  - intros (flags & lk & ls & lc & lw & ll & junk & -> & Hf & Hj & Hcs & Hk & Hs & Hc & Hw & Hl).
    pose proof (will_wire_ok _ _ _ _ Hw). pose proof (login_wire_ok _ _ _ _ Hl). bok.
    rewrite (read_mqtt_string_app ft mqtt) by apply mqtt_wire. cbn [rbind].
    cbn [app]. rewrite read_u8_cons. cbn [rbind].
    change (negb (mqtt_string_eq mqtt str_MQTT)) with false. cbv iota.
    change (negb (5 =? 5)) with false. cbv iota.
    rewrite read_u8_cons. cbn [rbind].
    rewrite (read_u16_app (co_keep_alive c)) by exact Hk. cbn [rbind].
    rewrite (section_read_app _ _ _ _ _ _ _ (ConnectProperties_read_section ft) Hs) by (bok). cbn [rbind].
    rewrite (read_mqtt_string_app ft (co_client_id c)) by exact Hc. cbn [rbind].
    rewrite (LastWill_wire_app ft flags w) by (try assumption; bok). cbn [rbind].
    rewrite (Login_wire_app ft flags l) by exact Hl. cbn [rbind].
    rewrite bit_1, negb_involutive, <- Hcs. destruct c; reflexivity.
Qed.

(** ---------- All packets ---------- *)

Definition ptype (k : N) : res PacketType :=
  match k with
  | 1 => Ok PT_Connect | 2 => Ok PT_ConnAck | 3 => Ok PT_Publish | 4 => Ok PT_PubAck
  | 5 => Ok PT_PubRec | 6 => Ok PT_PubRel | 7 => Ok PT_PubComp | 8 => Ok PT_Subscribe
  | 9 => Ok PT_SubAck | 10 => Ok PT_Unsubscribe | 11 => Ok PT_UnsubAck | 12 => Ok PT_PingReq
  | 13 => Ok PT_PingResp | 14 => Ok PT_Disconnect
  | _ => Err (InvalidPacketType k)
  end.
Lemma packet_type_cases byte1 n m : packet_type (mkFixedHeader byte1 m n) = ptype (byte1 / 16).
Proof.
  unfold packet_type. cbn [fh_byte1]. rewrite N.shiftr_div_pow2. change (2 ^ 4) with 16. reflexivity.
Qed.

Lemma nibble_cases byte1 : byte1 < 256 ->
  In (byte1 / 16) [0;1;2;3;4;5;6;7;8;9;10;11;12;13;14;15].
Proof.
  intros H. assert (Hlt : byte1 / 16 < 16) by (clear -H; lia).
  destruct (byte1 / 16) as [|p]; [left; reflexivity|].
  do 4 (destruct p as [p|p|]; try (cbn [In]; tauto); try lia).
Qed.

(** The packet kinds by nibble. *)
Definition nibble (p : Packet) : N :=
  match p with
  | P_Connect _ _ _ => 1 | P_ConnAck _ => 2 | P_Publish _ => 3 | P_PubAck _ => 4 | P_PubRec _ => 5
  | P_PubRel _ => 6 | P_PubComp _ => 7 | P_Subscribe _ => 8 | P_SubAck _ => 9 | P_Unsubscribe _ => 10
  | P_UnsubAck _ => 11 | P_PingReq => 12 | P_PingResp => 13 | P_Disconnect _ => 14
  end.
Lemma body_wire_nibble ft byte1 p body : body_wire ft byte1 p body -> byte1 / 16 = nibble p.
Proof. destruct p; cbn [body_wire nibble]; try tauto. intros [-> _]. reflexivity. Qed.

Lemma u16_not_nil n l r : u16_wire n l -> l ++ r <> [].
Proof. intros [_ ->] E. discriminate. Qed.

Lemma body_wire_nonempty ft byte1 p body : body_wire ft byte1 p body -> body = [] ->
  nibble p = 12 \/ nibble p = 13 \/ nibble p = 14.
Proof.
  intros H ->. destruct p; cbn [nibble]; try tauto; exfalso; cbn [body_wire] in H.
  - destruct H as [_ (flags & lk & ls & lc & lw & ll & junk & E & _)]. discriminate E.
  - destruct H as [_ (flags & ls & junk & E & _)]. discriminate E.
  - destruct H as [_ (_ & _ & _ & _ & lt & li & ls & E & Ht & _)].
    symmetry in E. apply app_eq_nil in E. apply (str_wire_nonempty _ _ _ Ht). tauto.
  - destruct H as [_ (lk & Hk & [(E & _)|[(E & _)|(ls & junk & E & _)]])];
      [rewrite <- (app_nil_r lk) in E|..]; symmetry in E; revert E; eapply u16_not_nil; exact Hk.
  - destruct H as [_ (lk & ls & lf & E & Hk & _)]. symmetry in E. revert E; eapply u16_not_nil; exact Hk.
  - destruct H as [_ (lk & ls & E & Hk & _)]. symmetry in E. revert E; eapply u16_not_nil; exact Hk.
  - destruct H as [_ (lk & Hk & [(E & _)|[(E & _)|(ls & junk & E & _)]])];
      [rewrite <- (app_nil_r lk) in E|..]; symmetry in E; revert E; eapply u16_not_nil; exact Hk.
  - destruct H as [_ (lk & Hk & [(E & _)|[(E & _)|(ls & junk & E & _)]])];
      [rewrite <- (app_nil_r lk) in E|..]; symmetry in E; revert E; eapply u16_not_nil; exact Hk.
  - destruct H as [_ (lk & Hk & [(E & _)|[(E & _)|(ls & junk & E & _)]])];
      [rewrite <- (app_nil_r lk) in E|..]; symmetry in E; revert E; eapply u16_not_nil; exact Hk.
  - destruct H as [_ (lk & ls & lf & E & Hk & _)]. symmetry in E. revert E; eapply u16_not_nil; exact Hk.
  - destruct H as [_ (lk & ls & E & Hk & _)]. symmetry in E. revert E; eapply u16_not_nil; exact Hk.
Qed.

Ltac kind_case lem :=
  split;
  [ let H := fresh "H" in let E := fresh "E" in
    intros H; bo H E; ginv H; cbn [body_wire]; (split; [assumption|]);
    eapply lem; eassumption
  | let H := fresh "H" in let Hn := fresh "Hn" in
    intros H; pose proof (body_wire_nibble _ _ _ _ H) as Hn;
    match goal with |- _ = Ok ?p => destruct p; cbn [nibble] in Hn; try lia end;
    cbn [body_wire] in H; destruct H as [_ H]; eapply lem in H;
    [rewrite H; reflexivity|..]; assumption ].

Lemma body_read_wire ft byte1 body p : byte1 < 256 -> bytes_ok body ->
  body_read ft byte1 body = Ok p <-> body_wire ft byte1 p body.
Proof.
  intros H1 Hb. unfold body_read, Packet_read_frame. rewrite packet_type_cases.
  cbn [fh_remaining_len].
  assert (Hn := nibble_cases byte1 H1). cbn [In] in Hn.
  assert (Hz : body = [] \/ (blen body =? 0) = false).
  { destruct body; [left; reflexivity|right]. rewrite blen_cons. apply N.eqb_neq. lia. }
  destruct Hz as [->|Hz].
  - (* remaining length 0 *)
    split.
    + intros H.
      repeat (destruct Hn as [En|Hn]; [rewrite <- En in H; cbn in H; try discriminate H|]); [..|destruct Hn].
      * ginv H. cbn. auto.
      * ginv H. cbn. auto.
      * bo H E. ginv H. change 0 with (blen []) in E. eapply Disconnect_wire in E; [|eassumption|auto|auto]. exact E.
    + intros H. pose proof (body_wire_nonempty _ _ _ _ H eq_refl) as Hk.
      pose proof (body_wire_nibble _ _ _ _ H) as En. rewrite En.
      destruct p; cbn [nibble] in *; try lia; try reflexivity.
      cbn [body_wire] in H. cbn [ptype rbind]. change (blen [] =? 0) with true. cbn [andb negb].
      eapply (Disconnect_wire ft byte1 [] d) in H; [|assumption|assumption|assumption].
      rewrite H. reflexivity.
  - rewrite Hz. cbn [andb].
    repeat (destruct Hn as [En|Hn]; [rewrite <- En; cbn [rbind ptype]|]); [..|destruct Hn]; symmetry in En.
    + split; [discriminate|]. intros H. apply body_wire_nibble in H. destruct p; cbn in H; lia.
    + split.
      * intros H. bo H E. ginv H. cbn [body_wire]. split; [assumption|]. eapply Connect_wire; eassumption.
      * intros H; pose proof (body_wire_nibble _ _ _ _ H) as Hn. destruct p; cbn [nibble] in Hn; try lia.
        cbn [body_wire] in H; destruct H as [_ H]. eapply Connect_wire in H; [rewrite H; reflexivity|assumption].
    + kind_case ConnAck_wire.
    + kind_case Publish_wire.
    + kind_case PubAck_wire.
    + kind_case PubRec_wire.
    + kind_case PubRel_wire.
    + kind_case PubComp_wire.
    + kind_case Subscribe_wire.
    + kind_case SubAck_wire.
    + kind_case Unsubscribe_wire.
    + kind_case UnsubAck_wire.
    + split.
      * intros H. ginv H. cbn. auto.
      * intros H. apply body_wire_nibble in H. destruct p; cbn in H; try lia. reflexivity.
    + split.
      * intros H. ginv H. cbn. auto.
      * intros H. apply body_wire_nibble in H. destruct p; cbn in H; try lia. reflexivity.
    + split.
      * intros H. bo H E. ginv H. cbn [body_wire]. eapply Disconnect_wire in E; eassumption.
      * intros H; pose proof (body_wire_nibble _ _ _ _ H) as Hn. destruct p; cbn [nibble] in Hn; try lia.
        cbn [body_wire] in H. eapply Disconnect_wire in H; [rewrite H; reflexivity|..]; assumption.
    + split; [discriminate|]. intros H. apply body_wire_nibble in H. destruct p; cbn in H; lia.
Qed.

(** Packet::read accepts exactly the frames of the wire language. *)
Lemma read_wire ft s max p rest : bytes_ok s ->
  Packet_read ft s max = (Ok p, rest)
  <-> exists frame byte1 lb body,
        s = frame ++ rest /\ frame = byte1 :: lb ++ body /\ varint_wire (blen body) lb
        /\ body_wire ft byte1 p body /\ within max (blen body).
Proof.
  intros Hs. split.
  - intros H. pose proof (read_outcome ft s max Hs) as Ho. rewrite H in Ho. clear H.
    remember (Ok p, rest) as out eqn:Eo.
    destruct Ho as [| | | | |byte1 lb body rest' Hw He]; try discriminate Eo.
    injection Eo as Ep ->. bok.
    apply body_read_wire in Ep; [|assumption|assumption].
    exists (byte1 :: lb ++ body), byte1, lb, body. cbn [app]. rewrite <- app_assoc.
    repeat (split; [assumption || reflexivity|]). apply within_exceeds. exact He.
  - intros (frame & byte1 & lb & body & -> & -> & Hw & Hbw & He).
    cbn [app] in *. rewrite <- app_assoc in *. bok.
    apply within_exceeds in He. rewrite read_full by assumption. f_equal.
    apply body_read_wire; assumption.
Qed.
