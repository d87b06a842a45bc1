(** Lemmas for C63: the counted writers have the outcomes of the model and their steps are bounded. *)
From Verif Require Import Types MLib MConnect MConnAck MPublish MPubAck MPubRec MPubRel MPubComp
  MSubscribe MSubAck MUnsubscribe MUnsubAck MDisconnect MPing Model MCostW Spec Wire PBase PVarint.

(** ---------- outcomes ---------- *)

Definition same {A} (c : CW A) (w : W A) : Prop := forall b, snd (c b) = w b.
Lemma same_taking {A} n (w : W A) : same (taking n w) w. Proof. intros b; reflexivity. Qed.
Lemma same_bind {A B} (c : CW A) (w : W A) (f : A -> CW B) (g : A -> W B) :
  same c w -> (forall a, same (f a) (g a)) -> same (cwbind c f) (wbind w g).
Proof.
  intros H1 H2 b. unfold cwbind, wbind. rewrite (H1 b). destruct (w b) as [[a|e| |] b']; try reflexivity.
  apply H2.
Qed.
Lemma same_tick {B} n (c : CW B) (w : W B) : same c w -> same (do! tick n; c) w.
Proof. intros H b. apply (H b). Qed.
Lemma same_if {A} (x : bool) (c c' : CW A) w w' :
  same c w -> same c' w' -> same (if x then c else c') (if x then w else w').
Proof. destruct x; auto. Qed.
Lemma same_for {A} (l : list A) f g : (forall a, same (f a) (g a)) -> same (c_wfor l f) (wfor l g).
Proof.
  intros H. induction l as [|x l IH]; [apply same_taking|]. apply same_bind; [apply H|intros _; exact IH].
Qed.
Lemma same_opt {A} (o : option A) f g : (forall a, same (f a) (g a)) -> same (c_wopt o f) (wopt o g).
Proof. intros H. destruct o; [apply H|apply same_taking]. Qed.
Lemma same_bytes s : same (c_write_mqtt_bytes s) (write_mqtt_bytes s).
Proof.
  unfold c_write_mqtt_bytes, write_mqtt_bytes. apply same_if; [|apply same_taking].
  apply same_bind; [|intros _]; apply same_taking.
Qed.
Lemma same_rl fuel : forall x count, same (c_write_rl_loop fuel x count) (write_rl_loop fuel x count).
Proof.
  induction fuel as [|fuel IH]; intros x count; [intros b; reflexivity|]. cbn [c_write_rl_loop write_rl_loop].
  cbv zeta. apply same_bind; [apply same_taking|intros _]. apply same_if; [apply same_taking|apply IH].
Qed.
Lemma same_length n : same (c_write_remaining_length n) (write_remaining_length n).
Proof. apply same_if; [apply same_taking|apply same_rl]. Qed.
Lemma same_user l : same (c_write_user_props l) (write_user_props l).
Proof.
  apply same_for. intros [k v]. apply same_bind; [apply same_taking|intros _].
  apply same_bind; [|intros _]; apply same_bytes.
Qed.
Lemma same_codes s : same (c_put_codes s) (put_slice s).
Proof. apply same_tick, same_taking. Qed.
Ltac sm :=
  repeat match goal with
  | |- same (c_write_mqtt_bytes _) _ => apply same_bytes
  | |- same (c_write_mqtt_string _) _ => apply same_bytes
  | |- same (c_write_remaining_length _) _ => apply same_length
  | |- same (c_write_user_props _) _ => apply same_user
  | |- same (c_put_codes _) _ => apply same_codes
  | |- same (c_wopt _ _) _ => apply same_opt; intros ?
  | |- same (c_wfor _ _) _ => apply same_for; intros ?
  | |- same (cwbind (tick _) _) _ => apply same_tick
  | |- same (cwbind _ _) _ => apply same_bind; [|intros ?]
  | |- same (if _ then _ else _) _ => apply same_if
  | |- same (match ?o with Some _ => _ | None => _ end) _ => destruct o
  | |- same (c_put_u8 _) _ => apply same_taking
  | |- same (c_put_u16 _) _ => apply same_taking
  | |- same (c_put_u32 _) _ => apply same_taking
  | |- same (c_put_slice _) _ => apply same_taking
  | |- same (c_set_index _ _) _ => apply same_taking
  | |- same (c_wret _) _ => apply same_taking
  | |- same (c_wfail _) _ => apply same_taking
  | |- same (c_wlift _) _ => apply same_taking
  end.
Lemma ConnectProperties_same p : same (c_ConnectProperties_write p) (ConnectProperties_write p).
Proof. unfold c_ConnectProperties_write, ConnectProperties_write. sm. Qed.
Lemma LastWillProperties_same p : same (c_LastWillProperties_write p) (LastWillProperties_write p).
Proof. unfold c_LastWillProperties_write, LastWillProperties_write. sm. Qed.
Lemma ConnAckProperties_same p : same (c_ConnAckProperties_write p) (ConnAckProperties_write p).
Proof. unfold c_ConnAckProperties_write, ConnAckProperties_write. sm. Qed.
Lemma PublishProperties_same p : same (c_PublishProperties_write p) (PublishProperties_write p).
Proof. unfold c_PublishProperties_write, PublishProperties_write. sm. Qed.
Lemma PubAckProperties_same p : same (c_PubAckProperties_write p) (PubAckProperties_write p).
Proof. unfold c_PubAckProperties_write, PubAckProperties_write. sm. Qed.
Lemma PubRecProperties_same p : same (c_PubRecProperties_write p) (PubRecProperties_write p).
Proof. unfold c_PubRecProperties_write, PubRecProperties_write. sm. Qed.
Lemma PubRelProperties_same p : same (c_PubRelProperties_write p) (PubRelProperties_write p).
Proof. unfold c_PubRelProperties_write, PubRelProperties_write. sm. Qed.
Lemma PubCompProperties_same p : same (c_PubCompProperties_write p) (PubCompProperties_write p).
Proof. unfold c_PubCompProperties_write, PubCompProperties_write. sm. Qed.
Lemma SubscribeProperties_same p : same (c_SubscribeProperties_write p) (SubscribeProperties_write p).
Proof. unfold c_SubscribeProperties_write, SubscribeProperties_write. sm. Qed.
Lemma SubAckProperties_same p : same (c_SubAckProperties_write p) (SubAckProperties_write p).
Proof. unfold c_SubAckProperties_write, SubAckProperties_write. sm. Qed.
Lemma UnsubscribeProperties_same p : same (c_UnsubscribeProperties_write p) (UnsubscribeProperties_write p).
Proof. unfold c_UnsubscribeProperties_write, UnsubscribeProperties_write. sm. Qed.
Lemma UnsubAckProperties_same p : same (c_UnsubAckProperties_write p) (UnsubAckProperties_write p).
Proof. unfold c_UnsubAckProperties_write, UnsubAckProperties_write. sm. Qed.
Lemma DisconnectProperties_same p : same (c_DisconnectProperties_write p) (DisconnectProperties_write p).
Proof. unfold c_DisconnectProperties_write, DisconnectProperties_write. sm. Qed.
Lemma LastWill_same w : same (c_LastWill_write w) (LastWill_write w).
Proof. unfold c_LastWill_write, LastWill_write. cbv zeta. sm; apply LastWillProperties_same. Qed.
Lemma Login_same l : same (c_Login_write l) (Login_write l).
Proof. unfold c_Login_write, Login_write. sm. Qed.
Lemma Filter_same f : same (c_Filter_write f) (Filter_write f).
Proof. unfold c_Filter_write, Filter_write. cbv zeta. sm. Qed.
Lemma Connect_same c w l : same (c_Connect_write c w l) (Connect_write c w l).
Proof.
  unfold c_Connect_write, Connect_write. cbv zeta.
  sm; first [apply ConnectProperties_same|apply LastWill_same|apply Login_same].
Qed.
Lemma ConnAck_same p : same (c_ConnAck_write p) (ConnAck_write p).
Proof. unfold c_ConnAck_write, ConnAck_write. cbv zeta. sm; apply ConnAckProperties_same. Qed.
Lemma Publish_same p : same (c_Publish_write p) (Publish_write p).
Proof. unfold c_Publish_write, Publish_write. cbv zeta. sm; apply PublishProperties_same. Qed.
Lemma PubAck_same p : same (c_PubAck_write p) (PubAck_write p).
Proof. unfold c_PubAck_write, PubAck_write. cbv zeta. sm; apply PubAckProperties_same. Qed.
Lemma PubRec_same p : same (c_PubRec_write p) (PubRec_write p).
Proof. unfold c_PubRec_write, PubRec_write. cbv zeta. sm; apply PubRecProperties_same. Qed.
Lemma PubRel_same p : same (c_PubRel_write p) (PubRel_write p).
Proof. unfold c_PubRel_write, PubRel_write. cbv zeta. sm; apply PubRelProperties_same. Qed.
Lemma PubComp_same p : same (c_PubComp_write p) (PubComp_write p).
Proof. unfold c_PubComp_write, PubComp_write. cbv zeta. sm; apply PubCompProperties_same. Qed.
Lemma Subscribe_same p : same (c_Subscribe_write p) (Subscribe_write p).
Proof. unfold c_Subscribe_write, Subscribe_write. cbv zeta. sm; first [apply SubscribeProperties_same|apply Filter_same]. Qed.
Lemma SubAck_same p : same (c_SubAck_write p) (SubAck_write p).
Proof. unfold c_SubAck_write, SubAck_write. cbv zeta. sm; apply SubAckProperties_same. Qed.
Lemma Unsubscribe_same p : same (c_Unsubscribe_write p) (Unsubscribe_write p).
Proof. unfold c_Unsubscribe_write, Unsubscribe_write. cbv zeta. sm; apply UnsubscribeProperties_same. Qed.
Lemma UnsubAck_same p : same (c_UnsubAck_write p) (UnsubAck_write p).
Proof. unfold c_UnsubAck_write, UnsubAck_write. cbv zeta. sm; apply UnsubAckProperties_same. Qed.
Lemma Disconnect_same p : same (c_Disconnect_write p) (Disconnect_write p).
Proof. unfold c_Disconnect_write, Disconnect_write. cbv zeta. sm; apply DisconnectProperties_same. Qed.
Lemma Packet_same p : same (c_Packet_write p) (Packet_write p).
Proof.
  destruct p as [c w l|a|p|a| | |s|a|a|a|a|u|a|d]; cbn [c_Packet_write Packet_write];
    first [apply Connect_same|apply ConnAck_same|apply Publish_same|apply PubAck_same|apply PubRec_same
          |apply PubRel_same|apply PubComp_same|apply Subscribe_same|apply SubAck_same|apply Unsubscribe_same
          |apply UnsubAck_same|apply Disconnect_same|solve [unfold c_PingReq_write, PingReq_write; sm]
          |solve [unfold c_PingResp_write, PingResp_write; sm]].
Qed.

(** ---------- steps ---------- *)

Definition spends {A} (c : CW A) (k : N) : Prop := forall b, fst (c b) <= k.
Lemma spends_taking {A} n (w : W A) : spends (taking n w) n.
Proof. intros b; apply N.le_refl. Qed.
Lemma spends_tick n : spends (tick n) n.
Proof. intros b; apply N.le_refl. Qed.
Lemma spends_bind {A B} (c : CW A) (f : A -> CW B) k1 k2 :
  spends c k1 -> (forall a, spends (f a) k2) -> spends (cwbind c f) (k1 + k2).
Proof.
  intros H1 H2 b. unfold cwbind. specialize (H1 b). destruct (c b) as [n [[a|e| |] b']]; cbn [fst snd] in *; try lia.
  specialize (H2 a b'). lia.
Qed.
Lemma spends_le {A} (c : CW A) k k' : spends c k -> k <= k' -> spends c k'.
Proof. intros H L b. specialize (H b). lia. Qed.
Lemma spends_bytes s : spends (c_write_mqtt_bytes s) (4 + blen s).
Proof.
  unfold c_write_mqtt_bytes. destruct (blen s <=? 65535).
  - eapply spends_le; [apply spends_bind; [|intros _]; apply spends_taking|lia].
  - eapply spends_le; [apply spends_taking|lia].
Qed.
Lemma spends_rl j : forall fuel x count, x < 128 ^ (1 + j) -> spends (c_write_rl_loop fuel x count) (2 * (1 + j)).
Proof.
  induction j as [|j IH] using N.peano_ind; intros fuel x count L.
  - destruct fuel as [|fuel]; [intros b; cbn; lia|]. cbn [c_write_rl_loop]. cbv zeta.
    replace (x / 128) with 0 by (symmetry; apply N.div_small; exact L). rewrite N.eqb_refl.
    eapply spends_le; [apply spends_bind; [|intros _]; apply spends_taking|lia].
  - destruct fuel as [|fuel]; [intros b; cbn; lia|]. cbn [c_write_rl_loop]. cbv zeta.
    eapply spends_le; [apply spends_bind; [apply spends_taking|intros _]|].
    + instantiate (1 := 2 * (1 + j)). destruct (x / 128 =? 0).
      * eapply spends_le; [apply spends_taking|lia].
      * apply IH. apply N.div_lt_upper_bound; [discriminate|].
        rewrite <- N.pow_succ_r'. replace (N.succ (1 + j)) with (1 + N.succ j) by lia. exact L.
    + lia.
Qed.
Lemma spends_length n : spends (c_write_remaining_length n) (2 * len_len n).
Proof.
  unfold c_write_remaining_length. destruct (268435455 <? n) eqn:E.
  - eapply spends_le; [apply spends_taking|lia].
  - apply N.ltb_ge in E. unfold len_len.
    destruct (2097152 <=? n) eqn:A; [apply (spends_rl 3); cbn; lia|].
    destruct (16384 <=? n) eqn:B; [apply (spends_rl 2); cbn; lia|].
    destruct (128 <=? n) eqn:C; [apply (spends_rl 1)|apply (spends_rl 0)]; cbn; lia.
Qed.
Lemma len_len_4 n : 1 <= len_len n <= 4.
Proof. unfold len_len. repeat match goal with |- context [if ?x then _ else _] => destruct x end; lia. Qed.
Lemma spends_section n : spends (c_write_remaining_length n) 8.
Proof. eapply spends_le; [apply spends_length|]. pose proof (len_len_4 n). lia. Qed.

Lemma spends_if {A} (x : bool) (c c' : CW A) k : spends c k -> spends c' k -> spends (if x then c else c') k.
Proof. destruct x; auto. Qed.
(** Optional properties of a fixed size, optional strings. *)
Lemma spends_fix (o : option N) f n k : (forall v, spends (f v) k) -> k <= 3 * n ->
  spends (c_wopt o f) (3 * len_if_some o n).
Proof.
  intros H L. destruct o as [v|]; cbn [c_wopt len_if_some].
  - eapply spends_le; [apply H|exact L].
  - eapply spends_le; [apply spends_taking|lia].
Qed.
Lemma spends_code_u8 c v : spends (do! c_put_u8 c; c_put_u8 v) 4.
Proof. apply (spends_bind _ _ 2 2); [|intros _]; apply spends_taking. Qed.
Lemma spends_code_u16 c v : spends (do! c_put_u8 c; c_put_u16 v) 5.
Proof. apply (spends_bind _ _ 2 3); [|intros _]; apply spends_taking. Qed.
Lemma spends_code_u32 c v : spends (do! c_put_u8 c; c_put_u32 v) 7.
Proof. apply (spends_bind _ _ 2 5); [|intros _]; apply spends_taking. Qed.
Lemma spends_str (o : option bytes) c : spends (c_wopt o (fun v => do! c_put_u8 c; c_write_mqtt_bytes v)) (3 * len_str o).
Proof.
  destruct o as [v|]; cbn [c_wopt len_str]; [|eapply spends_le; [apply spends_taking|lia]].
  eapply spends_le; [apply spends_bind; [apply spends_taking|intros _; apply spends_bytes]|lia].
Qed.
Lemma fold_sum {A} (f : A -> N) l : forall a, fold_left (fun s x => s + f x) l a = a + fold_left (fun s x => s + f x) l 0.
Proof.
  induction l as [|x l IH]; intros a; cbn [fold_left]; [lia|]. rewrite IH, (IH (0 + f x)). lia.
Qed.
Lemma elements_cons {A} (x : A) l : elements (x :: l) = 1 + elements l.
Proof. unfold elements. cbn [length]. lia. Qed.
(** A list written element by element whose size is summed up: each element leaves two steps unused. *)
Lemma spends_list {A} (l : list A) (c : A -> CW unit) (f : A -> N) :
  (forall x, exists k, spends (c x) k /\ k + 2 <= 3 * f x) ->
  forall b, fst (c_wfor l c b) + 2 * elements l <= 3 * fold_left (fun s x => s + f x) l 0.
Proof.
  intros H. induction l as [|x l IH]; intros b; [apply (N.le_refl 0)|].
  rewrite elements_cons. cbn [c_wfor fold_left]. rewrite (fold_sum f l (0 + f x)). destruct (H x) as (k & S & L).
  unfold cwbind. specialize (S b).
  destruct (c x b) as [n [[[]|e| |] b']]; cbn [fst snd] in *; try (specialize (IH b'); lia).
Qed.
Lemma spends_user l b : fst (c_write_user_props l b) + 2 * elements l <= 3 * user_props_len l.
Proof.
  unfold user_props_len.
  replace (fold_left _ l 0) with (fold_left (fun s x => s + (let '(k, v) := x in 1 + 2 + blen k + 2 + blen v)) l 0).
  - apply spends_list. intros [k v]. eexists. split.
    + apply spends_bind; [apply spends_taking|intros _]. apply spends_bind; [|intros _]; apply spends_bytes.
    + lia.
  - generalize 0. induction l as [|[k v] l IH]; intros a; cbn [fold_left]; [reflexivity|apply IH].
Qed.
Lemma spends_ids l b :
  fst (c_wfor l (fun id => do! c_put_u8 (prop_code SubscriptionIdentifier); do! c_write_remaining_length id; c_wret tt) b)
  + 2 * elements l <= 3 * fold_left (fun s id => s + (1 + len_len id)) l 0.
Proof.
  apply spends_list. intros id. eexists. split.
  - apply spends_bind; [apply spends_taking|intros _]. apply spends_bind; [apply spends_length|intros _; apply spends_taking].
  - pose proof (len_len_4 id). lia.
Qed.
(** A writer that leaves [u] of [k] steps unused. *)
Definition spares {A} (c : CW A) (u k : N) : Prop := forall b, fst (c b) + u <= k.
Lemma spares_bind {A B} (a0 : A) (c : CW A) (f : A -> CW B) u1 k1 u2 k2 :
  spares c u1 k1 -> (forall a, spares (f a) u2 k2) -> spares (cwbind c f) (u1 + u2) (k1 + k2).
Proof.
  intros H1 H2 b. pose proof (H2 a0 []) as L. unfold cwbind. specialize (H1 b).
  destruct (c b) as [n [[a|e| |] b']]; cbn [fst snd] in *; try lia.
  specialize (H2 a b'). lia.
Qed.
Lemma spares_of {A} (c : CW A) k : spends c k -> spares c 0 k.
Proof. intros H b. specialize (H b). lia. Qed.
Lemma spares_end {A} (c : CW A) u k l n : spares c u k -> l + k <= n + u -> forall b, fst (c b) + l <= n.
Proof. intros H L b. specialize (H b). lia. Qed.
Lemma spares_o8 o c : spares (c_wopt o (fun v => do! c_put_u8 c; c_put_u8 v)) 0 (3 * len_if_some o (1 + 1)).
Proof. apply spares_of. eapply spends_fix; [intros ?; apply spends_code_u8|lia]. Qed.
Lemma spares_o16 o c : spares (c_wopt o (fun v => do! c_put_u8 c; c_put_u16 v)) 0 (3 * len_if_some o (1 + 2)).
Proof. apply spares_of. eapply spends_fix; [intros ?; apply spends_code_u16|lia]. Qed.
Lemma spares_o32 o c : spares (c_wopt o (fun v => do! c_put_u8 c; c_put_u32 v)) 0 (3 * len_if_some o (1 + 4)).
Proof. apply spares_of. eapply spends_fix; [intros ?; apply spends_code_u32|lia]. Qed.
Lemma spares_id o c :
  spares (c_wopt o (fun id => do! c_put_u8 c; do! c_write_remaining_length id; c_wret tt)) 0
    (3 * match o with Some id => 1 + len_len id | None => 0 end).
Proof.
  apply spares_of. destruct o as [id|]; cbn [c_wopt]; [|eapply spends_le; [apply spends_taking|lia]].
  eapply spends_le; [apply spends_bind; [apply spends_taking|intros _];
    apply spends_bind; [apply spends_length|intros _; apply spends_taking]|]. pose proof (len_len_4 id). lia.
Qed.
Ltac spr :=
  repeat match goal with
  | |- spares (cwbind (c_write_remaining_length _) _) _ _ => apply (spares_bind 0); [|intros ?]
  | |- spares (cwbind _ _) _ _ => apply (spares_bind tt); [|intros ?]
  | |- spares (tick _) _ _ => apply spares_of, spends_tick
  | |- spares (c_write_remaining_length _) _ _ => apply spares_of, spends_section
  | |- spares (c_write_user_props _) _ _ => exact (spends_user _)
  | |- spares (c_wfor (pp_subscription_identifiers _) _) _ _ => exact (spends_ids _)
  | |- spares (c_wopt _ (fun v => cwbind _ (fun _ => c_put_u8 v))) _ _ => apply spares_o8
  | |- spares (c_wopt _ (fun v => cwbind _ (fun _ => c_put_u16 v))) _ _ => apply spares_o16
  | |- spares (c_wopt _ (fun v => cwbind _ (fun _ => c_put_u32 v))) _ _ => apply spares_o32
  | |- spares (c_wopt (sp_id _) _) _ _ => apply spares_id
  | |- spares (c_wopt _ _) _ _ => apply spares_of, spends_str
  end.
Lemma ConnectProperties_steps p b :
  fst (c_ConnectProperties_write p b) + l_ConnectProperties p <= 3 * ConnectProperties_len p + 10.
Proof.
  revert b. eapply spares_end; [unfold c_ConnectProperties_write; spr|].
  unfold ConnectProperties_len, l_ConnectProperties. lia.
Qed.
Lemma LastWillProperties_steps p b :
  fst (c_LastWillProperties_write p b) + l_LastWillProperties p <= 3 * LastWillProperties_len p + 10.
Proof.
  revert b. eapply spares_end; [unfold c_LastWillProperties_write; spr|].
  unfold LastWillProperties_len, l_LastWillProperties. lia.
Qed.
Lemma ConnAckProperties_steps p b :
  fst (c_ConnAckProperties_write p b) + l_ConnAckProperties p <= 3 * ConnAckProperties_len p + 10.
Proof.
  revert b. eapply spares_end; [unfold c_ConnAckProperties_write; spr|].
  unfold ConnAckProperties_len, l_ConnAckProperties. lia.
Qed.
Lemma PublishProperties_steps p b :
  fst (c_PublishProperties_write p b) + l_PublishProperties p <= 3 * PublishProperties_len p + 10.
Proof.
  revert b. eapply spares_end; [unfold c_PublishProperties_write; spr|].
  unfold PublishProperties_len, l_PublishProperties. lia.
Qed.
Lemma PubAckProperties_steps p b :
  fst (c_PubAckProperties_write p b) + l_PubAckProperties p <= 3 * PubAckProperties_len p + 10.
Proof.
  revert b. eapply spares_end; [unfold c_PubAckProperties_write; spr|].
  unfold PubAckProperties_len, l_PubAckProperties. lia.
Qed.
Lemma PubRecProperties_steps p b :
  fst (c_PubRecProperties_write p b) + l_PubRecProperties p <= 3 * PubRecProperties_len p + 10.
Proof.
  revert b. eapply spares_end; [unfold c_PubRecProperties_write; spr|].
  unfold PubRecProperties_len, l_PubRecProperties. lia.
Qed.
Lemma PubRelProperties_steps p b :
  fst (c_PubRelProperties_write p b) + l_PubRelProperties p <= 3 * PubRelProperties_len p + 10.
Proof.
  revert b. eapply spares_end; [unfold c_PubRelProperties_write; spr|].
  unfold PubRelProperties_len, l_PubRelProperties. lia.
Qed.
Lemma PubCompProperties_steps p b :
  fst (c_PubCompProperties_write p b) + l_PubCompProperties p <= 3 * PubCompProperties_len p + 10.
Proof.
  revert b. eapply spares_end; [unfold c_PubCompProperties_write; spr|].
  unfold PubCompProperties_len, l_PubCompProperties. lia.
Qed.
Lemma SubscribeProperties_steps p b :
  fst (c_SubscribeProperties_write p b) + l_SubscribeProperties p <= 3 * SubscribeProperties_len p + 10.
Proof.
  revert b. eapply spares_end; [unfold c_SubscribeProperties_write; spr|].
  unfold SubscribeProperties_len, l_SubscribeProperties. lia.
Qed.
Lemma SubAckProperties_steps p b :
  fst (c_SubAckProperties_write p b) + l_SubAckProperties p <= 3 * SubAckProperties_len p + 10.
Proof.
  revert b. eapply spares_end; [unfold c_SubAckProperties_write; spr|].
  unfold SubAckProperties_len, l_SubAckProperties. lia.
Qed.
Lemma UnsubscribeProperties_steps p b :
  fst (c_UnsubscribeProperties_write p b) + l_UnsubscribeProperties p <= 3 * UnsubscribeProperties_len p + 10.
Proof.
  revert b. eapply spares_end; [unfold c_UnsubscribeProperties_write; spr|].
  unfold UnsubscribeProperties_len, l_UnsubscribeProperties. lia.
Qed.
Lemma UnsubAckProperties_steps p b :
  fst (c_UnsubAckProperties_write p b) + l_UnsubAckProperties p <= 3 * UnsubAckProperties_len p + 10.
Proof.
  revert b. eapply spares_end; [unfold c_UnsubAckProperties_write; spr|].
  unfold UnsubAckProperties_len, l_UnsubAckProperties. lia.
Qed.
Lemma DisconnectProperties_steps p b :
  fst (c_DisconnectProperties_write p b) + l_DisconnectProperties p <= 3 * DisconnectProperties_len p + 10.
Proof.
  revert b. eapply spares_end; [unfold c_DisconnectProperties_write; spr|].
  unfold DisconnectProperties_len, l_DisconnectProperties. lia.
Qed.

(** An optional property section, with the steps of its len(). *)
Definition sect {P} (L : P -> N) (o : option P) : N :=
  match o with Some p => len_len (L p) + L p | None => 1 end.
Lemma spares_sect {P} (L l : P -> N) (w : P -> CW unit) o :
  (forall p b, fst (w p b) + l p <= 3 * L p + 10) ->
  spares (match o with Some p => w p | None => do! c_write_remaining_length 0; c_wret tt end)
    (l_opt l o) (3 * sect L o + 10).
Proof.
  intros H. destruct o as [p|]; cbn [l_opt sect].
  - intros b. specialize (H p b). lia.
  - intros b. assert (spends (do! c_write_remaining_length 0; c_wret tt) (2 + 0)) as S.
    { apply spends_bind; [apply spends_length|intros _; apply spends_taking]. }
    specialize (S b). lia.
Qed.
Lemma spares_taking {A} n (w : W A) : spares (taking n w) 0 n.
Proof. apply spares_of, spends_taking. Qed.
Lemma spares_bytes s : spares (c_write_mqtt_bytes s) 0 (4 + blen s).
Proof. apply spares_of, spends_bytes. Qed.
Lemma spares_le {A} (c : CW A) u k u' k' : spares c u k -> k + u' <= k' + u -> spares c u' k'.
Proof. intros H L b. specialize (H b). lia. Qed.
Lemma spares_codes s : spares (c_put_codes s) 0 (3 * blen s + 1).
Proof.
  unfold c_put_codes. eapply spares_le; [apply (spares_bind tt); [apply spares_of, spends_tick|intros _; apply spares_taking]|]. lia.
Qed.
Ltac spk lem :=
  repeat match goal with
  | |- spares (cwbind (c_write_remaining_length _) _) _ _ => apply (spares_bind 0); [|intros ?]
  | |- spares (cwbind (c_wlift _) _) _ _ => apply (spares_bind 0); [|intros ?]
  | |- spares (cwbind _ _) _ _ => apply (spares_bind tt); [|intros ?]
  | |- spares (tick _) _ _ => apply spares_of, spends_tick
  | |- spares (c_write_remaining_length _) _ _ => apply spares_of, spends_section
  | |- spares (c_write_mqtt_string _) _ _ => apply spares_bytes
  | |- spares (c_write_mqtt_bytes _) _ _ => apply spares_bytes
  | |- spares (c_put_codes _) _ _ => apply spares_codes
  | |- spares (match _ with Some _ => _ | None => do! _; _ end) _ _ => apply spares_sect, lem
  | |- spares (c_put_u8 _) _ _ => apply spares_taking
  | |- spares (c_put_u16 _) _ _ => apply spares_taking
  | |- spares (c_put_u32 _) _ _ => apply spares_taking
  | |- spares (c_put_slice _) _ _ => apply spares_taking
  | |- spares (c_set_index _ _) _ _ => apply spares_taking
  | |- spares (c_wret _) _ _ => apply spares_taking
  | |- spares (c_wfail _) _ _ => apply spares_taking
  | |- spares (c_wlift _) _ _ => apply spares_taking
  end.
Lemma ConnAck_steps a b : fst (c_ConnAck_write a b) <= 3 * ConnAck_len a + 30.
Proof.
  rewrite <- (N.add_0_r (fst _)). revert b.
  eapply spares_end; [unfold c_ConnAck_write; cbv zeta; spk ConnAckProperties_steps|].
  unfold ConnAck_len, l_ConnAck. fold (sect ConnAckProperties_len (ck_properties a)). lia.
Qed.
Lemma Publish_steps p b : fst (c_Publish_write p b) <= 3 * Publish_len p + 30.
Proof.
  rewrite <- (N.add_0_r (fst _)). revert b.
  eapply spares_end; [unfold c_Publish_write; cbv zeta; spk PublishProperties_steps|].
  - instantiate (1 := 3). instantiate (1 := 0). destruct (negb _); [destruct (_ =? 0)|].
    + apply (spares_le _ _ _ _ _ (spares_taking 0 _)); lia.
    + apply spares_taking.
    + apply (spares_le _ _ _ _ _ (spares_taking 0 _)); lia.
  - unfold Publish_len, l_Publish. fold (sect PublishProperties_len (pu_properties p)).
    destruct (QoS_eqb _ _); cbn [negb]; lia.
Qed.
Lemma PubAck_steps a b : fst (c_PubAck_write a b) <= 3 * PubAck_len a + 30.
Proof.
  rewrite <- (N.add_0_r (fst _)). revert b.
  unfold c_PubAck_write, PubAck_len, l_PubAck. cbv zeta. destruct (PubAck_is_short a) eqn:E.
  - assert (pa_properties a = None) as ->.
    { unfold PubAck_is_short in E. destruct (pa_reason a), (pa_properties a); congruence. }
    eapply spares_end; [spk PubAckProperties_steps|]. cbn [l_opt]. lia.
  - eapply spares_end; [spk PubAckProperties_steps|]. fold (sect PubAckProperties_len (pa_properties a)). lia.
Qed.
Lemma PubRec_steps a b : fst (c_PubRec_write a b) <= 3 * PubRec_len a + 30.
Proof.
  rewrite <- (N.add_0_r (fst _)). revert b.
  unfold c_PubRec_write, PubRec_len, l_PubRec. cbv zeta. destruct (PubRec_is_short a) eqn:E.
  - assert (pr_properties a = None) as ->.
    { unfold PubRec_is_short in E. destruct (pr_reason a), (pr_properties a); congruence. }
    eapply spares_end; [spk PubRecProperties_steps|]. cbn [l_opt]. lia.
  - eapply spares_end; [spk PubRecProperties_steps|]. fold (sect PubRecProperties_len (pr_properties a)). lia.
Qed.
Lemma PubRel_steps a b : fst (c_PubRel_write a b) <= 3 * PubRel_len a + 30.
Proof.
  rewrite <- (N.add_0_r (fst _)). revert b.
  unfold c_PubRel_write, PubRel_len, l_PubRel. cbv zeta. destruct (PubRel_is_short a) eqn:E.
  - assert (pl_properties a = None) as ->.
    { unfold PubRel_is_short in E. destruct (pl_reason a), (pl_properties a); congruence. }
    eapply spares_end; [spk PubRelProperties_steps|]. cbn [l_opt]. lia.
  - eapply spares_end; [spk PubRelProperties_steps|]. fold (sect PubRelProperties_len (pl_properties a)). lia.
Qed.
Lemma PubComp_steps a b : fst (c_PubComp_write a b) <= 3 * PubComp_len a + 30.
Proof.
  rewrite <- (N.add_0_r (fst _)). revert b.
  unfold c_PubComp_write, PubComp_len, l_PubComp. cbv zeta. destruct (PubComp_is_short a) eqn:E.
  - assert (pc_properties a = None) as ->.
    { unfold PubComp_is_short in E. destruct (pc_reason a), (pc_properties a); congruence. }
    eapply spares_end; [spk PubCompProperties_steps|]. cbn [l_opt]. lia.
  - eapply spares_end; [spk PubCompProperties_steps|]. fold (sect PubCompProperties_len (pc_properties a)). lia.
Qed.
Lemma spares_filters l : spares (c_wfor l c_Filter_write) (2 * elements l) (3 * fold_left (fun a t => a + Filter_len t) l 0).
Proof.
  unfold spares. apply (spends_list l c_Filter_write Filter_len). intros f. exists (4 + blen (fi_path f) + 2). split; [|unfold Filter_len; lia].
  unfold c_Filter_write. cbv zeta. apply spends_bind; [apply spends_bytes|intros _; apply spends_taking].
Qed.
Lemma spares_strs l :
  spares (c_wfor l c_write_mqtt_string) (2 * elements l) (3 * fold_left (fun s t => 2 + s + blen t) l 0).
Proof.
  replace (fold_left (fun s t => 2 + s + blen t) l 0) with (fold_left (fun s t => s + (2 + blen t)) l 0).
  - unfold spares. apply (spends_list l c_write_mqtt_string (fun t => 2 + blen t)). intros t. exists (4 + blen t). split; [apply spends_bytes|lia].
  - generalize 0. induction l as [|t l IH]; intros a; cbn [fold_left]; [reflexivity|].
    rewrite IH. f_equal. lia.
Qed.
Lemma Subscribe_steps s b : fst (c_Subscribe_write s b) <= 3 * Subscribe_len s + 30.
Proof.
  rewrite <- (N.add_0_r (fst _)). revert b.
  eapply spares_end; [unfold c_Subscribe_write; cbv zeta; spk SubscribeProperties_steps; apply spares_filters|].
  unfold Subscribe_len, l_Subscribe. fold (sect SubscribeProperties_len (su_properties s)). lia.
Qed.
Lemma Unsubscribe_steps u b : fst (c_Unsubscribe_write u b) <= 3 * Unsubscribe_len u + 30.
Proof.
  rewrite <- (N.add_0_r (fst _)). revert b.
  eapply spares_end; [unfold c_Unsubscribe_write; cbv zeta; spk UnsubscribeProperties_steps; apply spares_strs|].
  unfold Unsubscribe_len, l_Unsubscribe. fold (sect UnsubscribeProperties_len (un_properties u)). lia.
Qed.
Lemma SubAck_steps a b : fst (c_SubAck_write a b) <= 3 * SubAck_len a + 30.
Proof.
  rewrite <- (N.add_0_r (fst _)). revert b.
  eapply spares_end; [unfold c_SubAck_write; cbv zeta; spk SubAckProperties_steps|].
  unfold SubAck_len, l_SubAck. fold (sect SubAckProperties_len (sa_properties a)).
  unfold blen. rewrite map_length. lia.
Qed.
Lemma UnsubAck_steps a b : fst (c_UnsubAck_write a b) <= 3 * UnsubAck_len a + 30.
Proof.
  rewrite <- (N.add_0_r (fst _)). revert b.
  eapply spares_end; [unfold c_UnsubAck_write; cbv zeta; spk UnsubAckProperties_steps|].
  unfold UnsubAck_len, l_UnsubAck. fold (sect UnsubAckProperties_len (ua_properties a)).
  unfold blen. rewrite map_length. lia.
Qed.
Lemma Disconnect_steps d b : fst (c_Disconnect_write d b) <= 3 * Disconnect_len d + 30.
Proof.
  rewrite <- (N.add_0_r (fst _)). revert b. unfold c_Disconnect_write. cbv zeta.
  eapply spares_end.
  - spk DisconnectProperties_steps. instantiate (2 := l_opt l_DisconnectProperties (di_properties d)).
    instantiate (1 := 12 + (3 * sect DisconnectProperties_len (di_properties d) + 10)).
    destruct (Disconnect_len d =? 2).
    + eapply spares_le; [spk DisconnectProperties_steps|].
      pose proof (spares_sect _ _ _ (di_properties d) DisconnectProperties_steps []). lia.
    + eapply spares_le; [spk DisconnectProperties_steps|]. lia.
  - unfold Disconnect_len, l_Disconnect, sect. destruct (di_properties d), (di_reason_code d); lia.
Qed.
Lemma LastWill_steps w :
  spares (c_LastWill_write w) (l_opt l_LastWillProperties (lw_properties w)) (3 * LastWill_len w + 10).
Proof.
  eapply spares_le; [unfold c_LastWill_write; cbv zeta; spk LastWillProperties_steps|].
  unfold LastWill_len. fold (sect LastWillProperties_len (lw_properties w)). lia.
Qed.
Lemma Login_steps l : spares (c_Login_write l) 0 (3 * Login_len l).
Proof.
  eapply spares_le with (u := 0 + 0).
  - unfold c_Login_write. apply (spares_bind 0) with
      (k1 := 3 * (if negb (is_empty (lo_username l)) then 2 + blen (lo_username l) else 0))
      (k2 := 3 * (if negb (is_empty (lo_password l)) then 2 + blen (lo_password l) else 0)); [|intros ?].
    + destruct (negb _); [eapply spares_le; [spk LastWillProperties_steps|lia]|eapply spares_le; [apply spares_taking|lia]].
    + destruct (negb _); [eapply spares_le; [spk LastWillProperties_steps|lia]|eapply spares_le; [apply spares_taking|lia]].
  - unfold Login_len. lia.
Qed.
Lemma Connect_steps c w l b : fst (c_Connect_write c w l b) <= 3 * Connect_len c w l + 45.
Proof.
  rewrite <- (N.add_0_r (fst _)). revert b.
  eapply spares_end.
  - unfold c_Connect_write. cbv zeta. spk ConnectProperties_steps.
    apply (spares_bind 0) with
      (u1 := l_opt (fun w => l_opt l_LastWillProperties (lw_properties w)) w)
      (k1 := 3 * match w with Some w => LastWill_len w | None => 0 end + 10);
      [|intros ?; apply (spares_bind 0) with (u1 := 0)
          (k1 := 3 * match l with Some l => Login_len l | None => 0 end); [|intros ?]].
    + destruct w as [w|]; cbn [l_opt].
      * eapply spares_le; [apply (spares_bind 0); [apply LastWill_steps|intros ?; apply spares_taking]|lia].
      * eapply spares_le; [apply spares_taking|lia].
    + destruct l as [l|].
      * eapply spares_le; [apply (spares_bind 0); [apply Login_steps|intros ?; apply spares_taking]|lia].
      * eapply spares_le; [apply spares_taking|lia].
    + spk ConnectProperties_steps.
  - unfold Connect_len, l_Connect. fold (sect ConnectProperties_len (co_properties c)).
    change (blen str_MQTT) with 4. destruct w, l; cbn [l_opt]; lia.
Qed.
