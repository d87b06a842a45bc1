(** Lemmas for C60: the counted readers give the same outcomes, and their steps are bounded. *)
From Verif Require Import Types MLib MConnect MConnAck MPublish MPubAck MPubRec MPubRel MPubComp
  MSubscribe MSubAck MUnsubscribe MUnsubAck MDisconnect Model MCost Spec Wire PBase.

(** ---------- The same outcomes ---------- *)

Lemma same_bind {A B} (x : cost A) (y : res A) (k : A -> cost B) (h : A -> res B) :
  snd x = y -> (forall a, snd (k a) = h a) -> snd (cbind x k) = rbind y h.
Proof. intros <- H. unfold cbind, rbind. destruct (snd x); cbn [snd]; auto. Qed.
Lemma same_tick {B} n (k : unit -> cost B) : snd (cbind (n, Ok tt) k) = snd (k tt).
Proof. reflexivity. Qed.

Lemma c_length_loop_same s : forall len ll shift, snd (c_length_loop s len ll shift) = length_loop s len ll shift.
Proof.
  induction s as [|b s IH]; intros; [reflexivity|]. cbn [c_length_loop length_loop]. unfold op. rewrite same_tick.
  destruct (_ =? 0); [reflexivity|]. destruct (21 <? _); [reflexivity|]. apply IH.
Qed.
Lemma c_length_same s : snd (c_length_ s) = length_ s.
Proof. apply c_length_loop_same. Qed.
Lemma c_read_u8_same b : snd (c_read_u8 b) = read_u8 b. Proof. reflexivity. Qed.
Lemma c_read_u16_same b : snd (c_read_u16 b) = read_u16 b. Proof. reflexivity. Qed.
Lemma c_read_u32_same b : snd (c_read_u32 b) = read_u32 b. Proof. reflexivity. Qed.
Lemma c_read_mqtt_bytes_same b : snd (c_read_mqtt_bytes b) = read_mqtt_bytes b.
Proof.
  apply same_bind; [reflexivity|]. intros [len r]. unfold op. rewrite same_tick. destruct (_ <? _); reflexivity.
Qed.
Lemma c_read_mqtt_string_same ft b : snd (c_read_mqtt_string ft b) = read_mqtt_string ft b.
Proof.
  destruct ft; cbn [c_read_mqtt_string read_mqtt_string]; try apply c_read_mqtt_bytes_same;
    (apply same_bind; [apply c_read_mqtt_bytes_same|]; intros [s r]; rewrite same_tick; destruct (from_utf8 s); reflexivity).
Qed.

Create HintDb same.
#[export] Hint Resolve c_length_same c_read_u8_same c_read_u16_same c_read_u32_same c_read_mqtt_bytes_same
  c_read_mqtt_string_same : same.
Ltac same1 :=
  first
    [ reflexivity
    | solve [auto 2 with same nocore]
    | progress unfold push, has_remaining
    | rewrite same_tick
    | apply same_bind; [|try (intros [[? ?] ?]); try (intros [? ?]); try (intro)]
    | match goal with |- snd (match ?x with _ => _ end) = _ => destruct x end
    | progress (unfold op; cbn [snd]; reflexivity) ].
Ltac same := repeat same1.

Lemma c_props_loop_same {S} cstep step (H : forall p (st : S) b, snd (cstep p st b) = step p st b) fuel :
  forall cursor n st b, snd (c_props_loop cstep fuel cursor n st b) = props_loop step fuel cursor n st b.
Proof.
  induction fuel as [|fuel IH]; intros; cbn [c_props_loop props_loop]; destruct (_ <? _); try reflexivity.
  apply same_bind; [reflexivity|]. intros [p r]. apply same_bind; [reflexivity|]. intros c.
  apply same_bind; [apply H|]. intros [[st' m] r']. apply same_bind; [reflexivity|]. intros c'. apply IH.
Qed.
Lemma c_props_read_same {S} cstep step (init : S) b : (forall p (st : S) b, snd (cstep p st b) = step p st b) ->
  snd (c_props_read cstep init b) = props_read step init b.
Proof.
  intros H. apply same_bind; [apply c_length_same|]. intros [k n]. apply same_bind; [reflexivity|]. intros r.
  destruct (n =? 0); [reflexivity|]. apply same_bind; [apply c_props_loop_same; exact H|]. intros [st r']. reflexivity.
Qed.

Lemma c_ConnectProperties_step_same ft p st b : snd (c_ConnectProperties_step ft p st b) = ConnectProperties_step ft p st b.
Proof. unfold c_ConnectProperties_step, ConnectProperties_step. destruct st. same. Qed.
Lemma c_ConnectProperties_read_same ft b : snd (c_ConnectProperties_read ft b) = ConnectProperties_read ft b.
Proof. unfold c_ConnectProperties_read, ConnectProperties_read. apply c_props_read_same. intros. apply c_ConnectProperties_step_same. Qed.
Lemma c_LastWillProperties_step_same ft p st b : snd (c_LastWillProperties_step ft p st b) = LastWillProperties_step ft p st b.
Proof. unfold c_LastWillProperties_step, LastWillProperties_step. destruct st. same. Qed.
Lemma c_LastWillProperties_read_same ft b : snd (c_LastWillProperties_read ft b) = LastWillProperties_read ft b.
Proof. unfold c_LastWillProperties_read, LastWillProperties_read. apply c_props_read_same. intros. apply c_LastWillProperties_step_same. Qed.
Lemma c_ConnAckProperties_step_same ft p st b : snd (c_ConnAckProperties_step ft p st b) = ConnAckProperties_step ft p st b.
Proof. unfold c_ConnAckProperties_step, ConnAckProperties_step. destruct st. same. Qed.
Lemma c_ConnAckProperties_read_same ft b : snd (c_ConnAckProperties_read ft b) = ConnAckProperties_read ft b.
Proof. unfold c_ConnAckProperties_read, ConnAckProperties_read. apply c_props_read_same. intros. apply c_ConnAckProperties_step_same. Qed.
Lemma c_PublishProperties_step_same ft p st b : snd (c_PublishProperties_step ft p st b) = PublishProperties_step ft p st b.
Proof. unfold c_PublishProperties_step, PublishProperties_step. destruct st. same. Qed.
Lemma c_PublishProperties_read_same ft b : snd (c_PublishProperties_read ft b) = PublishProperties_read ft b.
Proof. unfold c_PublishProperties_read, PublishProperties_read. apply c_props_read_same. intros. apply c_PublishProperties_step_same. Qed.
Lemma c_PubAckProperties_step_same ft p st b : snd (c_PubAckProperties_step ft p st b) = PubAckProperties_step ft p st b.
Proof. unfold c_PubAckProperties_step, PubAckProperties_step. destruct st. same. Qed.
Lemma c_PubAckProperties_read_same ft b : snd (c_PubAckProperties_read ft b) = PubAckProperties_read ft b.
Proof. unfold c_PubAckProperties_read, PubAckProperties_read. apply c_props_read_same. intros. apply c_PubAckProperties_step_same. Qed.
Lemma c_PubRecProperties_step_same ft p st b : snd (c_PubRecProperties_step ft p st b) = PubRecProperties_step ft p st b.
Proof. unfold c_PubRecProperties_step, PubRecProperties_step. destruct st. same. Qed.
Lemma c_PubRecProperties_read_same ft b : snd (c_PubRecProperties_read ft b) = PubRecProperties_read ft b.
Proof. unfold c_PubRecProperties_read, PubRecProperties_read. apply c_props_read_same. intros. apply c_PubRecProperties_step_same. Qed.
Lemma c_PubRelProperties_step_same ft p st b : snd (c_PubRelProperties_step ft p st b) = PubRelProperties_step ft p st b.
Proof. unfold c_PubRelProperties_step, PubRelProperties_step. destruct st. same. Qed.
Lemma c_PubRelProperties_read_same ft b : snd (c_PubRelProperties_read ft b) = PubRelProperties_read ft b.
Proof. unfold c_PubRelProperties_read, PubRelProperties_read. apply c_props_read_same. intros. apply c_PubRelProperties_step_same. Qed.
Lemma c_PubCompProperties_step_same ft p st b : snd (c_PubCompProperties_step ft p st b) = PubCompProperties_step ft p st b.
Proof. unfold c_PubCompProperties_step, PubCompProperties_step. destruct st. same. Qed.
Lemma c_PubCompProperties_read_same ft b : snd (c_PubCompProperties_read ft b) = PubCompProperties_read ft b.
Proof. unfold c_PubCompProperties_read, PubCompProperties_read. apply c_props_read_same. intros. apply c_PubCompProperties_step_same. Qed.
Lemma c_SubscribeProperties_step_same ft p st b : snd (c_SubscribeProperties_step ft p st b) = SubscribeProperties_step ft p st b.
Proof. unfold c_SubscribeProperties_step, SubscribeProperties_step. destruct st. same. Qed.
Lemma c_SubscribeProperties_read_same ft b : snd (c_SubscribeProperties_read ft b) = SubscribeProperties_read ft b.
Proof. unfold c_SubscribeProperties_read, SubscribeProperties_read. apply c_props_read_same. intros. apply c_SubscribeProperties_step_same. Qed.
Lemma c_SubAckProperties_step_same ft p st b : snd (c_SubAckProperties_step ft p st b) = SubAckProperties_step ft p st b.
Proof. unfold c_SubAckProperties_step, SubAckProperties_step. destruct st. same. Qed.
Lemma c_SubAckProperties_read_same ft b : snd (c_SubAckProperties_read ft b) = SubAckProperties_read ft b.
Proof. unfold c_SubAckProperties_read, SubAckProperties_read. apply c_props_read_same. intros. apply c_SubAckProperties_step_same. Qed.
Lemma c_UnsubscribeProperties_step_same ft p st b : snd (c_UnsubscribeProperties_step ft p st b) = UnsubscribeProperties_step ft p st b.
Proof. unfold c_UnsubscribeProperties_step, UnsubscribeProperties_step. destruct st. same. Qed.
Lemma c_UnsubscribeProperties_read_same ft b : snd (c_UnsubscribeProperties_read ft b) = UnsubscribeProperties_read ft b.
Proof. unfold c_UnsubscribeProperties_read, UnsubscribeProperties_read. apply c_props_read_same. intros. apply c_UnsubscribeProperties_step_same. Qed.
Lemma c_UnsubAckProperties_step_same ft p st b : snd (c_UnsubAckProperties_step ft p st b) = UnsubAckProperties_step ft p st b.
Proof. unfold c_UnsubAckProperties_step, UnsubAckProperties_step. destruct st. same. Qed.
Lemma c_UnsubAckProperties_read_same ft b : snd (c_UnsubAckProperties_read ft b) = UnsubAckProperties_read ft b.
Proof. unfold c_UnsubAckProperties_read, UnsubAckProperties_read. apply c_props_read_same. intros. apply c_UnsubAckProperties_step_same. Qed.
Lemma c_DisconnectProperties_step_same ft p st b : snd (c_DisconnectProperties_step ft p st b) = DisconnectProperties_step ft p st b.
Proof. unfold c_DisconnectProperties_step, DisconnectProperties_step. destruct st. same. Qed.
Lemma c_DisconnectProperties_extract_same ft b : snd (c_DisconnectProperties_extract ft b) = DisconnectProperties_extract ft b.
Proof. unfold c_DisconnectProperties_extract, DisconnectProperties_extract. apply c_props_read_same. intros. apply c_DisconnectProperties_step_same. Qed.
#[export] Hint Resolve c_ConnectProperties_read_same c_LastWillProperties_read_same c_ConnAckProperties_read_same c_PublishProperties_read_same c_PubAckProperties_read_same c_PubRecProperties_read_same c_PubRelProperties_read_same c_PubCompProperties_read_same c_SubscribeProperties_read_same c_SubAckProperties_read_same c_UnsubscribeProperties_read_same c_UnsubAckProperties_read_same c_DisconnectProperties_extract_same : same.

Lemma c_LastWill_read_same ft f b : snd (c_LastWill_read ft f b) = LastWill_read ft f b.
Proof. unfold c_LastWill_read, LastWill_read. same. Qed.
Lemma c_Login_read_same ft f b : snd (c_Login_read ft f b) = Login_read ft f b.
Proof. unfold c_Login_read, Login_read. same. Qed.
#[export] Hint Resolve c_LastWill_read_same c_Login_read_same : same.
Lemma c_Filter_read_loop_same ft fuel : forall l b, snd (c_Filter_read_loop ft fuel l b) = Filter_read_loop ft fuel l b.
Proof.
  induction fuel as [|fuel IH]; intros; cbn [c_Filter_read_loop Filter_read_loop]; unfold has_remaining, op; rewrite same_tick;
    destruct b; try reflexivity.
  apply same_bind; [auto with same|]. intros [path r]. apply same_bind; [reflexivity|]. intros [o r'].
  apply same_bind; [same|]. intros rule. destruct (qos _); [|reflexivity]. unfold push, op. rewrite same_tick. apply IH.
Qed.
Lemma c_Unsubscribe_read_loop_same ft fuel : forall l b, snd (c_Unsubscribe_read_loop ft fuel l b) = Unsubscribe_read_loop ft fuel l b.
Proof.
  induction fuel as [|fuel IH]; intros; cbn [c_Unsubscribe_read_loop Unsubscribe_read_loop]; unfold has_remaining, op; rewrite same_tick;
    destruct b; try reflexivity.
  apply same_bind; [auto with same|]. intros [path r]. unfold push, op. rewrite same_tick. apply IH.
Qed.
Lemma c_SubAck_read_loop_same fuel : forall l b, snd (c_SubAck_read_loop fuel l b) = SubAck_read_loop fuel l b.
Proof.
  induction fuel as [|fuel IH]; intros; cbn [c_SubAck_read_loop SubAck_read_loop]; unfold has_remaining, op; rewrite same_tick;
    destruct b; try reflexivity.
  apply same_bind; [reflexivity|]. intros [path r]. apply same_bind; [reflexivity|]. intros c. unfold push, op. rewrite same_tick. apply IH.
Qed.
Lemma c_UnsubAck_read_loop_same fuel : forall l b, snd (c_UnsubAck_read_loop fuel l b) = UnsubAck_read_loop fuel l b.
Proof.
  induction fuel as [|fuel IH]; intros; cbn [c_UnsubAck_read_loop UnsubAck_read_loop]; unfold has_remaining, op; rewrite same_tick;
    destruct b; try reflexivity.
  apply same_bind; [reflexivity|]. intros [path r]. apply same_bind; [reflexivity|]. intros c. unfold push, op. rewrite same_tick. apply IH.
Qed.
Lemma c_Filter_read_same ft b : snd (c_Filter_read ft b) = Filter_read ft b.
Proof. apply c_Filter_read_loop_same. Qed.
#[export] Hint Resolve c_Filter_read_same c_Unsubscribe_read_loop_same c_SubAck_read_loop_same c_UnsubAck_read_loop_same : same.
Lemma c_Connect_read_same ft h b : snd (c_Connect_read ft h b) = Connect_read ft h b.
Proof. unfold c_Connect_read, Connect_read. same. Qed.
Lemma c_ConnAck_read_same ft h b : snd (c_ConnAck_read ft h b) = ConnAck_read ft h b.
Proof. unfold c_ConnAck_read, ConnAck_read. same. Qed.
Lemma c_Publish_read_same ft h b : snd (c_Publish_read ft h b) = Publish_read ft h b.
Proof. unfold c_Publish_read, Publish_read. same. Qed.
Lemma c_PubAck_read_same ft h b : snd (c_PubAck_read ft h b) = PubAck_read ft h b.
Proof. unfold c_PubAck_read, PubAck_read. same. Qed.
Lemma c_PubRec_read_same ft h b : snd (c_PubRec_read ft h b) = PubRec_read ft h b.
Proof. unfold c_PubRec_read, PubRec_read. same. Qed.
Lemma c_PubRel_read_same ft h b : snd (c_PubRel_read ft h b) = PubRel_read ft h b.
Proof. unfold c_PubRel_read, PubRel_read. same. Qed.
Lemma c_PubComp_read_same ft h b : snd (c_PubComp_read ft h b) = PubComp_read ft h b.
Proof. unfold c_PubComp_read, PubComp_read. same. Qed.
Lemma c_Subscribe_read_same ft h b : snd (c_Subscribe_read ft h b) = Subscribe_read ft h b.
Proof. unfold c_Subscribe_read, Subscribe_read. same. Qed.
Lemma c_SubAck_read_same ft h b : snd (c_SubAck_read ft h b) = SubAck_read ft h b.
Proof. unfold c_SubAck_read, SubAck_read. same. Qed.
Lemma c_Unsubscribe_read_same ft h b : snd (c_Unsubscribe_read ft h b) = Unsubscribe_read ft h b.
Proof. unfold c_Unsubscribe_read, Unsubscribe_read. same. Qed.
Lemma c_UnsubAck_read_same ft h b : snd (c_UnsubAck_read ft h b) = UnsubAck_read ft h b.
Proof. unfold c_UnsubAck_read, UnsubAck_read. same. Qed.
Lemma c_Disconnect_read_same ft h b : snd (c_Disconnect_read ft h b) = Disconnect_read ft h b.
Proof. unfold c_Disconnect_read, Disconnect_read. same. Qed.
#[export] Hint Resolve c_Connect_read_same c_ConnAck_read_same c_Publish_read_same c_PubAck_read_same c_PubRec_read_same c_PubRel_read_same c_PubComp_read_same c_Subscribe_read_same c_SubAck_read_same c_Unsubscribe_read_same c_UnsubAck_read_same c_Disconnect_read_same : same.

Lemma c_Packet_read_frame_same ft h b : snd (c_Packet_read_frame ft h b) = Packet_read_frame ft h b.
Proof.
  unfold c_Packet_read_frame, Packet_read_frame. apply same_bind; [reflexivity|]. intros t.
  destruct (_ && _); destruct t; try reflexivity; same.
Qed.
Lemma c_check_same s max : snd (c_check s max) = check s max.
Proof.
  unfold c_check, check. unfold op at 1. rewrite same_tick. apply same_bind.
  - unfold c_parse_fixed_header, parse_fixed_header. unfold op. rewrite same_tick. destruct (_ <? 2); [reflexivity|].
    destruct s as [|x s]; [reflexivity|]. rewrite same_tick. apply same_bind; [apply c_length_same|]. intros [k l]. reflexivity.
  - intros h. apply same_bind; [reflexivity|]. intros _. cbn [op snd]. reflexivity.
Qed.
(** The counted Packet::read is Packet::read. *)
Lemma c_Packet_read_same ft s max : snd (c_Packet_read ft s max) = Packet_read ft s max.
Proof.
  unfold c_Packet_read, Packet_read. rewrite <- c_check_same. destruct (c_check s max) as [n [h|e| |]]; cbn [snd]; try reflexivity.
  unfold op. destruct (split_to s (frame_length h)) as [[packet rest]|e| |]; cbn [snd]; try reflexivity.
  rewrite c_Packet_read_frame_same. reflexivity.
Qed.

(** ---------- The bound ---------- *)

(** [pays x n Q]: the steps of [x] are paid from a budget of [n]; if it succeeds, [Q] holds of its
    value and what is left of the budget. *)
Definition pays {A} (x : cost A) (n : N) (Q : A -> N -> Prop) : Prop :=
  match snd x with Ok a => fst x <= n /\ Q a (n - fst x) | _ => fst x <= n end.
Lemma pays_bind {A B} (x : cost A) (k : A -> cost B) n Q :
  pays x n (fun a m => pays (k a) m Q) -> pays (cbind x k) n Q.
Proof.
  unfold pays, cbind. destruct (snd x) as [a|e| |] eqn:E; cbn [fst snd]; auto.
  intros [H1 H2]. destruct (snd (k a)); cbn [fst snd]; try lia. destruct H2 as [H2 H3]. split; [lia|].
  rewrite N.sub_add_distr. exact H3.
Qed.
Lemma pays_mono {A} (x : cost A) n (Q R : A -> N -> Prop) : pays x n Q -> (forall a m, Q a m -> R a m) -> pays x n R.
Proof. unfold pays. destruct (snd x); auto. intros [H1 H2] H. auto. Qed.
Lemma pays_ok {A} (a : A) n (Q : A -> N -> Prop) : Q a n -> pays (COk a) n Q.
Proof. intros H. split; [apply N.le_0_l|]. cbn [fst COk]. rewrite N.sub_0_r. exact H. Qed.
Lemma pays_err {A} e n (Q : A -> N -> Prop) : pays (CErr e) n Q.
Proof. apply N.le_0_l. Qed.
Lemma pays_diverge {A} n (Q : A -> N -> Prop) : pays CDiverge n Q.
Proof. apply N.le_0_l. Qed.
Lemma pays_op {A} (r : res A) n (Q : A -> N -> Prop) : 1 <= n -> (forall a, r = Ok a -> Q a (n - 1)) -> pays (op r) n Q.
Proof. intros H1 H2. unfold pays, op. cbn [fst snd]. destruct r; auto. Qed.
Lemma pays_tick {B} (c : N) (k : unit -> cost B) n Q : c <= n -> pays (k tt) (n - c) Q -> pays (cbind (c, Ok tt) k) n Q.
Proof. intros H1 H2. apply pays_bind. split; assumption. Qed.

(** Reading from [b] costs at most five steps for each byte consumed; eight more if it fails. *)
Definition linear {A} (b : bytes) (x : cost (A * bytes)) : Prop :=
  forall n, 5 * blen b + 8 <= n ->
  pays x n (fun a m => blen (snd a) <= blen b /\ n + 5 * blen (snd a) <= m + 5 * blen b).
Lemma linear_use {A} b (x : cost (A * bytes)) n (Q : A * bytes -> N -> Prop) :
  linear b x -> 5 * blen b + 8 <= n ->
  (forall a r m, blen r <= blen b -> n + 5 * blen r <= m + 5 * blen b -> Q (a, r) m) -> pays x n Q.
Proof. intros H1 H2 H3. eapply pays_mono; [apply H1; exact H2|]. intros [a r] m [H4 H5]. apply H3; assumption. Qed.

Lemma use_u8 b n (Q : N * bytes -> N -> Prop) : 2 <= n ->
  (forall v r, blen b = blen r + 1 -> Q (v, r) (n - 2)) -> pays (c_read_u8 b) n Q.
Proof.
  intros H1 H2. unfold c_read_u8. apply pays_tick; [lia|]. apply pays_op; [lia|]. intros [v r] E.
  rewrite <- N.sub_add_distr. apply H2. destruct b; cbn [read_u8 get_u8] in E; [discriminate|].
  injection E as <- <-. rewrite blen_cons. lia.
Qed.
Lemma use_u16 b n (Q : N * bytes -> N -> Prop) : 2 <= n ->
  (forall v r, blen b = blen r + 2 -> Q (v, r) (n - 2)) -> pays (c_read_u16 b) n Q.
Proof.
  intros H1 H2. unfold c_read_u16. apply pays_tick; [lia|]. apply pays_op; [lia|]. intros [v r] E.
  rewrite <- N.sub_add_distr. apply H2. unfold read_u16 in E. destruct (_ <? 2); [discriminate|].
  destruct b as [|x [|y b]]; try discriminate. injection E as _ <-. rewrite !blen_cons. lia.
Qed.
Lemma use_u32 b n (Q : N * bytes -> N -> Prop) : 2 <= n ->
  (forall v r, blen b = blen r + 4 -> Q (v, r) (n - 2)) -> pays (c_read_u32 b) n Q.
Proof.
  intros H1 H2. unfold c_read_u32. apply pays_tick; [lia|]. apply pays_op; [lia|]. intros [v r] E.
  rewrite <- N.sub_add_distr. apply H2. unfold read_u32 in E. destruct (_ <? 4); [discriminate|].
  destruct b as [|x [|y [|z [|w b]]]]; try discriminate. injection E as _ <-. rewrite !blen_cons. lia.
Qed.
Lemma split_sizes b k s r : split_to b k = Ok (s, r) -> blen s = k /\ blen b = blen s + blen r.
Proof.
  unfold split_to. destruct (N.leb_spec k (blen b)); [|discriminate]. intros E. injection E as <- <-.
  unfold blen in *. rewrite firstn_length, skipn_length. lia.
Qed.
Lemma advance_sizes b k r : advance b k = Ok r -> k <= blen b /\ blen b = k + blen r.
Proof.
  unfold advance. destruct (N.leb_spec k (blen b)); [|discriminate]. intros E. injection E as <-.
  unfold blen in *. rewrite skipn_length. lia.
Qed.
Lemma use_bytes b n (Q : bytes * bytes -> N -> Prop) : 4 <= n ->
  (forall s r, blen b = blen r + 2 + blen s -> Q (s, r) (n - 4)) -> pays (c_read_mqtt_bytes b) n Q.
Proof.
  intros H1 H2. unfold c_read_mqtt_bytes. apply pays_bind. apply use_u16; [lia|]. intros len r E. unfold op at 1.
  apply pays_tick; [lia|]. destruct (_ <? _); [apply pays_err|]. apply pays_op; [lia|]. intros [s r'] E'.
  apply split_sizes in E'. replace (n - 2 - 1 - 1) with (n - 4) by lia. apply H2. lia.
Qed.
Lemma use_string ft b n (Q : bytes * bytes -> N -> Prop) : 4 + 2 * blen b <= n ->
  (forall s r m, blen b = blen r + 2 + blen s -> n <= m + 4 + 2 * blen s -> Q (s, r) m) -> pays (c_read_mqtt_string ft b) n Q.
Proof.
  intros H1 H2.
  assert (C : pays (let$ (s, r) := c_read_mqtt_bytes b in let$ _ := (2 * blen s, Ok tt) in
                    if from_utf8 s then COk (s, r) else CErr TopicNotUtf8) n Q).
  { apply pays_bind. apply use_bytes; [lia|]. intros s r E. apply pays_tick; [lia|].
    destruct (from_utf8 s); [|apply pays_err]. apply pays_ok. apply H2; lia. }
  destruct ft; try exact C. apply use_bytes; [lia|]. intros s r E. apply H2; lia.
Qed.
Lemma c_length_loop_cost s : forall len ll shift,
  shift <= 21 ->
  match snd (c_length_loop s len ll shift) with
  | Ok (k, _) => fst (c_length_loop s len ll shift) + ll = k /\ ll < k /\ k <= ll + blen s /\ 7 * (k - ll) + shift <= 28
  | _ => 7 * fst (c_length_loop s len ll shift) + shift <= 28
  end.
Proof.
  induction s as [|b s IH]; intros len ll shift Hs; cbn [c_length_loop]; [cbn [op fst snd]; lia|].
  unfold op, cbind. cbn [fst snd]. rewrite blen_cons.
  destruct (_ =? 0); [cbn [COk fst snd]; split; [lia|]; split; [lia|]; split; lia|].
  destruct (N.ltb_spec 21 (shift + 7)); [cbn [CErr fst snd]; lia|].
  specialize (IH (len + N.shiftl (N.land b 127) shift) (ll + 1) (shift + 7) ltac:(lia)).
  destruct (snd (c_length_loop s _ _ _)) as [[k v]|e| |]; [|lia|lia|lia].
  destruct IH as (I1 & I2 & I3 & I4). split; [lia|]. split; [lia|]. split; lia.
Qed.
Lemma use_length b n (Q : N * N -> N -> Prop) : 4 <= n ->
  (forall k v, 1 <= k -> k <= 4 -> k <= blen b -> Q (k, v) (n - k)) -> pays (c_length_ b) n Q.
Proof.
  intros H1 H2. unfold pays, c_length_. pose proof (c_length_loop_cost b 0 0 0 ltac:(lia)) as H.
  destruct (snd (c_length_loop b 0 0 0)) as [[k v]|e| |]; try lia. destruct H as (E & I2 & I3 & I4).
  rewrite N.add_0_r in E. rewrite E. split; [lia|]. apply H2; lia.
Qed.

Ltac pay_use :=
  match goal with
  | |- pays (cbind (_, Ok tt) _) _ _ => apply pays_tick; [lia|]
  | |- pays (cbind _ _) _ _ => apply pays_bind
  | |- pays (COk _) _ _ => apply pays_ok
  | |- pays (CErr _) _ _ => apply pays_err
  | |- pays CDiverge _ _ => apply pays_diverge
  | |- pays (c_read_u8 _) _ _ => apply use_u8; [lia|intros]
  | |- pays (c_read_u16 _) _ _ => apply use_u16; [lia|intros]
  | |- pays (c_read_u32 _) _ _ => apply use_u32; [lia|intros]
  | |- pays (c_read_mqtt_bytes _) _ _ => apply use_bytes; [lia|intros]
  | |- pays (c_read_mqtt_string _ _) _ _ => apply use_string; [lia|intros]
  | |- pays (c_length_ _) _ _ => apply use_length; [lia|intros]
  | |- pays (c_advance _ _) _ _ => apply pays_op; [lia|let E := fresh in intros ? E; apply advance_sizes in E]
  | |- pays push _ _ => apply pays_op; [lia|intros]
  | |- pays has_remaining _ _ => apply pays_op; [lia|intros]
  | |- pays (op (property _)) _ _ => apply pays_op; [lia|intros t _]
  | |- pays (op _) _ _ => apply pays_op; [lia|intros ? _]
  | |- pays (if ?c then _ else _) _ _ => destruct c
  | |- pays (match ?x with _ => _ end) _ _ => destruct x
  end.
Ltac pay := repeat pay_use; cbn [fst snd]; try lia.

Lemma linear_loop {S} (step : N -> S -> bytes -> cost (S * N * bytes)) :
  (forall p st b, linear b (step p st b)) -> forall fuel cursor n st b, linear b (c_props_loop step fuel cursor n st b).
Proof.
  intros H. induction fuel as [|fuel IH]; intros cursor n st b m Hm; cbn [c_props_loop];
    (destruct (_ <? _); [|apply pays_ok; cbn [snd]; lia]); [apply pays_diverge|].
  apply pays_bind, use_u8; [lia|]. intros p r E. apply pays_bind, pays_op; [lia|]. intros c _.
  apply pays_bind. eapply linear_use; [apply H|lia|]. intros [st' k] r' m' H1 H2.
  apply pays_bind, pays_op; [lia|]. intros c' _. eapply linear_use; [apply IH|lia|]. intros a r'' m'' H3 H4. cbn [snd]. lia.
Qed.
Lemma linear_section {S} (step : N -> S -> bytes -> cost (S * N * bytes)) init b :
  (forall p st b, linear b (step p st b)) -> linear b (c_props_read step init b).
Proof.
  intros H n Hn. unfold c_props_read. apply pays_bind, use_length; [lia|]. intros k v K1 K2 K3.
  apply pays_bind. pay_use. destruct (v =? 0); [apply pays_ok; cbn [snd]; lia|].
  apply pays_bind. eapply linear_use; [apply linear_loop; exact H|lia|]. intros st r m H1 H2. apply pays_ok. cbn [snd]. lia.
Qed.
Lemma ConnectProperties_step_linear ft p st b : linear b (c_ConnectProperties_step ft p st b).
Proof. intros n Hn. unfold c_ConnectProperties_step. destruct st. apply pays_bind, pays_op; [lia|]. intros t _. destruct t; pay. Qed.
Lemma ConnectProperties_linear ft b : linear b (c_ConnectProperties_read ft b).
Proof. unfold c_ConnectProperties_read. apply linear_section. intros. apply ConnectProperties_step_linear. Qed.
Lemma LastWillProperties_step_linear ft p st b : linear b (c_LastWillProperties_step ft p st b).
Proof. intros n Hn. unfold c_LastWillProperties_step. destruct st. apply pays_bind, pays_op; [lia|]. intros t _. destruct t; pay. Qed.
Lemma LastWillProperties_linear ft b : linear b (c_LastWillProperties_read ft b).
Proof. unfold c_LastWillProperties_read. apply linear_section. intros. apply LastWillProperties_step_linear. Qed.
Lemma ConnAckProperties_step_linear ft p st b : linear b (c_ConnAckProperties_step ft p st b).
Proof. intros n Hn. unfold c_ConnAckProperties_step. destruct st. apply pays_bind, pays_op; [lia|]. intros t _. destruct t; pay. Qed.
Lemma ConnAckProperties_linear ft b : linear b (c_ConnAckProperties_read ft b).
Proof. unfold c_ConnAckProperties_read. apply linear_section. intros. apply ConnAckProperties_step_linear. Qed.
Lemma PublishProperties_step_linear ft p st b : linear b (c_PublishProperties_step ft p st b).
Proof. intros n Hn. unfold c_PublishProperties_step. destruct st. apply pays_bind, pays_op; [lia|]. intros t _. destruct t; pay. Qed.
Lemma PublishProperties_linear ft b : linear b (c_PublishProperties_read ft b).
Proof. unfold c_PublishProperties_read. apply linear_section. intros. apply PublishProperties_step_linear. Qed.
Lemma PubAckProperties_step_linear ft p st b : linear b (c_PubAckProperties_step ft p st b).
Proof. intros n Hn. unfold c_PubAckProperties_step. destruct st. apply pays_bind, pays_op; [lia|]. intros t _. destruct t; pay. Qed.
Lemma PubAckProperties_linear ft b : linear b (c_PubAckProperties_read ft b).
Proof. unfold c_PubAckProperties_read. apply linear_section. intros. apply PubAckProperties_step_linear. Qed.
Lemma PubRecProperties_step_linear ft p st b : linear b (c_PubRecProperties_step ft p st b).
Proof. intros n Hn. unfold c_PubRecProperties_step. destruct st. apply pays_bind, pays_op; [lia|]. intros t _. destruct t; pay. Qed.
Lemma PubRecProperties_linear ft b : linear b (c_PubRecProperties_read ft b).
Proof. unfold c_PubRecProperties_read. apply linear_section. intros. apply PubRecProperties_step_linear. Qed.
Lemma PubRelProperties_step_linear ft p st b : linear b (c_PubRelProperties_step ft p st b).
Proof. intros n Hn. unfold c_PubRelProperties_step. destruct st. apply pays_bind, pays_op; [lia|]. intros t _. destruct t; pay. Qed.
Lemma PubRelProperties_linear ft b : linear b (c_PubRelProperties_read ft b).
Proof. unfold c_PubRelProperties_read. apply linear_section. intros. apply PubRelProperties_step_linear. Qed.
Lemma PubCompProperties_step_linear ft p st b : linear b (c_PubCompProperties_step ft p st b).
Proof. intros n Hn. unfold c_PubCompProperties_step. destruct st. apply pays_bind, pays_op; [lia|]. intros t _. destruct t; pay. Qed.
Lemma PubCompProperties_linear ft b : linear b (c_PubCompProperties_read ft b).
Proof. unfold c_PubCompProperties_read. apply linear_section. intros. apply PubCompProperties_step_linear. Qed.
Lemma SubscribeProperties_step_linear ft p st b : linear b (c_SubscribeProperties_step ft p st b).
Proof. intros n Hn. unfold c_SubscribeProperties_step. destruct st. apply pays_bind, pays_op; [lia|]. intros t _. destruct t; pay. Qed.
Lemma SubscribeProperties_linear ft b : linear b (c_SubscribeProperties_read ft b).
Proof. unfold c_SubscribeProperties_read. apply linear_section. intros. apply SubscribeProperties_step_linear. Qed.
Lemma SubAckProperties_step_linear ft p st b : linear b (c_SubAckProperties_step ft p st b).
Proof. intros n Hn. unfold c_SubAckProperties_step. destruct st. apply pays_bind, pays_op; [lia|]. intros t _. destruct t; pay. Qed.
Lemma SubAckProperties_linear ft b : linear b (c_SubAckProperties_read ft b).
Proof. unfold c_SubAckProperties_read. apply linear_section. intros. apply SubAckProperties_step_linear. Qed.
Lemma UnsubscribeProperties_step_linear ft p st b : linear b (c_UnsubscribeProperties_step ft p st b).
Proof. intros n Hn. unfold c_UnsubscribeProperties_step. destruct st. apply pays_bind, pays_op; [lia|]. intros t _. destruct t; pay. Qed.
Lemma UnsubscribeProperties_linear ft b : linear b (c_UnsubscribeProperties_read ft b).
Proof. unfold c_UnsubscribeProperties_read. apply linear_section. intros. apply UnsubscribeProperties_step_linear. Qed.
Lemma UnsubAckProperties_step_linear ft p st b : linear b (c_UnsubAckProperties_step ft p st b).
Proof. intros n Hn. unfold c_UnsubAckProperties_step. destruct st. apply pays_bind, pays_op; [lia|]. intros t _. destruct t; pay. Qed.
Lemma UnsubAckProperties_linear ft b : linear b (c_UnsubAckProperties_read ft b).
Proof. unfold c_UnsubAckProperties_read. apply linear_section. intros. apply UnsubAckProperties_step_linear. Qed.
Lemma DisconnectProperties_step_linear ft p st b : linear b (c_DisconnectProperties_step ft p st b).
Proof. intros n Hn. unfold c_DisconnectProperties_step. destruct st. apply pays_bind, pays_op; [lia|]. intros t _. destruct t; pay. Qed.
Lemma DisconnectProperties_linear ft b : linear b (c_DisconnectProperties_extract ft b).
Proof. unfold c_DisconnectProperties_extract. apply linear_section. intros. apply DisconnectProperties_step_linear. Qed.

Lemma LastWill_linear ft f b : linear b (c_LastWill_read ft f b).
Proof.
  intros n Hn. unfold c_LastWill_read. destruct (_ =? 0); [destruct (negb _); [apply pays_err|apply pays_ok; cbn [snd]; lia]|].
  apply pays_bind. eapply linear_use; [apply LastWillProperties_linear|lia|]. intros a r m H1 H2. pay.
Qed.
Lemma Login_linear ft f b : linear b (c_Login_read ft f b).
Proof.
  intros n Hn. unfold c_Login_read. apply pays_bind. destruct (_ =? 0); [apply pays_ok|apply use_string; [lia|intros]];
    (apply pays_bind; destruct (_ =? 0); [apply pays_ok|apply use_string; [lia|intros]]; destruct (_ && _); apply pays_ok; cbn [snd]; lia).
Qed.

(** A reader that takes all of [b]. *)
Definition bounded {A} (b : bytes) (k : N) (x : cost A) : Prop :=
  forall n, 5 * blen b + k <= n -> pays x n (fun _ _ => True).
Lemma bounded_use {A} b k (x : cost A) n : bounded b k x -> 5 * blen b + k <= n -> pays x n (fun _ _ => True).
Proof. intros H1 H2. apply H1. exact H2. Qed.
Lemma bounded_steps {A} b k (x : cost A) : bounded b k x -> fst x <= 5 * blen b + k.
Proof. intros H. specialize (H _ (N.le_refl _)). unfold pays in H. destruct (snd x); [apply H|exact H..]. Qed.
Lemma bounded_bind {A B} b k (x : cost A) (f : A -> B) : bounded b k x -> bounded b k (let$ a := x in COk (f a)).
Proof. intros H n Hn. apply pays_bind. eapply pays_mono; [apply H; exact Hn|]. intros a m _. apply pays_ok. exact I. Qed.

Lemma Filter_loop_bounded ft : forall fuel acc b, bounded b 8 (c_Filter_read_loop ft fuel acc b).
Proof.
  induction fuel as [|fuel IH]; intros acc b n Hn; cbn [c_Filter_read_loop]; (apply pays_bind, pays_op; [lia|]; intros _ _);
    (destruct b as [|x b0]; [apply pays_ok; exact I|]); [apply pays_diverge|]. remember (x :: b0) as b eqn:Eb. clear Eb.
  apply pays_bind, use_string; [lia|]. intros s r m H1 H2. apply pays_bind, use_u8; [lia|]. intros o r' H3.
  apply pays_bind. set (rule := N.land _ 3).
  assert (C : forall (x : cost RetainForwardRule) k, (exists v, x = COk v) \/ (exists e, x = CErr e) ->
     (forall v, pays (k v) (m - 2) (fun _ _ => True)) ->
     pays x (m - 2) (fun a n => pays (A := list Filter) (k a) n (fun _ _ => True))).
  { intros y k [[v ->]|[e ->]] Hk; [apply pays_ok, Hk|apply pays_err]. }
  apply C.
  - destruct rule as [|[[]|[]|]]; eauto.
  - intros v. destruct (qos _); [|apply pays_err]. apply pays_bind, pays_op; [lia|]. intros _ _.
    apply IH. lia.
Qed.
Lemma Unsubscribe_loop_bounded ft : forall fuel acc b, bounded b 8 (c_Unsubscribe_read_loop ft fuel acc b).
Proof.
  induction fuel as [|fuel IH]; intros acc b n Hn; cbn [c_Unsubscribe_read_loop]; (apply pays_bind, pays_op; [lia|]; intros _ _);
    (destruct b as [|x b0]; [apply pays_ok; exact I|]); [apply pays_diverge|]. remember (x :: b0) as b eqn:Eb. clear Eb.
  apply pays_bind, use_string; [lia|]. intros s r m H1 H2. apply pays_bind, pays_op; [lia|]. intros _ _. apply IH. lia.
Qed.
Lemma SubAck_loop_bounded : forall fuel acc b, bounded b 8 (c_SubAck_read_loop fuel acc b).
Proof.
  induction fuel as [|fuel IH]; intros acc b n Hn; cbn [c_SubAck_read_loop]; (apply pays_bind, pays_op; [lia|]; intros _ _);
    (destruct b as [|x b0]; [apply pays_ok; exact I|]); [apply pays_diverge|]. remember (x :: b0) as b eqn:Eb. clear Eb.
  apply pays_bind, use_u8; [lia|]. intros c r H1. apply pays_bind, pays_op; [lia|]. intros v _.
  apply pays_bind, pays_op; [lia|]. intros _ _. apply IH. lia.
Qed.
Lemma UnsubAck_loop_bounded : forall fuel acc b, bounded b 8 (c_UnsubAck_read_loop fuel acc b).
Proof.
  induction fuel as [|fuel IH]; intros acc b n Hn; cbn [c_UnsubAck_read_loop]; (apply pays_bind, pays_op; [lia|]; intros _ _);
    (destruct b as [|x b0]; [apply pays_ok; exact I|]); [apply pays_diverge|]. remember (x :: b0) as b eqn:Eb. clear Eb.
  apply pays_bind, use_u8; [lia|]. intros c r H1. apply pays_bind, pays_op; [lia|]. intros v _.
  apply pays_bind, pays_op; [lia|]. intros _ _. apply IH. lia.
Qed.

Ltac pays_advance := apply pays_bind, pays_op; [lia|]; let E := fresh in intros ? E; apply advance_sizes in E.
Ltac pays_section L := apply pays_bind; eapply linear_use; [apply L|lia|]; intros ? ? ? ? ?.
Lemma Connect_bounded ft h b : bounded b 16 (c_Connect_read ft h b).
Proof.
  intros n Hn. unfold c_Connect_read. pays_advance.
  apply pays_bind, use_string; [lia|]. intros. apply pays_bind, use_u8; [lia|]. intros.
  apply pays_tick; [lia|]. destruct (negb _); [apply pays_err|]. destruct (negb _); [apply pays_err|].
  apply pays_bind, use_u8; [lia|]. intros. apply pays_bind, use_u16; [lia|]. intros.
  pays_section ConnectProperties_linear. apply pays_bind, use_string; [lia|]. intros.
  pays_section LastWill_linear. pays_section Login_linear. apply pays_ok. exact I.
Qed.
Lemma ConnAck_bounded ft h b : bounded b 16 (c_ConnAck_read ft h b).
Proof.
  intros n Hn. unfold c_ConnAck_read. pays_advance. apply pays_bind, use_u8; [lia|]. intros. apply pays_bind, use_u8; [lia|]. intros.
  pays_section ConnAckProperties_linear. apply pays_bind, pays_op; [lia|]. intros. apply pays_ok. exact I.
Qed.
Lemma Publish_bounded ft h b : bounded b 16 (c_Publish_read ft h b).
Proof.
  intros n Hn. unfold c_Publish_read. destruct (qos _) as [q|]; [|apply pays_err]. pays_advance.
  apply pays_bind, use_string; [lia|]. intros. apply pays_bind.
  destruct q; [apply pays_ok|apply use_u16; [lia|intros]|apply use_u16; [lia|intros]];
    (destruct (_ && _); [apply pays_err|]; pays_section PublishProperties_linear; apply pays_ok; exact I).
Qed.
Lemma PubAck_bounded ft h b : bounded b 16 (c_PubAck_read ft h b).
Proof.
  intros n Hn. unfold c_PubAck_read. pays_advance. apply pays_bind, use_u16; [lia|]. intros.
  destruct (_ =? 2); [apply pays_ok; exact I|]. apply pays_bind, use_u8; [lia|]. intros.
  destruct (_ <? 4); [apply pays_bind, pays_op; [lia|]; intros; apply pays_ok; exact I|].
  pays_section PubAckProperties_linear. apply pays_bind, pays_op; [lia|]. intros. apply pays_ok. exact I.
Qed.
Lemma PubRec_bounded ft h b : bounded b 16 (c_PubRec_read ft h b).
Proof.
  intros n Hn. unfold c_PubRec_read. pays_advance. apply pays_bind, use_u16; [lia|]. intros.
  destruct (_ =? 2); [apply pays_ok; exact I|]. apply pays_bind, use_u8; [lia|]. intros.
  destruct (_ <? 4); [apply pays_bind, pays_op; [lia|]; intros; apply pays_ok; exact I|].
  pays_section PubRecProperties_linear. apply pays_bind, pays_op; [lia|]. intros. apply pays_ok. exact I.
Qed.
Lemma PubRel_bounded ft h b : bounded b 16 (c_PubRel_read ft h b).
Proof.
  intros n Hn. unfold c_PubRel_read. pays_advance. apply pays_bind, use_u16; [lia|]. intros.
  destruct (_ =? 2); [apply pays_ok; exact I|]. apply pays_bind, use_u8; [lia|]. intros.
  destruct (_ <? 4); [apply pays_bind, pays_op; [lia|]; intros; apply pays_ok; exact I|].
  pays_section PubRelProperties_linear. apply pays_bind, pays_op; [lia|]. intros. apply pays_ok. exact I.
Qed.
Lemma PubComp_bounded ft h b : bounded b 16 (c_PubComp_read ft h b).
Proof.
  intros n Hn. unfold c_PubComp_read. pays_advance. apply pays_bind, use_u16; [lia|]. intros.
  destruct (_ =? 2); [apply pays_ok; exact I|]. apply pays_bind, use_u8; [lia|]. intros.
  destruct (_ <? 4); [apply pays_bind, pays_op; [lia|]; intros; apply pays_ok; exact I|].
  pays_section PubCompProperties_linear. apply pays_bind, pays_op; [lia|]. intros. apply pays_ok. exact I.
Qed.
Lemma Subscribe_bounded ft h b : bounded b 16 (c_Subscribe_read ft h b).
Proof.
  intros n Hn. unfold c_Subscribe_read. pays_advance. apply pays_bind, use_u16; [lia|]. intros.
  pays_section SubscribeProperties_linear. apply pays_bind. eapply pays_mono; [apply Filter_loop_bounded; lia|].
  intros [|f l] k _; [apply pays_err|apply pays_ok; exact I].
Qed.
Lemma SubAck_bounded ft h b : bounded b 16 (c_SubAck_read ft h b).
Proof.
  intros n Hn. unfold c_SubAck_read. pays_advance. apply pays_bind, use_u16; [lia|]. intros.
  pays_section SubAckProperties_linear. destruct r0 as [|x t]; [apply pays_err|]. apply pays_bind.
  eapply pays_mono; [apply SubAck_loop_bounded; lia|]. intros. apply pays_ok. exact I.
Qed.
Lemma Unsubscribe_bounded ft h b : bounded b 16 (c_Unsubscribe_read ft h b).
Proof.
  intros n Hn. unfold c_Unsubscribe_read. pays_advance. apply pays_bind, use_u16; [lia|]. intros.
  pays_section UnsubscribeProperties_linear. apply pays_bind. eapply pays_mono; [apply Unsubscribe_loop_bounded; lia|].
  intros. apply pays_ok. exact I.
Qed.
Lemma UnsubAck_bounded ft h b : bounded b 16 (c_UnsubAck_read ft h b).
Proof.
  intros n Hn. unfold c_UnsubAck_read. pays_advance. apply pays_bind, use_u16; [lia|]. intros.
  pays_section UnsubAckProperties_linear. destruct r0 as [|x t]; [apply pays_err|]. apply pays_bind.
  eapply pays_mono; [apply UnsubAck_loop_bounded; lia|]. intros. apply pays_ok. exact I.
Qed.
Lemma Disconnect_bounded ft h b : bounded b 16 (c_Disconnect_read ft h b).
Proof.
  intros n Hn. unfold c_Disconnect_read. pays_advance. destruct (negb _); [apply pays_err|]. destruct (negb _); [apply pays_err|].
  destruct (_ =? 0); [apply pays_ok; exact I|]. apply pays_bind, use_u8; [lia|]. intros.
  apply pays_bind, pays_op; [lia|]. intros. pays_section DisconnectProperties_linear. apply pays_ok. exact I.
Qed.
Lemma frame_bounded ft h b : bounded b 17 (c_Packet_read_frame ft h b).
Proof.
  intros n Hn. unfold c_Packet_read_frame. apply pays_bind, pays_op; [lia|]. intros t _.
  destruct (_ && _); [destruct t; first [apply pays_ok; exact I|apply pays_err]|].
  assert (G : forall A B (x : cost A) (f : A -> cost B), bounded b 16 x -> (forall a, exists v, f a = COk v) ->
              pays (cbind x f) (n - 1) (fun _ _ => True)).
  { intros A B x f Hx Hf. apply pays_bind. eapply pays_mono; [apply Hx; lia|]. intros a m _.
    destruct (Hf a) as [v ->]. apply pays_ok. exact I. }
  destruct t; try (apply pays_ok; exact I); (apply G; [|try (intros [[? ?] ?]); eauto]).
  all: first [apply Connect_bounded|apply ConnAck_bounded|apply Publish_bounded|apply PubAck_bounded|apply PubRec_bounded
    |apply PubRel_bounded|apply PubComp_bounded|apply Subscribe_bounded|apply SubAck_bounded|apply Unsubscribe_bounded
    |apply UnsubAck_bounded|apply Disconnect_bounded].
Qed.

(** Deciding whether there is a whole frame takes at most nine steps, however much is in the buffer. *)
Lemma check_nine s max : fst (c_check s max) <= 9.
Proof.
  enough (H : pays (c_check s max) 9 (fun _ _ => True)) by (unfold pays in H; destruct (snd (c_check s max)); [apply H|exact H..]).
  unfold c_check, c_parse_fixed_header. apply pays_tick; [lia|]. apply pays_bind. apply pays_tick; [lia|].
  destruct (_ <? 2); [apply pays_err|]. destruct s as [|x s]; [apply pays_op; [lia|]; discriminate|].
  apply pays_tick; [lia|]. apply pays_bind, use_length; [lia|]. intros k v K1 K2 K3. apply pays_ok.
  apply pays_bind, pays_op; [lia|]. intros _ _. apply pays_op; [lia|]. intros. exact I.
Qed.
Lemma Packet_read_steps ft s max :
  let '(steps, (_, rest)) := c_Packet_read ft s max in
  blen rest <= blen s /\ steps <= 5 * (blen s - blen rest) + 27.
Proof.
  unfold c_Packet_read. pose proof (check_nine s max) as H. destruct (c_check s max) as [n [h|e| |]]; cbn [fst] in H;
    try (split; lia). unfold op. destruct (split_to s (frame_length h)) as [[p rest]|e| |] eqn:E; try (split; lia).
  apply split_sizes in E. pose proof (bounded_steps _ _ _ (frame_bounded ft h p)). split; lia.
Qed.
Lemma check_frame s max h : check s max = Ok h -> 2 <= frame_length h /\ frame_length h <= blen s.
Proof.
  unfold check, rbind. destruct (parse_fixed_header s) as [h'|e| |] eqn:E; try discriminate.
  assert (2 <= fh_fixed_header_len h') as Hp.
  { unfold parse_fixed_header in E. destruct (_ <? 2); [discriminate|]. destruct s; [discriminate|].
    unfold rbind in E. pose proof (c_length_loop_cost s 0 0 0 ltac:(lia)) as L. pose proof (c_length_same s) as Q.
    unfold c_length_ in Q. rewrite Q in L.
    destruct (length_ s) as [[k v]|e| |]; try discriminate. injection E as <-.
    unfold FixedHeader_new. cbn [fh_fixed_header_len]. lia. }
  intros H. assert (h' = h /\ frame_length h' <= blen s) as [<- Hl].
  { destruct max as [m|]; [destruct (m <? fh_remaining_len h'); [discriminate|]|];
      (destruct (N.ltb_spec (blen s) (frame_length h')); [discriminate|]; injection H as <-; split; [reflexivity|assumption]). }
  unfold frame_length in *. lia.
Qed.
