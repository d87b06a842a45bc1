(** Readers under different string features: the checking readers return what the unchecking
    one returns, or TopicNotUtf8. *)
From Verif Require Import Types Model Spec Wire PBase.

(** Two builds whose string readers agree, except that if [lax] holds the first may complain. *)
Section Agree.
Variables (ft ft2 : feature) (lax : Prop).
Definition agree {A} (r1 r2 : res A) : Prop := r1 = r2 \/ (lax /\ r1 = Err TopicNotUtf8).
Lemma agree_refl {A} (r : res A) : agree r r. Proof. left; reflexivity. Qed.
Lemma agree_bind {A B} (r1 r2 : res A) (k1 k2 : A -> res B) :
  agree r1 r2 -> (forall a, agree (k1 a) (k2 a)) -> agree (rbind r1 k1) (rbind r2 k2).
Proof.
  intros [-> | [L ->]] H; [|right; split; [exact L|reflexivity]]. destruct r2; cbn [rbind]; [apply H|left|left|left]; reflexivity.
Qed.
Hypothesis string_agree : forall b, agree (read_mqtt_string ft b) (read_mqtt_string ft2 b).
Lemma loop_agree {S} (s1 s2 : N -> S -> bytes -> res (S * N * bytes)) :
  (forall n st b, agree (s1 n st b) (s2 n st b)) ->
  forall fuel c d st b, agree (props_loop s1 fuel c d st b) (props_loop s2 fuel c d st b).
Proof.
  intros H. induction fuel as [|fuel IH]; intros c d st b; cbn [props_loop];
    (destruct (c <? d); [|apply agree_refl]); [apply agree_refl|].
  apply agree_bind; [apply agree_refl|]. intros [x b1].
  apply agree_bind; [apply agree_refl|]. intros c1.
  apply agree_bind; [apply H|]. intros [[st1 n] b2].
  apply agree_bind; [apply agree_refl|]. intros c2. apply IH.
Qed.
Lemma props_agree {S} (s1 s2 : N -> S -> bytes -> res (S * N * bytes)) init b :
  (forall n st b, agree (s1 n st b) (s2 n st b)) -> agree (props_read s1 init b) (props_read s2 init b).
Proof.
  intros H. unfold props_read. apply agree_bind; [apply agree_refl|]. intros [x y].
  apply agree_bind; [apply agree_refl|]. intros b1. destruct (y =? 0); [apply agree_refl|].
  apply agree_bind; [apply loop_agree; exact H|]. intros [st b2]. apply agree_refl.
Qed.

Ltac agree_go :=
  repeat first
    [ match goal with |- agree ?r ?r => apply agree_refl end | match goal with |- agree (read_mqtt_string _ _) _ => apply string_agree end
    | match goal with |- agree (rbind _ _) (rbind _ _) => idtac end; apply agree_bind; [|let x := fresh "x" in intros x; repeat match goal with x : (_ * _)%type |- _ => destruct x end; cbn beta iota]
    | match goal with |- agree (match ?x with _ => _ end) _ => destruct x end
    | match goal with |- agree (if ?x then _ else _) _ => destruct x end ].
Ltac agree_step st := let n := fresh in let p := fresh in let b := fresh in let t := fresh in intros n p b; unfold st; apply agree_bind; [apply agree_refl|]; intros t; destruct p; destruct t; agree_go.

Lemma ConnectProperties_agree b : agree (ConnectProperties_read ft b) (ConnectProperties_read ft2 b).
Proof. unfold ConnectProperties_read; apply props_agree. agree_step ConnectProperties_step. Qed.
Lemma LastWillProperties_agree b : agree (LastWillProperties_read ft b) (LastWillProperties_read ft2 b).
Proof. unfold LastWillProperties_read; apply props_agree. agree_step LastWillProperties_step. Qed.
Lemma ConnAckProperties_agree b : agree (ConnAckProperties_read ft b) (ConnAckProperties_read ft2 b).
Proof. unfold ConnAckProperties_read; apply props_agree. agree_step ConnAckProperties_step. Qed.
Lemma PublishProperties_agree b : agree (PublishProperties_read ft b) (PublishProperties_read ft2 b).
Proof. unfold PublishProperties_read; apply props_agree. agree_step PublishProperties_step. Qed.
Lemma PubAckProperties_agree b : agree (PubAckProperties_read ft b) (PubAckProperties_read ft2 b).
Proof. unfold PubAckProperties_read; apply props_agree. agree_step PubAckProperties_step. Qed.
Lemma PubRecProperties_agree b : agree (PubRecProperties_read ft b) (PubRecProperties_read ft2 b).
Proof. unfold PubRecProperties_read; apply props_agree. agree_step PubRecProperties_step. Qed.
Lemma PubRelProperties_agree b : agree (PubRelProperties_read ft b) (PubRelProperties_read ft2 b).
Proof. unfold PubRelProperties_read; apply props_agree. agree_step PubRelProperties_step. Qed.
Lemma PubCompProperties_agree b : agree (PubCompProperties_read ft b) (PubCompProperties_read ft2 b).
Proof. unfold PubCompProperties_read; apply props_agree. agree_step PubCompProperties_step. Qed.
Lemma SubAckProperties_agree b : agree (SubAckProperties_read ft b) (SubAckProperties_read ft2 b).
Proof. unfold SubAckProperties_read; apply props_agree. agree_step SubAckProperties_step. Qed.
Lemma UnsubAckProperties_agree b : agree (UnsubAckProperties_read ft b) (UnsubAckProperties_read ft2 b).
Proof. unfold UnsubAckProperties_read; apply props_agree. agree_step UnsubAckProperties_step. Qed.
Lemma SubscribeProperties_agree b : agree (SubscribeProperties_read ft b) (SubscribeProperties_read ft2 b).
Proof. unfold SubscribeProperties_read; apply props_agree. agree_step SubscribeProperties_step. Qed.
Lemma UnsubscribeProperties_agree b : agree (UnsubscribeProperties_read ft b) (UnsubscribeProperties_read ft2 b).
Proof. unfold UnsubscribeProperties_read; apply props_agree. agree_step UnsubscribeProperties_step. Qed.
Lemma DisconnectProperties_agree b : agree (DisconnectProperties_extract ft b) (DisconnectProperties_extract ft2 b).
Proof. unfold DisconnectProperties_extract; apply props_agree. agree_step DisconnectProperties_step. Qed.
Lemma filters_agree fuel : forall l b, agree (Filter_read_loop ft fuel l b) (Filter_read_loop ft2 fuel l b).
Proof.
  induction fuel as [|fuel IH]; intros l b; cbn [Filter_read_loop]; destruct b; try apply agree_refl.
  agree_go; apply IH.
Qed.
Lemma topics_agree fuel : forall l b, agree (Unsubscribe_read_loop ft fuel l b) (Unsubscribe_read_loop ft2 fuel l b).
Proof.
  induction fuel as [|fuel IH]; intros l b; cbn [Unsubscribe_read_loop]; destruct b; try apply agree_refl.
  agree_go; apply IH.
Qed.
Ltac agree_pre := agree_go;
  try lazymatch goal with
  | |- agree (ConnectProperties_read _ _) _ => apply ConnectProperties_agree
  | |- agree (LastWillProperties_read _ _) _ => apply LastWillProperties_agree
  | |- agree (ConnAckProperties_read _ _) _ => apply ConnAckProperties_agree
  | |- agree (PublishProperties_read _ _) _ => apply PublishProperties_agree
  | |- agree (PubAckProperties_read _ _) _ => apply PubAckProperties_agree
  | |- agree (PubRecProperties_read _ _) _ => apply PubRecProperties_agree
  | |- agree (PubRelProperties_read _ _) _ => apply PubRelProperties_agree
  | |- agree (PubCompProperties_read _ _) _ => apply PubCompProperties_agree
  | |- agree (SubAckProperties_read _ _) _ => apply SubAckProperties_agree
  | |- agree (UnsubAckProperties_read _ _) _ => apply UnsubAckProperties_agree
  | |- agree (SubscribeProperties_read _ _) _ => apply SubscribeProperties_agree
  | |- agree (UnsubscribeProperties_read _ _) _ => apply UnsubscribeProperties_agree
  | |- agree (DisconnectProperties_extract _ _) _ => apply DisconnectProperties_agree
  | |- agree (Filter_read_loop _ _ _ _) _ => apply filters_agree
  | |- agree (Unsubscribe_read_loop _ _ _ _) _ => apply topics_agree
  end.
Lemma LastWill_agree flags b : agree (LastWill_read ft flags b) (LastWill_read ft2 flags b).
Proof. unfold LastWill_read. agree_pre. Qed.
Lemma Login_agree flags b : agree (Login_read ft flags b) (Login_read ft2 flags b).
Proof. unfold Login_read. agree_pre. Qed.
Ltac agree_all := agree_go;
  try lazymatch goal with
  | |- agree (ConnectProperties_read _ _) _ => apply ConnectProperties_agree
  | |- agree (LastWillProperties_read _ _) _ => apply LastWillProperties_agree
  | |- agree (ConnAckProperties_read _ _) _ => apply ConnAckProperties_agree
  | |- agree (PublishProperties_read _ _) _ => apply PublishProperties_agree
  | |- agree (PubAckProperties_read _ _) _ => apply PubAckProperties_agree
  | |- agree (PubRecProperties_read _ _) _ => apply PubRecProperties_agree
  | |- agree (PubRelProperties_read _ _) _ => apply PubRelProperties_agree
  | |- agree (PubCompProperties_read _ _) _ => apply PubCompProperties_agree
  | |- agree (SubAckProperties_read _ _) _ => apply SubAckProperties_agree
  | |- agree (UnsubAckProperties_read _ _) _ => apply UnsubAckProperties_agree
  | |- agree (SubscribeProperties_read _ _) _ => apply SubscribeProperties_agree
  | |- agree (UnsubscribeProperties_read _ _) _ => apply UnsubscribeProperties_agree
  | |- agree (DisconnectProperties_extract _ _) _ => apply DisconnectProperties_agree
  | |- agree (Filter_read_loop _ _ _ _) _ => apply filters_agree
  | |- agree (Unsubscribe_read_loop _ _ _ _) _ => apply topics_agree
  | |- agree (LastWill_read _ _ _) _ => apply LastWill_agree
  | |- agree (Login_read _ _ _) _ => apply Login_agree
  end.
Lemma frame_agree h b : agree (Packet_read_frame ft h b) (Packet_read_frame ft2 h b).
Proof.
  unfold Packet_read_frame. apply agree_bind; [apply agree_refl|]. intros t.
  destruct (_ && _); [apply agree_refl|]. destruct t.
  - apply agree_bind; [|intros [[c w] l]; apply agree_refl].
    unfold Connect_read. agree_all.
  - apply agree_bind; [|intros; apply agree_refl]. unfold ConnAck_read. agree_all.
  - apply agree_bind; [|intros; apply agree_refl]. unfold Publish_read. agree_all.
  - apply agree_bind; [|intros; apply agree_refl]. unfold PubAck_read. agree_all.
  - apply agree_bind; [|intros; apply agree_refl]. unfold PubRec_read. agree_all.
  - apply agree_bind; [|intros; apply agree_refl]. unfold PubRel_read. agree_all.
  - apply agree_bind; [|intros; apply agree_refl]. unfold PubComp_read. agree_all.
  - apply agree_bind; [|intros; apply agree_refl]. unfold Subscribe_read, Filter_read. agree_all.
  - apply agree_bind; [|intros; apply agree_refl]. unfold SubAck_read. agree_all.
  - apply agree_bind; [|intros; apply agree_refl]. unfold Unsubscribe_read. agree_all.
  - apply agree_bind; [|intros; apply agree_refl]. unfold UnsubAck_read. agree_all.
  - apply agree_refl.
  - apply agree_refl.
  - apply agree_bind; [|intros; apply agree_refl]. unfold Disconnect_read. agree_all.
Qed.
Lemma read_agree s max : let r1 := Packet_read ft s max in let r2 := Packet_read ft2 s max in
  r1 = r2 \/ lax /\ fst r1 = Err TopicNotUtf8 /\ snd r1 = snd r2.
Proof.
  cbv zeta. unfold Packet_read. destruct (check s max) as [h| | |]; [|left; reflexivity|left; reflexivity|left; reflexivity].
  destruct (split_to s (frame_length h)) as [[p r]| | |]; [|left; reflexivity|left; reflexivity|left; reflexivity].
  destruct (frame_agree h p) as [-> | [L ->]]; [left; reflexivity|right; cbn [fst snd]; auto].
Qed.
End Agree.


Lemma read_stricter ft s max :
  Packet_read ft s max = Packet_read F_binary s max
  \/ fst (Packet_read ft s max) = Err TopicNotUtf8 /\ snd (Packet_read ft s max) = snd (Packet_read F_binary s max).
Proof.
  destruct (read_agree ft F_binary True) with (s := s) (max := max) as [E|(_ & E)]; [|left; exact E|right; exact E].
  intros b. destruct ft; cbn [read_mqtt_string]; [ | | |apply agree_refl];
    (destruct (read_mqtt_bytes b) as [[x r]| | |]; cbn [rbind]; try (left; reflexivity);
     destruct (from_utf8 x); [left; reflexivity|right; auto]).
Qed.
(** The three checking builds. *)
Lemma read_same ft s max : ft <> F_binary -> Packet_read ft s max = Packet_read F_default s max.
Proof.
  intros H. destruct (read_agree ft F_default False) with (s := s) (max := max) as [E|(F & _)]; [|exact E|contradiction].
  intros b. left. destruct ft; [reflexivity|reflexivity|reflexivity|congruence].
Qed.
