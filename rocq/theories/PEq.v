(** The derived comparisons of MEq decide equality. *)
From Coq Require Import Lia.
From Verif Require Import Types MLib MEq PWire.

(** [f] answers whether two values are the same. *)
Definition decides {A} (f : A -> A -> bool) : Prop := forall a b, f a b = true <-> a = b.

Lemma decides_option {A} (f : A -> A -> bool) : decides f -> decides (option_eq f).
Proof.
  intros H [a|] [b|]; cbn [option_eq]; try (split; congruence).
  rewrite (H a b). split; congruence.
Qed.
Lemma decides_vec {A} (f : A -> A -> bool) : decides f -> decides (vec_eq f).
Proof.
  intros H a. induction a as [|x a IH]; intros [|y b]; cbn [vec_eq]; try (split; congruence).
  rewrite andb_true_iff, (H x y), (IH b). split; [intros [-> ->]; reflexivity|intros E; injection E; auto].
Qed.
Lemma decides_pair {A B} (f : A -> A -> bool) (g : B -> B -> bool) : decides f -> decides g -> decides (pair_eq f g).
Proof.
  intros Hf Hg [a b] [c d]. unfold pair_eq. cbn [fst snd].
  rewrite andb_true_iff, (Hf a c), (Hg b d). split; [intros [-> ->]; reflexivity|intros E; injection E; auto].
Qed.
Lemma decides_bytes : decides bytes_eqb.
Proof. exact bytes_eqb_iff. Qed.
Lemma decides_bool : decides bool_eq.
Proof. exact eqb_true_iff. Qed.
Lemma decides_N : decides N.eqb.
Proof. exact N.eqb_eq. Qed.
Lemma decides_user_props : decides user_props_eq.
Proof. apply decides_vec, decides_pair; apply decides_bytes. Qed.
Create HintDb dec.
#[export] Hint Resolve decides_option decides_vec decides_pair decides_bytes decides_bool decides_N decides_user_props : dec.

(** A field of one type, compared with its decider. *)
Lemma field_of {A} (f : A -> A -> bool) : decides f -> forall a b, f a b = true -> a = b.
Proof. intros H a b. apply H. Qed.
Lemma field_same {A} (f : A -> A -> bool) : decides f -> forall a, f a a = true.
Proof. intros H a. apply H. reflexivity. Qed.

Ltac fields :=
  repeat match goal with
  | H : _ && _ = true |- _ => apply andb_true_iff in H; destruct H
  | H : _ = true |- _ => apply field_of in H; [|solve [auto 6 with dec]]; subst
  end.
Ltac same := repeat (apply andb_true_iff; split); try (apply field_same; solve [auto 6 with dec]).
Ltac decide_record F :=
  intros a b; unfold F; split;
  [ destruct a, b; cbn; intros ?; fields; reflexivity
  | intros <-; same ].
Ltac decide_enum F :=
  intros a b; unfold F; split;
  [ intros E; apply N.eqb_eq in E; destruct a, b; first [reflexivity | discriminate E]
  | intros <-; apply N.eqb_refl ].

Lemma decides_QoS : decides QoS_eq.
Proof. decide_enum QoS_eq. Qed.
#[export] Hint Resolve decides_QoS : dec.
Lemma decides_PacketType : decides PacketType_eq.
Proof. decide_enum PacketType_eq. Qed.
#[export] Hint Resolve decides_PacketType : dec.
Lemma decides_ConnectProperties : decides ConnectProperties_eq.
Proof. decide_record ConnectProperties_eq. Qed.
#[export] Hint Resolve decides_ConnectProperties : dec.
Lemma decides_Connect : decides Connect_eq.
Proof. decide_record Connect_eq. Qed.
#[export] Hint Resolve decides_Connect : dec.
Lemma decides_LastWillProperties : decides LastWillProperties_eq.
Proof. decide_record LastWillProperties_eq. Qed.
#[export] Hint Resolve decides_LastWillProperties : dec.
Lemma decides_LastWill : decides LastWill_eq.
Proof. decide_record LastWill_eq. Qed.
#[export] Hint Resolve decides_LastWill : dec.
Lemma decides_Login : decides Login_eq.
Proof. decide_record Login_eq. Qed.
#[export] Hint Resolve decides_Login : dec.
Lemma decides_ConnectReturnCode : decides ConnectReturnCode_eq.
Proof. decide_enum ConnectReturnCode_eq. Qed.
#[export] Hint Resolve decides_ConnectReturnCode : dec.
Lemma decides_ConnAckProperties : decides ConnAckProperties_eq.
Proof. decide_record ConnAckProperties_eq. Qed.
#[export] Hint Resolve decides_ConnAckProperties : dec.
Lemma decides_ConnAck : decides ConnAck_eq.
Proof. decide_record ConnAck_eq. Qed.
#[export] Hint Resolve decides_ConnAck : dec.
Lemma decides_PublishProperties : decides PublishProperties_eq.
Proof. decide_record PublishProperties_eq. Qed.
#[export] Hint Resolve decides_PublishProperties : dec.
Lemma decides_Publish : decides Publish_eq.
Proof. decide_record Publish_eq. Qed.
#[export] Hint Resolve decides_Publish : dec.
Lemma decides_PubAckReason : decides PubAckReason_eq.
Proof. decide_enum PubAckReason_eq. Qed.
#[export] Hint Resolve decides_PubAckReason : dec.
Lemma decides_PubAckProperties : decides PubAckProperties_eq.
Proof. decide_record PubAckProperties_eq. Qed.
#[export] Hint Resolve decides_PubAckProperties : dec.
Lemma decides_PubAck : decides PubAck_eq.
Proof. decide_record PubAck_eq. Qed.
#[export] Hint Resolve decides_PubAck : dec.
Lemma decides_PubRecReason : decides PubRecReason_eq.
Proof. decide_enum PubRecReason_eq. Qed.
#[export] Hint Resolve decides_PubRecReason : dec.
Lemma decides_PubRecProperties : decides PubRecProperties_eq.
Proof. decide_record PubRecProperties_eq. Qed.
#[export] Hint Resolve decides_PubRecProperties : dec.
Lemma decides_PubRec : decides PubRec_eq.
Proof. decide_record PubRec_eq. Qed.
#[export] Hint Resolve decides_PubRec : dec.
Lemma decides_PubRelReason : decides PubRelReason_eq.
Proof. decide_enum PubRelReason_eq. Qed.
#[export] Hint Resolve decides_PubRelReason : dec.
Lemma decides_PubRelProperties : decides PubRelProperties_eq.
Proof. decide_record PubRelProperties_eq. Qed.
#[export] Hint Resolve decides_PubRelProperties : dec.
Lemma decides_PubRel : decides PubRel_eq.
Proof. decide_record PubRel_eq. Qed.
#[export] Hint Resolve decides_PubRel : dec.
Lemma decides_PubCompReason : decides PubCompReason_eq.
Proof. decide_enum PubCompReason_eq. Qed.
#[export] Hint Resolve decides_PubCompReason : dec.
Lemma decides_PubCompProperties : decides PubCompProperties_eq.
Proof. decide_record PubCompProperties_eq. Qed.
#[export] Hint Resolve decides_PubCompProperties : dec.
Lemma decides_PubComp : decides PubComp_eq.
Proof. decide_record PubComp_eq. Qed.
#[export] Hint Resolve decides_PubComp : dec.
Lemma decides_RetainForwardRule : decides RetainForwardRule_eq.
Proof. decide_enum RetainForwardRule_eq. Qed.
#[export] Hint Resolve decides_RetainForwardRule : dec.
Lemma decides_Filter : decides Filter_eq.
Proof. decide_record Filter_eq. Qed.
#[export] Hint Resolve decides_Filter : dec.
Lemma decides_SubscribeProperties : decides SubscribeProperties_eq.
Proof. decide_record SubscribeProperties_eq. Qed.
#[export] Hint Resolve decides_SubscribeProperties : dec.
Lemma decides_Subscribe : decides Subscribe_eq.
Proof. decide_record Subscribe_eq. Qed.
#[export] Hint Resolve decides_Subscribe : dec.
Lemma decides_SubscribeReasonCode : decides SubscribeReasonCode_eq.
Proof.
  intros a b. unfold SubscribeReasonCode_eq. split.
  - intros E. apply andb_true_iff in E. destruct E as [E F]. apply N.eqb_eq in E.
    destruct a, b; try reflexivity; try discriminate E. apply decides_QoS in F. congruence.
  - intros <-. rewrite N.eqb_refl. destruct a; try reflexivity. apply decides_QoS. reflexivity.
Qed.
#[export] Hint Resolve decides_SubscribeReasonCode : dec.
Lemma decides_SubAckProperties : decides SubAckProperties_eq.
Proof. decide_record SubAckProperties_eq. Qed.
#[export] Hint Resolve decides_SubAckProperties : dec.
Lemma decides_SubAck : decides SubAck_eq.
Proof. decide_record SubAck_eq. Qed.
#[export] Hint Resolve decides_SubAck : dec.
Lemma decides_UnsubscribeProperties : decides UnsubscribeProperties_eq.
Proof. decide_record UnsubscribeProperties_eq. Qed.
#[export] Hint Resolve decides_UnsubscribeProperties : dec.
Lemma decides_Unsubscribe : decides Unsubscribe_eq.
Proof. decide_record Unsubscribe_eq. Qed.
#[export] Hint Resolve decides_Unsubscribe : dec.
Lemma decides_UnsubAckReason : decides UnsubAckReason_eq.
Proof. decide_enum UnsubAckReason_eq. Qed.
#[export] Hint Resolve decides_UnsubAckReason : dec.
Lemma decides_UnsubAckProperties : decides UnsubAckProperties_eq.
Proof. decide_record UnsubAckProperties_eq. Qed.
#[export] Hint Resolve decides_UnsubAckProperties : dec.
Lemma decides_UnsubAck : decides UnsubAck_eq.
Proof. decide_record UnsubAck_eq. Qed.
#[export] Hint Resolve decides_UnsubAck : dec.
Lemma decides_DisconnectReasonCode : decides DisconnectReasonCode_eq.
Proof. decide_enum DisconnectReasonCode_eq. Qed.
#[export] Hint Resolve decides_DisconnectReasonCode : dec.
Lemma decides_DisconnectProperties : decides DisconnectProperties_eq.
Proof. decide_record DisconnectProperties_eq. Qed.
#[export] Hint Resolve decides_DisconnectProperties : dec.
Lemma decides_Disconnect : decides Disconnect_eq.
Proof. decide_record Disconnect_eq. Qed.
#[export] Hint Resolve decides_Disconnect : dec.
Lemma decides_FixedHeader : decides FixedHeader_eq.
Proof. decide_record FixedHeader_eq. Qed.
Lemma decides_Error : decides Error_eq.
Proof.
  intros a b. unfold Error_eq. split.
  - intros E. apply andb_true_iff in E. destruct E as [E F]. apply N.eqb_eq in E.
    destruct a, b; first [discriminate E | reflexivity | idtac]; cbn in F; fields; reflexivity.
  - intros <-. rewrite N.eqb_refl. destruct a; cbn [andb]; same; reflexivity.
Qed.
Lemma decides_Packet : decides Packet_eq.
Proof.
  intros a b. unfold Packet_eq. split.
  - intros E. apply andb_true_iff in E. destruct E as [E F]. apply N.eqb_eq in E.
    destruct a, b; first [discriminate E | reflexivity | idtac]; fields; reflexivity.
  - intros <-. rewrite N.eqb_refl. destruct a; cbn [andb]; same; reflexivity.
Qed.
