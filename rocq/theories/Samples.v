(** Concrete packets, one or more of every kind with most fields filled in, used beside the
    theorems to show that their hypotheses are met.  Imports no model file. *)
From Coq Require Import Lia.
From Verif Require Import Types Spec.

(** ASCII strings are text for every string feature. *)
Lemma ascii_text ft s : forallb (fun b => b <? 128) s = true -> text ft s.
Proof.
  intros H. rewrite forallb_forall in H. split.
  - apply Forall_forall. intros x Hx. apply H in Hx. apply N.ltb_lt in Hx. lia.
  - destruct ft; try exact I.
    all: exists s; split;
      [apply Forall_forall; intros x Hx; apply H in Hx; apply N.ltb_lt in Hx; left; lia
      |clear -H; induction s as [|c s IH]; [reflexivity|];
       cbn [flat_map]; unfold utf8_encode at 1; rewrite (H c (or_introl eq_refl)); cbn [app];
       exact (f_equal (cons c) (IH (fun x Hx => H x (or_intror Hx))))].
Qed.

(** "a/b" and so on. *)
Definition t_topic : bytes := [97; 47; 98].
Definition t_key : bytes := [107].
Definition t_val : bytes := [118; 49].
Definition t_user : user_props := [(t_key, t_val); (t_key, [])].

Definition s_connect : Packet :=
  P_Connect
    (mkConnect 60 [99; 105; 100] true
       (Some (mkConnectProperties (Some 3600) (Some 20) (Some 100000) (Some 10) (Some 1) (Some 0)
                t_user (Some [80]) (Some [0; 255]))))
    (Some (mkLastWill t_topic [1; 2; 255] ExactlyOnce true
             (Some (mkLastWillProperties (Some 5) (Some 1) (Some 600) (Some t_val) (Some t_topic)
                      (Some [200]) t_user))))
    (Some (mkLogin [117; 115; 114] [112; 119])).
Definition s_connect_plain : Packet := P_Connect (mkConnect 0 [] false None) None None.
Definition s_connack : Packet :=
  P_ConnAck (mkConnAck true CRC_Success
    (Some (mkConnAckProperties (Some 1) (Some 2) (Some 1) (Some 1) (Some 70000) (Some [105]) (Some 3)
             (Some [114]) t_user (Some 1) (Some 0) (Some 1) (Some 30) (Some [105]) (Some [115])
             (Some [109]) (Some [222])))).
Definition s_connack_refused : Packet := P_ConnAck (mkConnAck false CRC_NotAuthorized None).
(** QoS 1, a topic alias and a subscription identifier of two bytes. *)
Definition s_publish : Packet :=
  P_Publish (mkPublish true AtLeastOnce true t_topic 10 [1; 0; 255]
    (Some (mkPublishProperties (Some 1) (Some 60) (Some 4) (Some t_topic) (Some [7; 255]) t_user
             [300] (Some t_val)))).
Definition s_publish0 : Packet := P_Publish (mkPublish false AtMostOnce false t_topic 0 [104; 105] None).
Definition s_puback : Packet :=
  P_PubAck (mkPubAck 10 PAR_NoMatchingSubscribers (Some (mkPubAckProperties (Some [110]) t_user))).
Definition s_pubrec : Packet :=
  P_PubRec (mkPubRec 11 PRR_QuotaExceeded (Some (mkPubRecProperties (Some [113]) t_user))).
Definition s_pubrel : Packet := P_PubRel (mkPubRel 11 PLR_Success None).
Definition s_pubcomp : Packet :=
  P_PubComp (mkPubComp 11 PCR_PacketIdentifierNotFound (Some (mkPubCompProperties None t_user))).
Definition s_subscribe : Packet :=
  P_Subscribe (mkSubscribe 12 [mkFilter t_topic ExactlyOnce true false OnNewSubscribe;
                               mkFilter [35] AtMostOnce false true Never]
                 (Some (mkSubscribeProperties (Some 20000) t_user))).
Definition s_suback : Packet :=
  P_SubAck (mkSubAck 12 [SRC_Success ExactlyOnce; SRC_NotAuthorized] (Some (mkSubAckProperties (Some [114]) []))).
Definition s_unsubscribe : Packet :=
  P_Unsubscribe (mkUnsubscribe 13 [t_topic; [35]] (Some (mkUnsubscribeProperties t_user))).
Definition s_unsuback : Packet :=
  P_UnsubAck (mkUnsubAck 13 [UAR_Success; UAR_NoSubscriptionExisted] None).
Definition s_disconnect : Packet :=
  P_Disconnect (mkDisconnect DRC_ServerMoved (Some (mkDisconnectProperties (Some 9) (Some [98; 121; 101]) t_user (Some [115])))).
Definition s_disconnect_normal : Packet := P_Disconnect (mkDisconnect DRC_NormalDisconnection None).

Definition samples : list Packet :=
  [s_connect; s_connack; s_connack_refused; s_publish; s_publish0; s_puback; s_pubrec; s_pubrel; s_pubcomp;
   s_subscribe; s_suback; s_unsubscribe; s_unsuback; P_PingReq; P_PingResp; s_disconnect; s_disconnect_normal].

Ltac sample_value :=
  first [reflexivity | exact I | apply ascii_text; reflexivity
        | apply Forall_forall; intros ? ?;
          repeat match goal with H : In _ _ |- _ => destruct H as [<-|H] end; first [contradiction | reflexivity]].
Ltac sample :=
  repeat match goal with
  | |- Forall _ [] => constructor
  | |- bytes_ok _ => sample_value
  | |- text _ _ => sample_value
  | |- _ < _ => reflexivity
  | |- rust_packet _ _ => red
  | |- items_ok _ _ => red; cbn
  | |- Forall _ (_ :: _) => constructor
  | |- value_ok _ _ => red
  | |- _ /\ _ => split
  | |- forall w, Some _ = Some w -> _ => let E := fresh in intros ? E; injection E as <-
  | |- forall w, None = Some w -> _ => discriminate
  | |- True => exact I
  | |- _ => progress cbn
  end.

Lemma samples_rust ft : Forall (rust_packet ft) samples.
Proof. unfold samples. sample. Qed.

(** [encodable] as a computation. *)
Lemma encodable_check p : forallb (fun f => is_none (field_error f)) (packet_fields p) = true -> encodable p.
Proof.
  intros H. apply Forall_forall. intros f Hf. rewrite forallb_forall in H. apply H in Hf.
  destruct (field_error f); [discriminate|reflexivity].
Qed.
Lemma samples_encodable : Forall encodable samples.
Proof. repeat constructor; apply encodable_check; reflexivity. Qed.
Lemma samples_safe : Forall (fun p => roundtrip_safe p = true) samples.
Proof. repeat constructor. Qed.
Lemma samples_normal : map normalize samples = samples.
Proof. reflexivity. Qed.
