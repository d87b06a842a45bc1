(** C41: what Default builds. *)
From Verif Require Import Types MLib Model MDefault Spec Wire PBase TWrite TRules.

(** Publish::default and Unsubscribe::default are five bytes that are read back as they were;
    Subscribe::default is written too, but has no filter, and reading it fails; with Filter::default it
    has one with an empty path, and is read back. *)
Theorem C41_defaults ft buf :
  Packet_write (P_Publish Publish_default) buf = (Ok 5, buf ++ [48; 3; 0; 0; 0])
  /\ written_reads ft (P_Publish Publish_default) (P_Publish Publish_default)
  /\ Packet_write (P_Unsubscribe Unsubscribe_default) buf = (Ok 5, buf ++ [162; 3; 0; 0; 0])
  /\ written_reads ft (P_Unsubscribe Unsubscribe_default) (P_Unsubscribe Unsubscribe_default)
  /\ Packet_write (P_Subscribe Subscribe_default) buf = (Ok 5, buf ++ [130; 3; 0; 0; 0])
  /\ Packet_read ft [130; 3; 0; 0; 0] None = (Err EmptySubscription, [])
  /\ written_reads ft (P_Subscribe (mkSubscribe 0 [Filter_default] None)) (P_Subscribe (mkSubscribe 0 [Filter_default] None)).
Proof.
  repeat match goal with |- _ /\ _ => split end.
  - rewrite packet_write_eq by reflexivity. vm_compute encode. reflexivity.
  - exists 5, [48; 3; 0; 0; 0]. destruct ft; split; vm_compute; reflexivity.
  - rewrite packet_write_eq by reflexivity. vm_compute encode. reflexivity.
  - exists 5, [162; 3; 0; 0; 0]. destruct ft; split; vm_compute; reflexivity.
  - rewrite packet_write_eq by reflexivity. vm_compute encode. reflexivity.
  - destruct ft; vm_compute; reflexivity.
  - exists 8, [130; 6; 0; 0; 0; 0; 0; 0]. destruct ft; split; vm_compute; reflexivity.
Qed.
(** The defaults of the field types: the lowest QoS, and retained messages sent at every subscription. *)
Theorem C41_default_levels q : qos_u8 QoS_default <= qos_u8 q /\ RetainForwardRule_default = OnEverySubscribe.
Proof. split; [destruct q; vm_compute; discriminate|reflexivity]. Qed.
