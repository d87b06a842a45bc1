(** The Default implementations that packets are made with (those of the property structures are
    PublishProperties_default, ConnectProperties_new and ConnAckProperties_new). *)
From Verif Require Import Types MLib.

(** /repo/src/lib.rs:626-630 Default for QoS. *)
Definition QoS_default : QoS := AtMostOnce.
(** /repo/src/subscribe.rs:197-201 Default for RetainForwardRule. *)
Definition RetainForwardRule_default : RetainForwardRule := OnEverySubscribe.
(** /repo/src/publish.rs:11-20 derived Default for Publish. *)
Definition Publish_default : Publish := mkPublish false QoS_default false [] 0 [] None.
(** /repo/src/subscribe.rs:108-115 derived Default for Filter. *)
Definition Filter_default : Filter := mkFilter [] QoS_default false false RetainForwardRule_default.
(** /repo/src/subscribe.rs:10-15 derived Default for Subscribe. *)
Definition Subscribe_default : Subscribe := mkSubscribe 0 [] None.
(** /repo/src/unsubscribe.rs:10-15 derived Default for Unsubscribe. *)
Definition Unsubscribe_default : Unsubscribe := mkUnsubscribe 0 [] None.
