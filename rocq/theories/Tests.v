(** The unit tests of /repo/src, its benchmark and the example of its README, run on the model.
    They pass on the code, so a misreading of the code that they would notice shows here.  They are
    tests of the model on a few literals, not claims: no property of MANIFEST.json rests on them. *)
From Coq Require Import String Ascii.
From Verif Require Import Types MLib MConnect MConnAck MPublish MPubAck MPubRec MPubRel MPubComp
  MSubscribe MSubAck MUnsubscribe MUnsubAck MDisconnect MPing Model MTopics.
Local Open Scope N_scope.

(** The bytes of a string literal. *)
Fixpoint s_ (s : string) : bytes :=
  match s with EmptyString => [] | String c s => N_of_ascii c :: s_ s end.

(** /repo/src/lib.rs:708-710 *)
Definition USER_PROP_KEY : bytes := s_ "property".
Definition USER_PROP_VAL : bytes := s_ "a value thats really long............................................................................................................".
Definition user_prop : user_props := [(USER_PROP_KEY, USER_PROP_VAL)].
(** `vec![1; 10]` *)
Definition ones : bytes := repeat 1 10.

(** /repo/src/lib.rs:713-721 read_write_packets: every assertion of it, in every build. *)
Definition read_write_packet (ft : feature) (out : Packet) : Prop :=
  match Packet_write out [] with
  | (Ok _, buf) => Packet_read ft buf None = (Ok out, [])
  | _ => False
  end.
Definition read_write_packets (packets : list Packet) : Prop := forall ft, Forall (read_write_packet ft) packets.
(** The length_calculation tests: what write returns, the length of the buffer and, where there is
    one, size() agree. *)
Definition length_calculation (size : option N) (p : Packet) : Prop :=
  match Packet_write p [] with
  | (Ok n, buf) => n = blen buf /\ match size with Some m => m = blen buf | None => True end
  | _ => False
  end.

Ltac run := intros ft; repeat (apply Forall_cons; [destruct ft; vm_compute; reflexivity|]); apply Forall_nil.
Ltac len := split; vm_compute; first [reflexivity | exact I].

(** /repo/src/connect.rs:662-679 *)
Example connect_length_calculation :
  length_calculation None
    (P_Connect (mkConnect 5 (s_ "client") true
       (Some (mkConnectProperties None None None None None None user_prop None None))) None None).
Proof. len. Qed.
(** /repo/src/connect.rs:682-735 *)
Example connect_write_read : read_write_packets
  [P_Connect (mkConnect 5 (s_ "client") true None) None None;
   P_Connect
     (mkConnect 5 (s_ "client") true
        (Some (mkConnectProperties (Some 5) (Some 5) (Some 5) (Some 5) (Some 5) (Some 5) user_prop
                 (Some (s_ "method")) (Some (s_ "data")))))
     (Some (mkLastWill (s_ "topic") (s_ "message") AtLeastOnce true
        (Some (mkLastWillProperties (Some 5) (Some 5) (Some 5) (Some (s_ "type")) (Some (s_ "topic"))
                 (Some (s_ "data")) user_prop))))
     (Some (mkLogin (s_ "username") (s_ "password")))].
Proof. run. Qed.

(** /repo/src/connack.rs:508-544 *)
Definition connack_long : ConnAck :=
  mkConnAck false CRC_Success
    (Some (mkConnAckProperties None None None None None None None None user_prop None None None None None None None None)).
Example connack_length_calculation : length_calculation (Some (ConnAck_size connack_long)) (P_ConnAck connack_long).
Proof. len. Qed.
(** /repo/src/connack.rs:547-593 *)
Example connack_write_read : read_write_packets
  [P_ConnAck (mkConnAck true CRC_Success
     (Some (mkConnAckProperties None None None None None (Some (s_ "client")) None None [] None None None None None None None None)));
   P_ConnAck (mkConnAck false CRC_Success None);
   P_ConnAck (mkConnAck true CRC_BadAuthenticationMethod None);
   P_ConnAck (mkConnAck true CRC_Success
     (Some (mkConnAckProperties (Some 10) (Some 20) (Some 1) (Some 1) (Some 30) (Some (s_ "client")) (Some 40)
              (Some (s_ "reason")) user_prop (Some 1) (Some 1) (Some 1) (Some 50) (Some (s_ "info"))
              (Some (s_ "ref")) (Some (s_ "method")) (Some [1; 2; 3]))))].
Proof. run. Qed.

(** /repo/src/publish.rs:319-347 *)
Definition publish_long : Publish :=
  Publish_new (s_ "hello/world") AtMostOnce ones
    (Some (mkPublishProperties None None None None None user_prop [1] None)).
Example publish_length_calculation : length_calculation (Some (Publish_size publish_long)) (P_Publish publish_long).
Proof. len. Qed.
(** /repo/src/publish.rs:350-401 *)
Example publish_write_read : read_write_packets
  [P_Publish (Publish_new (s_ "hello/world") AtMostOnce ones None);
   P_Publish (Publish_new (s_ "hello/world") AtMostOnce ones None);
   P_Publish (mkPublish true ExactlyOnce true (s_ "hello/world") 12 ones None);
   P_Publish (mkPublish true AtLeastOnce true (s_ "hello/world") 12 ones None);
   P_Publish (Publish_new (s_ "hello/world") AtMostOnce ones
     (Some (mkPublishProperties (Some 1) (Some 100) (Some 10) (Some (s_ "response/topic")) (Some [1; 2; 3])
              user_prop [1] (Some (s_ "content/type")))))].
Proof. run. Qed.
(** /repo/benches/benchmark.rs:5-33.  Its seven subscription identifiers are miscounted by seven (C21),
    which the content type after them absorbs. *)
Definition benchmark_publish : Packet :=
  P_Publish (Publish_new (s_ "hello/world/this/is/a/very/long/topic") AtMostOnce (repeat 1 400)
    (Some (mkPublishProperties (Some 1) (Some 100) (Some 10) (Some (s_ "response/topic")) (Some [1; 2; 3])
             [(s_ "key1", s_ "valuevaluevaluevaluevaluevaluevaluevalue")] [1; 2; 3; 4; 5; 6; 7]
             (Some (s_ "content/type"))))).
Example benchmark : read_write_packets [benchmark_publish].
Proof. run. Qed.

(** /repo/src/puback.rs:251-290 *)
Definition puback_long : PubAck := PubAck_new 1 (Some (mkPubAckProperties None user_prop)).
Example puback_length_calculation : length_calculation (Some (PubAck_size puback_long)) (P_PubAck puback_long).
Proof. len. Qed.
Example puback_write_read : read_write_packets
  [P_PubAck (mkPubAck 42 PAR_Success None);
   P_PubAck (mkPubAck 42 PAR_Success (Some (mkPubAckProperties (Some (s_ "hello")) user_prop)))].
Proof. run. Qed.
(** /repo/README.md "Usage": the packet is written (four bytes) and read. *)
Example readme ft :
  Packet_write (P_PubAck (mkPubAck 42 PAR_Success None)) [] = (Ok 4, [64; 2; 0; 42])
  /\ Packet_read ft [64; 2; 0; 42] None = (Ok (P_PubAck (mkPubAck 42 PAR_Success None)), []).
Proof. split; destruct ft; vm_compute; reflexivity. Qed.

(** /repo/src/pubrec.rs:245-284 *)
Definition pubrec_long : PubRec := PubRec_new 1 (Some (mkPubRecProperties None user_prop)).
Example pubrec_length_calculation : length_calculation (Some (PubRec_size pubrec_long)) (P_PubRec pubrec_long).
Proof. len. Qed.
Example pubrec_write_read : read_write_packets
  [P_PubRec (mkPubRec 42 PRR_Success None);
   P_PubRec (mkPubRec 42 PRR_Success (Some (mkPubRecProperties None user_prop)))].
Proof. run. Qed.

(** /repo/src/pubrel.rs:230-269 *)
Definition pubrel_long : PubRel := PubRel_new 1 (Some (mkPubRelProperties None user_prop)).
Example pubrel_length_calculation : length_calculation (Some (PubRel_size pubrel_long)) (P_PubRel pubrel_long).
Proof. len. Qed.
Example pubrel_write_read : read_write_packets
  [P_PubRel (mkPubRel 42 PLR_Success None);
   P_PubRel (mkPubRel 42 PLR_Success (Some (mkPubRelProperties (Some (s_ "hello")) user_prop)))].
Proof. run. Qed.

(** /repo/src/pubcomp.rs:229-268 *)
Definition pubcomp_long : PubComp := PubComp_new 1 (Some (mkPubCompProperties None user_prop)).
Example pubcomp_length_calculation : length_calculation (Some (PubComp_size pubcomp_long)) (P_PubComp pubcomp_long).
Proof. len. Qed.
Example pubcomp_write_read : read_write_packets
  [P_PubComp (mkPubComp 42 PCR_Success None);
   P_PubComp (mkPubComp 42 PCR_Success (Some (mkPubCompProperties (Some (s_ "hello")) user_prop)))].
Proof. run. Qed.

(** /repo/src/subscribe.rs:295-315 *)
Definition subscribe_long : Subscribe :=
  Subscribe_new (Filter_new (s_ "hello/world") AtMostOnce) (Some (mkSubscribeProperties None user_prop)).
Example subscribe_length_calculation : length_calculation (Some (Subscribe_size subscribe_long)) (P_Subscribe subscribe_long).
Proof. len. Qed.
(** /repo/src/subscribe.rs:318-394 *)
Example subscribe_write_read : read_write_packets
  [P_Subscribe (mkSubscribe 0 [mkFilter (s_ "hello/world") AtLeastOnce false false OnEverySubscribe] None);
   P_Subscribe (mkSubscribe 0 [mkFilter (s_ "hello/world") ExactlyOnce false false OnEverySubscribe] None);
   P_Subscribe (mkSubscribe 42 [mkFilter (s_ "hello/world") AtMostOnce false false OnEverySubscribe] None);
   P_Subscribe (mkSubscribe 42 [mkFilter (s_ "hello/world") AtMostOnce false false OnEverySubscribe]
     (Some (mkSubscribeProperties None user_prop)));
   P_Subscribe (mkSubscribe 42
     [mkFilter (s_ "hello/world") AtMostOnce true false OnEverySubscribe;
      mkFilter (s_ "hello/world") AtMostOnce false true OnEverySubscribe]
     (Some (mkSubscribeProperties (Some 121212) user_prop)))].
Proof. run. Qed.

(** /repo/src/suback.rs:225-246 *)
Definition suback_long : SubAck :=
  mkSubAck 1 [SRC_Success ExactlyOnce] (Some (mkSubAckProperties None user_prop)).
Example suback_length_calculation : length_calculation (Some (SubAck_size suback_long)) (P_SubAck suback_long).
Proof. len. Qed.
(** /repo/src/suback.rs:249-271 *)
Example suback_write_read : read_write_packets
  [P_SubAck (mkSubAck 42 [SRC_Success AtMostOnce] None);
   P_SubAck (mkSubAck 42 [SRC_Success AtMostOnce]
     (Some (mkSubAckProperties (Some (s_ "test")) (user_prop ++ [(s_ "property2", s_ "value2")]))))].
Proof. run. Qed.

(** /repo/src/unsubscribe.rs:168-205 *)
Definition unsubscribe_long : Unsubscribe :=
  Unsubscribe_new (s_ "hello/world") (Some (mkUnsubscribeProperties user_prop)).
Example unsubscribe_length_calculation :
  length_calculation (Some (Unsubscribe_size unsubscribe_long)) (P_Unsubscribe unsubscribe_long).
Proof. len. Qed.
Example unsubscribe_write_read : read_write_packets
  [P_Unsubscribe (mkUnsubscribe 42 [s_ "hello/world"] None);
   P_Unsubscribe (mkUnsubscribe 42 [s_ "hello/world"] (Some (mkUnsubscribeProperties user_prop)))].
Proof. run. Qed.

(** /repo/src/unsuback.rs:215-258 *)
Definition unsuback_long : UnsubAck := mkUnsubAck 1 [UAR_Success] (Some (mkUnsubAckProperties None user_prop)).
Example unsuback_length_calculation : length_calculation (Some (UnsubAck_size unsuback_long)) (P_UnsubAck unsuback_long).
Proof. len. Qed.
Example unsuback_write_read : read_write_packets
  [P_UnsubAck (mkUnsubAck 42 [UAR_Success] None);
   P_UnsubAck (mkUnsubAck 42 [UAR_Success] (Some (mkUnsubAckProperties (Some (s_ "Resaon")) user_prop)))].
Proof. run. Qed.

(** /repo/src/ping.rs:30-36 *)
Example ping_write_read : read_write_packets [P_PingReq; P_PingResp].
Proof. run. Qed.

(** /repo/src/disconnect.rs:354-369, 415-427: parse_fixed_header, split_to and Disconnect::read. *)
Definition disconnect_parsing (ft : feature) (buffer : bytes) : res Disconnect :=
  let? h := parse_fixed_header buffer in
  let? (frame, _) := split_to buffer (frame_length h) in
  Disconnect_read ft h frame.
Example disconnect1_parsing_works ft : disconnect_parsing ft [224; 0] = Ok (Disconnect_new DRC_NormalDisconnection).
Proof. destruct ft; vm_compute; reflexivity. Qed.
(** /repo/src/disconnect.rs:372-382 *)
Example disconnect1_encoding_works : snd (Disconnect_write (Disconnect_new DRC_NormalDisconnection) []) = [224; 0].
Proof. vm_compute; reflexivity. Qed.
(** /repo/src/disconnect.rs:385-397 sample2 and 400-412 sample_bytes2 *)
Definition sample2 : Disconnect :=
  mkDisconnect DRC_UnspecifiedError
    (Some (mkDisconnectProperties (Some 1234) (Some (s_ "test")) [(s_ "test", s_ "test")] (Some (s_ "test")))).
Definition sample_bytes2 : bytes :=
  [224; 34; 128; 32; 17; 0; 0; 4; 210; 31; 0; 4; 116; 101; 115; 116; 38; 0; 4; 116; 101; 115; 116; 0; 4; 116; 101; 115;
   116; 28; 0; 4; 116; 101; 115; 116].
Example disconnect2_parsing_works ft : disconnect_parsing ft sample_bytes2 = Ok sample2.
Proof. destruct ft; vm_compute; reflexivity. Qed.
(** /repo/src/disconnect.rs:430-439 *)
Example disconnect2_encoding_works : snd (Disconnect_write sample2 []) = sample_bytes2.
Proof. vm_compute; reflexivity. Qed.
(** /repo/src/disconnect.rs:447-467 *)
Definition disconnect_long : Disconnect :=
  mkDisconnect DRC_NormalDisconnection (Some (mkDisconnectProperties None None user_prop None)).
Example disconnect_length_calculation :
  length_calculation (Some (Disconnect_size disconnect_long)) (P_Disconnect disconnect_long).
Proof. len. Qed.
(** /repo/src/disconnect.rs:470-487 *)
Example disconnect_write_read : read_write_packets
  [P_Disconnect (Disconnect_new DRC_NormalDisconnection); P_Disconnect sample2].
Proof. run. Qed.

(** The examples in the comments of /repo/mod.rs:67-68, 76-77, 83 (invalid filters) and 112-113. *)
Example filter_comments :
  Forall (fun f => valid_filter (s_ f) = Ok false)
    ["sport/tennis#"; "sport/++"; "sport/tennis#/player"; "sport/tennis/#/ranking"; "sport+"]%string
  /\ matches (s_ "a/b/c") (s_ "a/b/c/#") = Ok true /\ matches (s_ "a/b/c") (s_ "a/b/c/d") = Ok false.
Proof. repeat split; repeat (apply Forall_cons; [vm_compute; reflexivity|]); try apply Forall_nil; vm_compute; reflexivity. Qed.
