(** The writers again, now with a count of their steps (the readers are in MCost).  A counted writer
    maps the old buffer to a number of steps, the outcome and the new buffer; PCostW proves that
    the outcomes and buffers are those of MLib, the packet files and Model.
    One step each is counted for: a call of a buffer operation (`put_*`, `extend_from_slice`, an
    index assignment) and, besides, every byte it appends; every structure and every list element
    that a `len()` visits, each time it is called; a code translated and its element pushed
    (SUBACK, UNSUBACK).  Moving values, tests of local variables and sums of a fixed number of
    terms are not counted.  Growing the buffer (BytesMut reallocates, amortised) is not counted. *)
From Verif Require Import Types MLib MConnect MConnAck MPublish MPubAck MPubRec MPubRel MPubComp
  MSubscribe MSubAck MUnsubscribe MUnsubAck MDisconnect MPing Model.

Definition CW (A : Type) : Type := bytes -> N * (res A * bytes).
Definition cwbind {A B} (w : CW A) (k : A -> CW B) : CW B := fun b =>
  match snd (w b) with
  | (Ok a, b') => (fst (w b) + fst (k a b'), snd (k a b'))
  | (Err e, b') => (fst (w b), (Err e, b'))
  | (Panic, b') => (fst (w b), (Panic, b'))
  | (Diverge, b') => (fst (w b), (Diverge, b'))
  end.
Notation "'let!' p <- e ; k" := (cwbind e (fun p => k))
  (at level 200, p pattern, e at level 100, k at level 200).
Notation "'do!' e ; k" := (cwbind e (fun _ => k)) (at level 200, e at level 100, k at level 200).
(** [n] steps. *)
Definition tick (n : N) : CW unit := fun b => (n, (Ok tt, b)).
(** A writer of the model that takes [n] steps. *)
Definition taking {A} (n : N) (w : W A) : CW A := fun b => (n, w b).

Definition c_wret {A} (a : A) : CW A := taking 0 (wret a).
Definition c_wfail {A} (e : error) : CW A := taking 0 (wfail e).
Definition c_wlift {A} (r : res A) : CW A := taking 1 (wlift r).
Definition c_put_slice (s : bytes) : CW unit := taking (1 + blen s) (put_slice s).
Definition c_put_u8 (x : N) : CW unit := taking 2 (put_u8 x).
Definition c_put_u16 (x : N) : CW unit := taking 3 (put_u16 x).
Definition c_put_u32 (x : N) : CW unit := taking 5 (put_u32 x).
Definition c_set_index (i v : N) : CW unit := taking 1 (set_index i v).
(** `iter().map(code).collect()` and `extend_from_slice`. *)
Definition c_put_codes (s : bytes) : CW unit := do! tick (2 * blen s); c_put_slice s.
Fixpoint c_wfor {A} (l : list A) (f : A -> CW unit) : CW unit :=
  match l with
  | [] => c_wret tt
  | x :: l => do! f x; c_wfor l f
  end.
Definition c_wopt {A} (o : option A) (f : A -> CW unit) : CW unit :=
  match o with Some x => f x | None => c_wret tt end.

(** Counted: /repo/src/lib.rs:521-530 fn write_mqtt_bytes. *)
Definition c_write_mqtt_bytes (s : bytes) : CW unit :=
  if blen s <=? 65535
  then do! c_put_u16 (blen s); c_put_slice s
  else c_wfail BinaryDataTooLong.
(** Counted: /repo/src/lib.rs:532-542 fn write_mqtt_string. *)
Definition c_write_mqtt_string (s : bytes) : CW unit := c_write_mqtt_bytes s.
(** Counted: /repo/src/lib.rs:554-567. *)
Fixpoint c_write_rl_loop (fuel : nat) (x count : N) : CW N :=
  match fuel with
  | O => fun b => (0, (Diverge, b))
  | S fuel =>
      let byte := x mod 128 in
      let x := x / 128 in
      let byte := if 0 <? x then N.lor byte 128 else byte in
      do! c_put_u8 byte;
      let count := count + 1 in
      if x =? 0 then c_wret count else c_write_rl_loop fuel x count
  end.
(** Counted: /repo/src/lib.rs:545-568 fn write_remaining_length. *)
Definition c_write_remaining_length (len : N) : CW N :=
  if 268435455 <? len then c_wfail PayloadTooLong
  else c_write_rl_loop 10 len 0.
(** Counted: the `for (key, value) in &self.user_properties` loop of every *Properties::write. *)
Definition c_write_user_props (l : user_props) : CW unit :=
  c_wfor l (fun '(k, v) =>
    do! c_put_u8 (prop_code UserProperty);
    do! c_write_mqtt_string k;
    c_write_mqtt_string v).

(** Steps of *Properties::len (/repo/src/connect.rs:254-294, 442-474, connack.rs:136-208,
    publish.rs:143-179, puback.rs:136-148, ...): one, and one for each element of a list. *)
Definition elements {A} (l : list A) : N := N.of_nat (length l).
Definition l_ConnectProperties (p : ConnectProperties) : N := 1 + elements (cp_user_properties p).
Definition l_LastWillProperties (p : LastWillProperties) : N := 1 + elements (wp_user_properties p).
Definition l_ConnAckProperties (p : ConnAckProperties) : N := 1 + elements (ca_user_properties p).
Definition l_PublishProperties (p : PublishProperties) : N :=
  1 + elements (pp_user_properties p) + elements (pp_subscription_identifiers p).
Definition l_PubAckProperties (p : PubAckProperties) : N := 1 + elements (pap_user_properties p).
Definition l_PubRecProperties (p : PubRecProperties) : N := 1 + elements (prp_user_properties p).
Definition l_PubRelProperties (p : PubRelProperties) : N := 1 + elements (plp_user_properties p).
Definition l_PubCompProperties (p : PubCompProperties) : N := 1 + elements (pcp_user_properties p).
Definition l_SubscribeProperties (p : SubscribeProperties) : N := 1 + elements (sp_user_properties p).
Definition l_SubAckProperties (p : SubAckProperties) : N := 1 + elements (sap_user_properties p).
Definition l_UnsubscribeProperties (p : UnsubscribeProperties) : N := 1 + elements (usp_user_properties p).
Definition l_UnsubAckProperties (p : UnsubAckProperties) : N := 1 + elements (uap_user_properties p).
Definition l_DisconnectProperties (p : DisconnectProperties) : N := 1 + elements (dp_user_properties p).
Definition l_opt {A} (f : A -> N) (o : option A) : N := match o with Some x => f x | None => 0 end.
(** Steps of the `len()` of the packets (/repo/src/connect.rs:62-90, 367-381, 621-633, connack.rs:50-63,
    publish.rs:45-62, puback.rs:52-70, ..., subscribe.rs:46-59, 126-128, unsubscribe.rs:34-49). *)
Definition l_Connect (c : Connect) (will : option LastWill) (l : option Login) : N :=
  1 + l_opt l_ConnectProperties (co_properties c)
  + l_opt (fun w => 1 + l_opt l_LastWillProperties (lw_properties w)) will + l_opt (fun _ => 1) l.
Definition l_ConnAck (a : ConnAck) : N := 1 + l_opt l_ConnAckProperties (ck_properties a).
Definition l_Publish (p : Publish) : N := 1 + l_opt l_PublishProperties (pu_properties p).
Definition l_PubAck (a : PubAck) : N := 1 + l_opt l_PubAckProperties (pa_properties a).
Definition l_PubRec (a : PubRec) : N := 1 + l_opt l_PubRecProperties (pr_properties a).
Definition l_PubRel (a : PubRel) : N := 1 + l_opt l_PubRelProperties (pl_properties a).
Definition l_PubComp (a : PubComp) : N := 1 + l_opt l_PubCompProperties (pc_properties a).
Definition l_Subscribe (s : Subscribe) : N :=
  1 + elements (su_filters s) + l_opt l_SubscribeProperties (su_properties s).
Definition l_SubAck (a : SubAck) : N := 1 + l_opt l_SubAckProperties (sa_properties a).
Definition l_Unsubscribe (u : Unsubscribe) : N :=
  1 + elements (un_filters u) + l_opt l_UnsubscribeProperties (un_properties u).
Definition l_UnsubAck (a : UnsubAck) : N := 1 + l_opt l_UnsubAckProperties (ua_properties a).
Definition l_Disconnect (d : Disconnect) : N := 1 + l_opt l_DisconnectProperties (di_properties d).

(** Counted: /repo/src/connect.rs:296-347 ConnectProperties::write. *)
Definition c_ConnectProperties_write (p : ConnectProperties) : CW unit :=
  do! tick (l_ConnectProperties p);
  do! c_write_remaining_length (ConnectProperties_len p);
  do! c_wopt (cp_session_expiry_interval p) (fun v =>
        do! c_put_u8 (prop_code SessionExpiryInterval); c_put_u32 v);
  do! c_wopt (cp_receive_maximum p) (fun v =>
        do! c_put_u8 (prop_code ReceiveMaximum); c_put_u16 v);
  do! c_wopt (cp_max_packet_size p) (fun v =>
        do! c_put_u8 (prop_code MaximumPacketSize); c_put_u32 v);
  do! c_wopt (cp_topic_alias_max p) (fun v =>
        do! c_put_u8 (prop_code TopicAliasMaximum); c_put_u16 v);
  do! c_wopt (cp_request_response_info p) (fun v =>
        do! c_put_u8 (prop_code RequestResponseInformation); c_put_u8 v);
  do! c_wopt (cp_request_problem_info p) (fun v =>
        do! c_put_u8 (prop_code RequestProblemInformation); c_put_u8 v);
  do! c_write_user_props (cp_user_properties p);
  do! c_wopt (cp_authentication_method p) (fun v =>
        do! c_put_u8 (prop_code AuthenticationMethod); c_write_mqtt_string v);
  c_wopt (cp_authentication_data p) (fun v =>
        do! c_put_u8 (prop_code AuthenticationData); c_write_mqtt_bytes v).

(** Counted: /repo/src/connect.rs:546-587 LastWillProperties::write. *)
Definition c_LastWillProperties_write (p : LastWillProperties) : CW unit :=
  do! tick (l_LastWillProperties p);
  do! c_write_remaining_length (LastWillProperties_len p);
  do! c_wopt (wp_delay_interval p) (fun v =>
        do! c_put_u8 (prop_code WillDelayInterval); c_put_u32 v);
  do! c_wopt (wp_payload_format_indicator p) (fun v =>
        do! c_put_u8 (prop_code PayloadFormatIndicator); c_put_u8 v);
  do! c_wopt (wp_message_expiry_interval p) (fun v =>
        do! c_put_u8 (prop_code MessageExpiryInterval); c_put_u32 v);
  do! c_wopt (wp_content_type p) (fun v =>
        do! c_put_u8 (prop_code ContentType); c_write_mqtt_string v);
  do! c_wopt (wp_response_topic p) (fun v =>
        do! c_put_u8 (prop_code ResponseTopic); c_write_mqtt_string v);
  do! c_wopt (wp_correlation_data p) (fun v =>
        do! c_put_u8 (prop_code CorrelationData); c_write_mqtt_bytes v);
  c_write_user_props (wp_user_properties p).

(** Counted: /repo/src/connect.rs:410-428 LastWill::write (returns the connect flags). *)
Definition c_LastWill_write (w : LastWill) : CW N :=
  let connect_flags := N.lor 0 (N.lor 4 (N.shiftl (qos_u8 (lw_qos w)) 3)) in
  let connect_flags := if lw_retain w then N.lor connect_flags 32 else connect_flags in
  do! (match lw_properties w with
       | Some p => c_LastWillProperties_write p
       | None => do! c_write_remaining_length 0; c_wret tt
       end);
  do! c_write_mqtt_bytes (lw_topic w);
  do! c_write_mqtt_bytes (lw_message w);
  c_wret connect_flags.

(** Counted: /repo/src/connect.rs:635-648 Login::write (returns the connect flags). *)
Definition c_Login_write (l : Login) : CW N :=
  let! flags <- (if negb (is_empty (lo_username l))
               then do! c_write_mqtt_string (lo_username l); c_wret (N.lor 0 128)
               else c_wret 0);
  (if negb (is_empty (lo_password l))
   then do! c_write_mqtt_string (lo_password l); c_wret (N.lor flags 64)
   else c_wret flags).

(** Counted: /repo/src/connect.rs:92-135 Connect::write.  The flags byte is patched with
    `buffer[flags_index] = connect_flags`, an index from the start of the buffer. *)
Definition c_Connect_write (c : Connect) (will : option LastWill) (l : option Login) : CW N :=
  do! tick (l_Connect c will l);
  let len := Connect_len c will l in
  do! c_put_u8 16;
  let! count <- c_write_remaining_length len;
  do! c_write_mqtt_string str_MQTT;
  do! c_put_u8 5;
  let flags_index := 1 + count + 2 + 4 + 1 in
  let connect_flags := if co_clean_start c then N.lor 0 2 else 0 in
  do! c_put_u8 connect_flags;
  do! c_put_u16 (co_keep_alive c);
  do! (match co_properties c with
       | Some p => c_ConnectProperties_write p
       | None => do! c_write_remaining_length 0; c_wret tt
       end);
  do! c_write_mqtt_string (co_client_id c);
  let! connect_flags <- (match will with
                       | Some w => let! f <- c_LastWill_write w; c_wret (N.lor connect_flags f)
                       | None => c_wret connect_flags
                       end);
  let! connect_flags <- (match l with
                       | Some l => let! f <- c_Login_write l; c_wret (N.lor connect_flags f)
                       | None => c_wret connect_flags
                       end);
  do! c_set_index flags_index connect_flags;
  c_wret (1 + count + len).

(** Counted: /repo/src/connack.rs:344-435 ConnAckProperties::write. *)
Definition c_ConnAckProperties_write (p : ConnAckProperties) : CW unit :=
  do! tick (l_ConnAckProperties p);
  do! c_write_remaining_length (ConnAckProperties_len p);
  do! c_wopt (ca_session_expiry_interval p) (fun v =>
        do! c_put_u8 (prop_code SessionExpiryInterval); c_put_u32 v);
  do! c_wopt (ca_receive_max p) (fun v =>
        do! c_put_u8 (prop_code ReceiveMaximum); c_put_u16 v);
  do! c_wopt (ca_max_qos p) (fun v =>
        do! c_put_u8 (prop_code MaximumQos); c_put_u8 v);
  do! c_wopt (ca_retain_available p) (fun v =>
        do! c_put_u8 (prop_code RetainAvailable); c_put_u8 v);
  do! c_wopt (ca_max_packet_size p) (fun v =>
        do! c_put_u8 (prop_code MaximumPacketSize); c_put_u32 v);
  do! c_wopt (ca_assigned_client_identifier p) (fun v =>
        do! c_put_u8 (prop_code AssignedClientIdentifier); c_write_mqtt_string v);
  do! c_wopt (ca_topic_alias_max p) (fun v =>
        do! c_put_u8 (prop_code TopicAliasMaximum); c_put_u16 v);
  do! c_wopt (ca_reason_string p) (fun v =>
        do! c_put_u8 (prop_code ReasonString); c_write_mqtt_string v);
  do! c_write_user_props (ca_user_properties p);
  do! c_wopt (ca_wildcard_subscription_available p) (fun v =>
        do! c_put_u8 (prop_code WildcardSubscriptionAvailable); c_put_u8 v);
  do! c_wopt (ca_subscription_identifiers_available p) (fun v =>
        do! c_put_u8 (prop_code SubscriptionIdentifierAvailable); c_put_u8 v);
  do! c_wopt (ca_shared_subscription_available p) (fun v =>
        do! c_put_u8 (prop_code SharedSubscriptionAvailable); c_put_u8 v);
  do! c_wopt (ca_server_keep_alive p) (fun v =>
        do! c_put_u8 (prop_code ServerKeepAlive); c_put_u16 v);
  do! c_wopt (ca_response_information p) (fun v =>
        do! c_put_u8 (prop_code ResponseInformation); c_write_mqtt_string v);
  do! c_wopt (ca_server_reference p) (fun v =>
        do! c_put_u8 (prop_code ServerReference); c_write_mqtt_string v);
  do! c_wopt (ca_authentication_method p) (fun v =>
        do! c_put_u8 (prop_code AuthenticationMethod); c_write_mqtt_string v);
  c_wopt (ca_authentication_data p) (fun v =>
        do! c_put_u8 (prop_code AuthenticationData); c_write_mqtt_bytes v).

(** Counted: /repo/src/connack.rs:91-106 ConnAck::write. *)
Definition c_ConnAck_write (a : ConnAck) : CW N :=
  do! tick (l_ConnAck a);
  let len := ConnAck_len a in
  do! c_put_u8 32;
  let! count <- c_write_remaining_length len;
  do! c_put_u8 (bool_u8 (ck_session_present a));
  let! code <- c_wlift (connect_code (ck_code a));
  do! c_put_u8 code;
  do! (match ck_properties a with
       | Some p => c_ConnAckProperties_write p
       | None => do! c_write_remaining_length 0; c_wret tt
       end);
  c_wret (1 + count + len).

(** Counted: /repo/src/publish.rs:259-305 PublishProperties::write. *)
Definition c_PublishProperties_write (p : PublishProperties) : CW unit :=
  do! tick (l_PublishProperties p);
  do! c_write_remaining_length (PublishProperties_len p);
  do! c_wopt (pp_payload_format_indicator p) (fun v =>
        do! c_put_u8 (prop_code PayloadFormatIndicator); c_put_u8 v);
  do! c_wopt (pp_message_expiry_interval p) (fun v =>
        do! c_put_u8 (prop_code MessageExpiryInterval); c_put_u32 v);
  do! c_wopt (pp_topic_alias p) (fun v =>
        do! c_put_u8 (prop_code TopicAlias); c_put_u16 v);
  do! c_wopt (pp_response_topic p) (fun v =>
        do! c_put_u8 (prop_code ResponseTopic); c_write_mqtt_string v);
  do! c_wopt (pp_correlation_data p) (fun v =>
        do! c_put_u8 (prop_code CorrelationData); c_write_mqtt_bytes v);
  do! c_write_user_props (pp_user_properties p);
  do! c_wfor (pp_subscription_identifiers p) (fun id =>
        do! c_put_u8 (prop_code SubscriptionIdentifier);
        do! c_write_remaining_length id; c_wret tt);
  c_wopt (pp_content_type p) (fun v =>
        do! c_put_u8 (prop_code ContentType); c_write_mqtt_string v).

(** Counted: /repo/src/publish.rs:98-127 Publish::write. *)
Definition c_Publish_write (p : Publish) : CW N :=
  do! tick (l_Publish p);
  let len := Publish_len p in
  let dup := bool_u8 (pu_dup p) in
  let qos := qos_u8 (pu_qos p) in
  let retain := bool_u8 (pu_retain p) in
  do! c_put_u8 (N.lor (N.lor (N.lor 48 retain) (N.shiftl qos 1)) (N.shiftl dup 3));
  let! count <- c_write_remaining_length len;
  do! c_write_mqtt_string (pu_topic p);
  do! (if negb (QoS_eqb (pu_qos p) AtMostOnce)
       then if pu_pkid p =? 0 then c_wfail PacketIdZero else c_put_u16 (pu_pkid p)
       else c_wret tt);
  do! (match pu_properties p with
       | Some q => c_PublishProperties_write q
       | None => do! c_write_remaining_length 0; c_wret tt
       end);
  do! c_put_slice (pu_payload p);
  c_wret (1 + count + len).

(** Counted: /repo/src/puback.rs:188-204 PubAckProperties::write. *)
Definition c_PubAckProperties_write (p : PubAckProperties) : CW unit :=
  do! tick (l_PubAckProperties p);
  do! c_write_remaining_length (PubAckProperties_len p);
  do! c_wopt (pap_reason_string p) (fun v =>
        do! c_put_u8 (prop_code ReasonString); c_write_mqtt_string v);
  c_write_user_props (pap_user_properties p).

(** Counted: /repo/src/puback.rs:106-126 PubAck::write. *)
Definition c_PubAck_write (a : PubAck) : CW N :=
  do! tick (l_PubAck a);
  let len := PubAck_len a in
  do! c_put_u8 64;
  let! count <- c_write_remaining_length len;
  do! c_put_u16 (pa_pkid a);
  if PubAck_is_short a then c_wret 4 else
  do! c_put_u8 (PubAck_code (pa_reason a));
  do! (match pa_properties a with
       | Some p => c_PubAckProperties_write p
       | None => do! c_write_remaining_length 0; c_wret tt
       end);
  c_wret (1 + count + len).

(** Counted: /repo/src/pubrec.rs:183-199 PubRecProperties::write. *)
Definition c_PubRecProperties_write (p : PubRecProperties) : CW unit :=
  do! tick (l_PubRecProperties p);
  do! c_write_remaining_length (PubRecProperties_len p);
  do! c_wopt (prp_reason_string p) (fun v =>
        do! c_put_u8 (prop_code ReasonString); c_write_mqtt_string v);
  c_write_user_props (prp_user_properties p).

(** Counted: /repo/src/pubrec.rs:101-121 PubRec::write. *)
Definition c_PubRec_write (a : PubRec) : CW N :=
  do! tick (l_PubRec a);
  let len := PubRec_len a in
  do! c_put_u8 80;
  let! count <- c_write_remaining_length len;
  do! c_put_u16 (pr_pkid a);
  if PubRec_is_short a then c_wret 4 else
  do! c_put_u8 (PubRec_code (pr_reason a));
  do! (match pr_properties a with
       | Some p => c_PubRecProperties_write p
       | None => do! c_write_remaining_length 0; c_wret tt
       end);
  c_wret (1 + count + len).

(** Counted: /repo/src/pubrel.rs:182-198 PubRelProperties::write. *)
Definition c_PubRelProperties_write (p : PubRelProperties) : CW unit :=
  do! tick (l_PubRelProperties p);
  do! c_write_remaining_length (PubRelProperties_len p);
  do! c_wopt (plp_reason_string p) (fun v =>
        do! c_put_u8 (prop_code ReasonString); c_write_mqtt_string v);
  c_write_user_props (plp_user_properties p).

(** Counted: /repo/src/pubrel.rs:100-120 PubRel::write. *)
Definition c_PubRel_write (a : PubRel) : CW N :=
  do! tick (l_PubRel a);
  let len := PubRel_len a in
  do! c_put_u8 98;
  let! count <- c_write_remaining_length len;
  do! c_put_u16 (pl_pkid a);
  if PubRel_is_short a then c_wret 4 else
  do! c_put_u8 (PubRel_code (pl_reason a));
  do! (match pl_properties a with
       | Some p => c_PubRelProperties_write p
       | None => do! c_write_remaining_length 0; c_wret tt
       end);
  c_wret (1 + count + len).

(** Counted: /repo/src/pubcomp.rs:181-197 PubCompProperties::write. *)
Definition c_PubCompProperties_write (p : PubCompProperties) : CW unit :=
  do! tick (l_PubCompProperties p);
  do! c_write_remaining_length (PubCompProperties_len p);
  do! c_wopt (pcp_reason_string p) (fun v =>
        do! c_put_u8 (prop_code ReasonString); c_write_mqtt_string v);
  c_write_user_props (pcp_user_properties p).

(** Counted: /repo/src/pubcomp.rs:99-119 PubComp::write. *)
Definition c_PubComp_write (a : PubComp) : CW N :=
  do! tick (l_PubComp a);
  let len := PubComp_len a in
  do! c_put_u8 112;
  let! count <- c_write_remaining_length len;
  do! c_put_u16 (pc_pkid a);
  if PubComp_is_short a then c_wret 4 else
  do! c_put_u8 (PubComp_code (pc_reason a));
  do! (match pc_properties a with
       | Some p => c_PubCompProperties_write p
       | None => do! c_write_remaining_length 0; c_wret tt
       end);
  c_wret (1 + count + len).

(** Counted: /repo/src/subscribe.rs:265-281 SubscribeProperties::write. *)
Definition c_SubscribeProperties_write (p : SubscribeProperties) : CW unit :=
  do! tick (l_SubscribeProperties p);
  do! c_write_remaining_length (SubscribeProperties_len p);
  do! c_wopt (sp_id p) (fun id =>
        do! c_put_u8 (prop_code SubscriptionIdentifier);
        do! c_write_remaining_length id; c_wret tt);
  c_write_user_props (sp_user_properties p).

(** Counted: /repo/src/subscribe.rs:166-187 Filter::write. *)
Definition c_Filter_write (f : Filter) : CW unit :=
  let options := N.lor 0 (qos_u8 (fi_qos f)) in
  let options := if fi_nolocal f then N.lor options 4 else options in
  let options := if fi_preserve_retain f then N.lor options 8 else options in
  let options := N.lor options (match fi_retain_forward_rule f with
                                | OnEverySubscribe => 0
                                | OnNewSubscribe => 16
                                | Never => 32
                                end) in
  do! c_write_mqtt_string (fi_path f);
  c_put_u8 options.

(** Counted: /repo/src/subscribe.rs:81-104 Subscribe::write. *)
Definition c_Subscribe_write (s : Subscribe) : CW N :=
  do! c_put_u8 130;
  do! tick (l_Subscribe s);
  let remaining_len := Subscribe_len s in
  let! remaining_len_bytes <- c_write_remaining_length remaining_len;
  do! c_put_u16 (su_pkid s);
  do! (match su_properties s with
       | Some p => c_SubscribeProperties_write p
       | None => do! c_write_remaining_length 0; c_wret tt
       end);
  do! c_wfor (su_filters s) c_Filter_write;
  c_wret (1 + remaining_len_bytes + remaining_len).

(** Counted: /repo/src/suback.rs:160-176 SubAckProperties::write. *)
Definition c_SubAckProperties_write (p : SubAckProperties) : CW unit :=
  do! tick (l_SubAckProperties p);
  do! c_write_remaining_length (SubAckProperties_len p);
  do! c_wopt (sap_reason_string p) (fun v =>
        do! c_put_u8 (prop_code ReasonString); c_write_mqtt_string v);
  c_write_user_props (sap_user_properties p).

(** Counted: /repo/src/suback.rs:67-84 SubAck::write. *)
Definition c_SubAck_write (a : SubAck) : CW N :=
  do! c_put_u8 144;
  do! tick (l_SubAck a);
  let remaining_len := SubAck_len a in
  let! remaining_len_bytes <- c_write_remaining_length remaining_len;
  do! c_put_u16 (sa_pkid a);
  do! (match sa_properties a with
       | Some p => c_SubAckProperties_write p
       | None => do! c_write_remaining_length 0; c_wret tt
       end);
  do! c_put_codes (map SubAck_code (sa_return_codes a));
  c_wret (1 + remaining_len_bytes + remaining_len).

(** Counted: /repo/src/unsubscribe.rs:143-154 UnsubscribeProperties::write. *)
Definition c_UnsubscribeProperties_write (p : UnsubscribeProperties) : CW unit :=
  do! tick (l_UnsubscribeProperties p);
  do! c_write_remaining_length (UnsubscribeProperties_len p);
  c_write_user_props (usp_user_properties p).

(** Counted: /repo/src/unsubscribe.rs:72-94 Unsubscribe::write. *)
Definition c_Unsubscribe_write (u : Unsubscribe) : CW N :=
  do! c_put_u8 162;
  do! tick (l_Unsubscribe u);
  let remaining_len := Unsubscribe_len u in
  let! remaining_len_bytes <- c_write_remaining_length remaining_len;
  do! c_put_u16 (un_pkid u);
  do! (match un_properties u with
       | Some p => c_UnsubscribeProperties_write p
       | None => do! c_write_remaining_length 0; c_wret tt
       end);
  do! c_wfor (un_filters u) c_write_mqtt_string;
  c_wret (1 + remaining_len_bytes + remaining_len).

(** Counted: /repo/src/unsuback.rs:157-173 UnsubAckProperties::write. *)
Definition c_UnsubAckProperties_write (p : UnsubAckProperties) : CW unit :=
  do! tick (l_UnsubAckProperties p);
  do! c_write_remaining_length (UnsubAckProperties_len p);
  do! c_wopt (uap_reason_string p) (fun v =>
        do! c_put_u8 (prop_code ReasonString); c_write_mqtt_string v);
  c_write_user_props (uap_user_properties p).

(** Counted: /repo/src/unsuback.rs:67-83 UnsubAck::write. *)
Definition c_UnsubAck_write (a : UnsubAck) : CW N :=
  do! c_put_u8 176;
  do! tick (l_UnsubAck a);
  let remaining_len := UnsubAck_len a in
  let! remaining_len_bytes <- c_write_remaining_length remaining_len;
  do! c_put_u16 (ua_pkid a);
  do! (match ua_properties a with
       | Some p => c_UnsubAckProperties_write p
       | None => do! c_write_remaining_length 0; c_wret tt
       end);
  do! c_put_codes (map UnsubAck_code (ua_reasons a));
  c_wret (1 + remaining_len_bytes + remaining_len).

(** Counted: /repo/src/disconnect.rs:221-247 DisconnectProperties::write. *)
Definition c_DisconnectProperties_write (p : DisconnectProperties) : CW unit :=
  do! tick (l_DisconnectProperties p);
  do! c_write_remaining_length (DisconnectProperties_len p);
  do! c_wopt (dp_session_expiry_interval p) (fun v =>
        do! c_put_u8 (prop_code SessionExpiryInterval); c_put_u32 v);
  do! c_wopt (dp_reason_string p) (fun v =>
        do! c_put_u8 (prop_code ReasonString); c_write_mqtt_string v);
  do! c_write_user_props (dp_user_properties p);
  c_wopt (dp_server_reference p) (fun v =>
        do! c_put_u8 (prop_code ServerReference); c_write_mqtt_string v).

(** Counted: /repo/src/disconnect.rs:321-342 Disconnect::write. *)
Definition c_Disconnect_write (d : Disconnect) : CW N :=
  do! c_put_u8 224;
  do! tick (l_Disconnect d);
  let length := Disconnect_len d in
  if length =? 2 then do! c_put_u8 0; c_wret length
  else
    let! len_len <- c_write_remaining_length length;
    do! c_put_u8 (DisconnectReasonCode_u8 (di_reason_code d));
    do! (match di_properties d with
         | Some p => c_DisconnectProperties_write p
         | None => do! c_write_remaining_length 0; c_wret tt
         end);
    c_wret (1 + len_len + length).

(** Counted: /repo/src/ping.rs:8-11 PingReq::write. *)
Definition c_PingReq_write : CW N := do! c_put_slice [192; 0]; c_wret 2.

(** Counted: /repo/src/ping.rs:18-21 PingResp::write. *)
Definition c_PingResp_write : CW N := do! c_put_slice [208; 0]; c_wret 2.

(** Counted: /repo/src/lib.rs:218-235 Packet::write. *)
Definition c_Packet_write (p : Packet) : CW N :=
  match p with
  | P_Publish publish => c_Publish_write publish
  | P_Subscribe subscription => c_Subscribe_write subscription
  | P_Unsubscribe unsubscribe => c_Unsubscribe_write unsubscribe
  | P_ConnAck ack => c_ConnAck_write ack
  | P_PubAck ack => c_PubAck_write ack
  | P_SubAck ack => c_SubAck_write ack
  | P_UnsubAck unsuback => c_UnsubAck_write unsuback
  | P_PubRec pubrec => c_PubRec_write pubrec
  | P_PubRel pubrel => c_PubRel_write pubrel
  | P_PubComp pubcomp => c_PubComp_write pubcomp
  | P_Connect connect will login => c_Connect_write connect will login
  | P_PingReq => c_PingReq_write
  | P_PingResp => c_PingResp_write
  | P_Disconnect disconnect => c_Disconnect_write disconnect
  end.
