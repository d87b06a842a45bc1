(** Builds with overflow checks (debug builds, or overflow-checks = true): the functions of the model
    that compute sizes while writing, and the framing, with an addition of usize that panics when the
    sum is not less than [M], the number of values of usize.  Every definition is a copy of the
    definition of the same name (without the final d), with sums in [res N]: a sum is Ok and exact, or
    Panic.  A length that is bound with let in the original is bound in the same place here, so that a
    panic happens after the same bytes.  The readers of packets check their additions themselves
    (MLib.usize_add) and need no copy. *)
From Verif Require Import Types Model.

Section Checked.
Context (M : N).

(** `a + b` of two usize expressions: the panics of [a] and [b], then that of the sum. *)
Definition cadd (a b : res N) : res N :=
  let? x := a in
  let? y := b in
  if x + y <? M then Ok (x + y) else Panic.
Local Infix "+" := cadd : N_scope.

(** /repo/src/lib.rs:572-584 len_len of a computed length. *)
Definition len_len_d (len : res N) : res N := let? n := len in Ok (len_len n).
(** As MConnect.len_if_some. *)
Definition len_if_some_d (o : option N) (n : res N) : res N :=
  match o with Some _ => n | None => Ok 0 end.

(** Total of `1 + 2 + key.len() + 2 + value.len()` over the user properties: the
    `for (key, value) in &self.user_properties` loop of every *Properties::len. *)
Definition user_props_len_d (l : user_props) : res N :=
  fold_left (fun len '(k, v) => len + (Ok 1 + Ok 2 + Ok (blen k) + Ok 2 + Ok (blen v))) l (Ok 0).

(** As in MConnect.v. *)
Definition len_str_d (o : option bytes) : res N := match o with Some s => Ok 1 + Ok 2 + Ok (blen s) | None => Ok 0 end.

(** /repo/src/connect.rs:254-294 ConnectProperties::len. *)
Definition ConnectProperties_len_d (p : ConnectProperties) : res N :=
  len_if_some_d (cp_session_expiry_interval p) (Ok 1 + Ok 4)
  + len_if_some_d (cp_receive_maximum p) (Ok 1 + Ok 2)
  + len_if_some_d (cp_max_packet_size p) (Ok 1 + Ok 4)
  + len_if_some_d (cp_topic_alias_max p) (Ok 1 + Ok 2)
  + len_if_some_d (cp_request_response_info p) (Ok 1 + Ok 1)
  + len_if_some_d (cp_request_problem_info p) (Ok 1 + Ok 1)
  + user_props_len_d (cp_user_properties p)
  + len_str_d (cp_authentication_method p)
  + len_str_d (cp_authentication_data p).

(** /repo/src/connect.rs:296-347 ConnectProperties::write. *)
Definition ConnectProperties_write_d (p : ConnectProperties) : W unit :=
  do properties_len <- wlift (ConnectProperties_len_d p);
  do_ write_remaining_length properties_len;
  do_ wopt (cp_session_expiry_interval p) (fun v =>
        do_ put_u8 (prop_code SessionExpiryInterval); put_u32 v);
  do_ wopt (cp_receive_maximum p) (fun v =>
        do_ put_u8 (prop_code ReceiveMaximum); put_u16 v);
  do_ wopt (cp_max_packet_size p) (fun v =>
        do_ put_u8 (prop_code MaximumPacketSize); put_u32 v);
  do_ wopt (cp_topic_alias_max p) (fun v =>
        do_ put_u8 (prop_code TopicAliasMaximum); put_u16 v);
  do_ wopt (cp_request_response_info p) (fun v =>
        do_ put_u8 (prop_code RequestResponseInformation); put_u8 v);
  do_ wopt (cp_request_problem_info p) (fun v =>
        do_ put_u8 (prop_code RequestProblemInformation); put_u8 v);
  do_ write_user_props (cp_user_properties p);
  do_ wopt (cp_authentication_method p) (fun v =>
        do_ put_u8 (prop_code AuthenticationMethod); write_mqtt_string v);
  wopt (cp_authentication_data p) (fun v =>
        do_ put_u8 (prop_code AuthenticationData); write_mqtt_bytes v).

(** /repo/src/connect.rs:442-474 LastWillProperties::len. *)
Definition LastWillProperties_len_d (p : LastWillProperties) : res N :=
  len_if_some_d (wp_delay_interval p) (Ok 1 + Ok 4)
  + len_if_some_d (wp_payload_format_indicator p) (Ok 1 + Ok 1)
  + len_if_some_d (wp_message_expiry_interval p) (Ok 1 + Ok 4)
  + len_str_d (wp_content_type p)
  + len_str_d (wp_response_topic p)
  + len_str_d (wp_correlation_data p)
  + user_props_len_d (wp_user_properties p).

(** /repo/src/connect.rs:546-587 LastWillProperties::write. *)
Definition LastWillProperties_write_d (p : LastWillProperties) : W unit :=
  do properties_len <- wlift (LastWillProperties_len_d p);
  do_ write_remaining_length properties_len;
  do_ wopt (wp_delay_interval p) (fun v =>
        do_ put_u8 (prop_code WillDelayInterval); put_u32 v);
  do_ wopt (wp_payload_format_indicator p) (fun v =>
        do_ put_u8 (prop_code PayloadFormatIndicator); put_u8 v);
  do_ wopt (wp_message_expiry_interval p) (fun v =>
        do_ put_u8 (prop_code MessageExpiryInterval); put_u32 v);
  do_ wopt (wp_content_type p) (fun v =>
        do_ put_u8 (prop_code ContentType); write_mqtt_string v);
  do_ wopt (wp_response_topic p) (fun v =>
        do_ put_u8 (prop_code ResponseTopic); write_mqtt_string v);
  do_ wopt (wp_correlation_data p) (fun v =>
        do_ put_u8 (prop_code CorrelationData); write_mqtt_bytes v);
  write_user_props (wp_user_properties p).

(** /repo/src/connect.rs:367-381 LastWill::len. *)
Definition LastWill_len_d (w : LastWill) : res N :=
  (match lw_properties w with
   | Some p => let properties_len := LastWillProperties_len_d p in
               len_len_d properties_len + properties_len
   | None => Ok 1
   end) + (Ok 2 + Ok (blen (lw_topic w)) + Ok 2 + Ok (blen (lw_message w))).

(** /repo/src/connect.rs:410-428 LastWill::write (returns the connect flags). *)
Definition LastWill_write_d (w : LastWill) : W N :=
  let connect_flags := N.lor 0 (N.lor 4 (N.shiftl (qos_u8 (lw_qos w)) 3)) in
  let connect_flags := if lw_retain w then N.lor connect_flags 32 else connect_flags in
  do_ (match lw_properties w with
       | Some p => LastWillProperties_write_d p
       | None => do_ write_remaining_length 0; wret tt
       end);
  do_ write_mqtt_bytes (lw_topic w);
  do_ write_mqtt_bytes (lw_message w);
  wret connect_flags.

(** /repo/src/connect.rs:621-633 Login::len. *)
Definition Login_len_d (l : Login) : res N :=
  (if negb (is_empty (lo_username l)) then Ok 2 + Ok (blen (lo_username l)) else Ok 0)
  + (if negb (is_empty (lo_password l)) then Ok 2 + Ok (blen (lo_password l)) else Ok 0).

(** /repo/src/connect.rs:62-90 Connect::len. *)
Definition Connect_len_d (c : Connect) (will : option LastWill) (l : option Login) : res N :=
  (Ok 2 + Ok (blen str_MQTT) + Ok 1 + Ok 1 + Ok 2)
  + (match co_properties c with
     | Some p => let properties_len := ConnectProperties_len_d p in
                 len_len_d properties_len + properties_len
     | None => Ok 1
     end)
  + (Ok 2 + Ok (blen (co_client_id c)))
  + (match will with Some w => LastWill_len_d w | None => Ok 0 end)
  + (match l with Some l => Login_len_d l | None => Ok 0 end).

(** /repo/src/connect.rs:92-135 Connect::write.  The flags byte is patched with
    `buffer[flags_index] = connect_flags`, an index from the start of the buffer. *)
Definition Connect_write_d (c : Connect) (will : option LastWill) (l : option Login) : W N :=
  do len <- wlift (Connect_len_d c will l);
  do_ put_u8 16;
  do count <- write_remaining_length len;
  do_ write_mqtt_string str_MQTT;
  do_ put_u8 5;
  do flags_index <- wlift (Ok 1 + Ok count + Ok 2 + Ok 4 + Ok 1);
  let connect_flags := if co_clean_start c then N.lor 0 2 else 0 in
  do_ put_u8 connect_flags;
  do_ put_u16 (co_keep_alive c);
  do_ (match co_properties c with
       | Some p => ConnectProperties_write_d p
       | None => do_ write_remaining_length 0; wret tt
       end);
  do_ write_mqtt_string (co_client_id c);
  do connect_flags <- (match will with
                       | Some w => do f <- LastWill_write_d w; wret (N.lor connect_flags f)
                       | None => wret connect_flags
                       end);
  do connect_flags <- (match l with
                       | Some l => do f <- Login_write l; wret (N.lor connect_flags f)
                       | None => wret connect_flags
                       end);
  do_ set_index flags_index connect_flags;
  wlift (Ok 1 + Ok count + Ok len).

(** /repo/src/connack.rs:136-208 ConnAckProperties::len. *)
Definition ConnAckProperties_len_d (p : ConnAckProperties) : res N :=
  len_if_some_d (ca_session_expiry_interval p) (Ok 1 + Ok 4)
  + len_if_some_d (ca_receive_max p) (Ok 1 + Ok 2)
  + len_if_some_d (ca_max_qos p) (Ok 1 + Ok 1)
  + len_if_some_d (ca_retain_available p) (Ok 1 + Ok 1)
  + len_if_some_d (ca_max_packet_size p) (Ok 1 + Ok 4)
  + len_str_d (ca_assigned_client_identifier p)
  + len_if_some_d (ca_topic_alias_max p) (Ok 1 + Ok 2)
  + len_str_d (ca_reason_string p)
  + user_props_len_d (ca_user_properties p)
  + len_if_some_d (ca_wildcard_subscription_available p) (Ok 1 + Ok 1)
  + len_if_some_d (ca_subscription_identifiers_available p) (Ok 1 + Ok 1)
  + len_if_some_d (ca_shared_subscription_available p) (Ok 1 + Ok 1)
  + len_if_some_d (ca_server_keep_alive p) (Ok 1 + Ok 2)
  + len_str_d (ca_response_information p)
  + len_str_d (ca_server_reference p)
  + len_str_d (ca_authentication_method p)
  + len_str_d (ca_authentication_data p).

(** /repo/src/connack.rs:344-435 ConnAckProperties::write. *)
Definition ConnAckProperties_write_d (p : ConnAckProperties) : W unit :=
  do properties_len <- wlift (ConnAckProperties_len_d p);
  do_ write_remaining_length properties_len;
  do_ wopt (ca_session_expiry_interval p) (fun v =>
        do_ put_u8 (prop_code SessionExpiryInterval); put_u32 v);
  do_ wopt (ca_receive_max p) (fun v =>
        do_ put_u8 (prop_code ReceiveMaximum); put_u16 v);
  do_ wopt (ca_max_qos p) (fun v =>
        do_ put_u8 (prop_code MaximumQos); put_u8 v);
  do_ wopt (ca_retain_available p) (fun v =>
        do_ put_u8 (prop_code RetainAvailable); put_u8 v);
  do_ wopt (ca_max_packet_size p) (fun v =>
        do_ put_u8 (prop_code MaximumPacketSize); put_u32 v);
  do_ wopt (ca_assigned_client_identifier p) (fun v =>
        do_ put_u8 (prop_code AssignedClientIdentifier); write_mqtt_string v);
  do_ wopt (ca_topic_alias_max p) (fun v =>
        do_ put_u8 (prop_code TopicAliasMaximum); put_u16 v);
  do_ wopt (ca_reason_string p) (fun v =>
        do_ put_u8 (prop_code ReasonString); write_mqtt_string v);
  do_ write_user_props (ca_user_properties p);
  do_ wopt (ca_wildcard_subscription_available p) (fun v =>
        do_ put_u8 (prop_code WildcardSubscriptionAvailable); put_u8 v);
  do_ wopt (ca_subscription_identifiers_available p) (fun v =>
        do_ put_u8 (prop_code SubscriptionIdentifierAvailable); put_u8 v);
  do_ wopt (ca_shared_subscription_available p) (fun v =>
        do_ put_u8 (prop_code SharedSubscriptionAvailable); put_u8 v);
  do_ wopt (ca_server_keep_alive p) (fun v =>
        do_ put_u8 (prop_code ServerKeepAlive); put_u16 v);
  do_ wopt (ca_response_information p) (fun v =>
        do_ put_u8 (prop_code ResponseInformation); write_mqtt_string v);
  do_ wopt (ca_server_reference p) (fun v =>
        do_ put_u8 (prop_code ServerReference); write_mqtt_string v);
  do_ wopt (ca_authentication_method p) (fun v =>
        do_ put_u8 (prop_code AuthenticationMethod); write_mqtt_string v);
  wopt (ca_authentication_data p) (fun v =>
        do_ put_u8 (prop_code AuthenticationData); write_mqtt_bytes v).

(** /repo/src/connack.rs:50-63 ConnAck::len. *)
Definition ConnAck_len_d (a : ConnAck) : res N :=
  (Ok 1 + Ok 1)
  + (match ck_properties a with
     | Some p => let properties_len := ConnAckProperties_len_d p in
                 len_len_d properties_len + properties_len
     | None => Ok 1
     end).

(** /repo/src/connack.rs:65-70 ConnAck::size. *)
Definition ConnAck_size_d (a : ConnAck) : res N :=
  let len := ConnAck_len_d a in Ok 1 + len_len_d len + len.

(** /repo/src/connack.rs:91-106 ConnAck::write. *)
Definition ConnAck_write_d (a : ConnAck) : W N :=
  do len <- wlift (ConnAck_len_d a);
  do_ put_u8 32;
  do count <- write_remaining_length len;
  do_ put_u8 (bool_u8 (ck_session_present a));
  do code <- wlift (connect_code (ck_code a));
  do_ put_u8 code;
  do_ (match ck_properties a with
       | Some p => ConnAckProperties_write_d p
       | None => do_ write_remaining_length 0; wret tt
       end);
  wlift (Ok 1 + Ok count + Ok len).

(** /repo/src/publish.rs:143-179 PublishProperties::len. *)
Definition PublishProperties_len_d (p : PublishProperties) : res N :=
  len_if_some_d (pp_payload_format_indicator p) (Ok 1 + Ok 1)
  + len_if_some_d (pp_message_expiry_interval p) (Ok 1 + Ok 4)
  + len_if_some_d (pp_topic_alias p) (Ok 1 + Ok 2)
  + len_str_d (pp_response_topic p)
  + len_str_d (pp_correlation_data p)
  + user_props_len_d (pp_user_properties p)
  + fold_left (fun len id => len + (Ok 1 + Ok (len_len id))) (pp_subscription_identifiers p) (Ok 0)
  + len_str_d (pp_content_type p).

(** /repo/src/publish.rs:259-305 PublishProperties::write. *)
Definition PublishProperties_write_d (p : PublishProperties) : W unit :=
  do properties_len <- wlift (PublishProperties_len_d p);
  do_ write_remaining_length properties_len;
  do_ wopt (pp_payload_format_indicator p) (fun v =>
        do_ put_u8 (prop_code PayloadFormatIndicator); put_u8 v);
  do_ wopt (pp_message_expiry_interval p) (fun v =>
        do_ put_u8 (prop_code MessageExpiryInterval); put_u32 v);
  do_ wopt (pp_topic_alias p) (fun v =>
        do_ put_u8 (prop_code TopicAlias); put_u16 v);
  do_ wopt (pp_response_topic p) (fun v =>
        do_ put_u8 (prop_code ResponseTopic); write_mqtt_string v);
  do_ wopt (pp_correlation_data p) (fun v =>
        do_ put_u8 (prop_code CorrelationData); write_mqtt_bytes v);
  do_ write_user_props (pp_user_properties p);
  do_ wfor (pp_subscription_identifiers p) (fun id =>
        do_ put_u8 (prop_code SubscriptionIdentifier);
        do_ write_remaining_length id; wret tt);
  wopt (pp_content_type p) (fun v =>
        do_ put_u8 (prop_code ContentType); write_mqtt_string v).

(** /repo/src/publish.rs:45-62 Publish::len. *)
Definition Publish_len_d (p : Publish) : res N :=
  (Ok 2 + Ok (blen (pu_topic p)))
  + (if negb (QoS_eqb (pu_qos p) AtMostOnce) && negb (pu_pkid p =? 0) then Ok 2 else Ok 0)
  + (match pu_properties p with
     | Some q => let properties_len := PublishProperties_len_d q in
                 len_len_d properties_len + properties_len
     | None => Ok 1
     end)
  + Ok (blen (pu_payload p)).

(** /repo/src/publish.rs:38-43 Publish::size. *)
Definition Publish_size_d (p : Publish) : res N :=
  let len := Publish_len_d p in Ok 1 + len_len_d len + len.

(** /repo/src/publish.rs:98-127 Publish::write. *)
Definition Publish_write_d (p : Publish) : W N :=
  do len <- wlift (Publish_len_d p);
  let dup := bool_u8 (pu_dup p) in
  let qos := qos_u8 (pu_qos p) in
  let retain := bool_u8 (pu_retain p) in
  do_ put_u8 (N.lor (N.lor (N.lor 48 retain) (N.shiftl qos 1)) (N.shiftl dup 3));
  do count <- write_remaining_length len;
  do_ write_mqtt_string (pu_topic p);
  do_ (if negb (QoS_eqb (pu_qos p) AtMostOnce)
       then if pu_pkid p =? 0 then wfail PacketIdZero else put_u16 (pu_pkid p)
       else wret tt);
  do_ (match pu_properties p with
       | Some q => PublishProperties_write_d q
       | None => do_ write_remaining_length 0; wret tt
       end);
  do_ put_slice (pu_payload p);
  wlift (Ok 1 + Ok count + Ok len).

(** /repo/src/puback.rs:136-148 PubAckProperties::len. *)
Definition PubAckProperties_len_d (p : PubAckProperties) : res N :=
  len_str_d (pap_reason_string p) + user_props_len_d (pap_user_properties p).

(** /repo/src/puback.rs:188-204 PubAckProperties::write. *)
Definition PubAckProperties_write_d (p : PubAckProperties) : W unit :=
  do properties_len <- wlift (PubAckProperties_len_d p);
  do_ write_remaining_length properties_len;
  do_ wopt (pap_reason_string p) (fun v =>
        do_ put_u8 (prop_code ReasonString); write_mqtt_string v);
  write_user_props (pap_user_properties p).

(** /repo/src/puback.rs:52-70 PubAck::len. *)
Definition PubAck_len_d (a : PubAck) : res N :=
  if PubAck_is_short a then Ok 2 else
  (Ok 2 + Ok 1)
  + (match pa_properties a with
     | Some p => let properties_len := PubAckProperties_len_d p in
                 len_len_d properties_len + properties_len
     | None => Ok 1
     end).

(** /repo/src/puback.rs:42-50 PubAck::size. *)
Definition PubAck_size_d (a : PubAck) : res N :=
  if PubAck_is_short a then Ok 4 else
  let len := PubAck_len_d a in Ok 1 + len_len_d len + len.

(** /repo/src/puback.rs:106-126 PubAck::write. *)
Definition PubAck_write_d (a : PubAck) : W N :=
  do len <- wlift (PubAck_len_d a);
  do_ put_u8 64;
  do count <- write_remaining_length len;
  do_ put_u16 (pa_pkid a);
  if PubAck_is_short a then wret 4 else
  do_ put_u8 (PubAck_code (pa_reason a));
  do_ (match pa_properties a with
       | Some p => PubAckProperties_write_d p
       | None => do_ write_remaining_length 0; wret tt
       end);
  wlift (Ok 1 + Ok count + Ok len).

(** /repo/src/pubrec.rs:131-143 PubRecProperties::len. *)
Definition PubRecProperties_len_d (p : PubRecProperties) : res N :=
  len_str_d (prp_reason_string p) + user_props_len_d (prp_user_properties p).

(** /repo/src/pubrec.rs:183-199 PubRecProperties::write. *)
Definition PubRecProperties_write_d (p : PubRecProperties) : W unit :=
  do properties_len <- wlift (PubRecProperties_len_d p);
  do_ write_remaining_length properties_len;
  do_ wopt (prp_reason_string p) (fun v =>
        do_ put_u8 (prop_code ReasonString); write_mqtt_string v);
  write_user_props (prp_user_properties p).

(** /repo/src/pubrec.rs:50-69 PubRec::len. *)
Definition PubRec_len_d (a : PubRec) : res N :=
  if PubRec_is_short a then Ok 2 else
  (Ok 2 + Ok 1)
  + (match pr_properties a with
     | Some p => let properties_len := PubRecProperties_len_d p in
                 len_len_d properties_len + properties_len
     | None => Ok 1
     end).

(** /repo/src/pubrec.rs:43-48 PubRec::size. *)
Definition PubRec_size_d (a : PubRec) : res N :=
  let len := PubRec_len_d a in Ok 1 + len_len_d len + len.

(** /repo/src/pubrec.rs:101-121 PubRec::write. *)
Definition PubRec_write_d (a : PubRec) : W N :=
  do len <- wlift (PubRec_len_d a);
  do_ put_u8 80;
  do count <- write_remaining_length len;
  do_ put_u16 (pr_pkid a);
  if PubRec_is_short a then wret 4 else
  do_ put_u8 (PubRec_code (pr_reason a));
  do_ (match pr_properties a with
       | Some p => PubRecProperties_write_d p
       | None => do_ write_remaining_length 0; wret tt
       end);
  wlift (Ok 1 + Ok count + Ok len).

(** /repo/src/pubrel.rs:130-142 PubRelProperties::len. *)
Definition PubRelProperties_len_d (p : PubRelProperties) : res N :=
  len_str_d (plp_reason_string p) + user_props_len_d (plp_user_properties p).

(** /repo/src/pubrel.rs:182-198 PubRelProperties::write. *)
Definition PubRelProperties_write_d (p : PubRelProperties) : W unit :=
  do properties_len <- wlift (PubRelProperties_len_d p);
  do_ write_remaining_length properties_len;
  do_ wopt (plp_reason_string p) (fun v =>
        do_ put_u8 (prop_code ReasonString); write_mqtt_string v);
  write_user_props (plp_user_properties p).

(** /repo/src/pubrel.rs:48-67 PubRel::len. *)
Definition PubRel_len_d (a : PubRel) : res N :=
  if PubRel_is_short a then Ok 2 else
  (Ok 2 + Ok 1)
  + (match pl_properties a with
     | Some p => let properties_len := PubRelProperties_len_d p in
                 len_len_d properties_len + properties_len
     | None => Ok 1
     end).

(** /repo/src/pubrel.rs:36-46 PubRel::size. *)
Definition PubRel_size_d (a : PubRel) : res N :=
  if PubRel_is_short a then Ok 4 else
  let len := PubRel_len_d a in Ok 1 + len_len_d len + len.

(** /repo/src/pubrel.rs:100-120 PubRel::write. *)
Definition PubRel_write_d (a : PubRel) : W N :=
  do len <- wlift (PubRel_len_d a);
  do_ put_u8 98;
  do count <- write_remaining_length len;
  do_ put_u16 (pl_pkid a);
  if PubRel_is_short a then wret 4 else
  do_ put_u8 (PubRel_code (pl_reason a));
  do_ (match pl_properties a with
       | Some p => PubRelProperties_write_d p
       | None => do_ write_remaining_length 0; wret tt
       end);
  wlift (Ok 1 + Ok count + Ok len).

(** /repo/src/pubcomp.rs:129-141 PubCompProperties::len. *)
Definition PubCompProperties_len_d (p : PubCompProperties) : res N :=
  len_str_d (pcp_reason_string p) + user_props_len_d (pcp_user_properties p).

(** /repo/src/pubcomp.rs:181-197 PubCompProperties::write. *)
Definition PubCompProperties_write_d (p : PubCompProperties) : W unit :=
  do properties_len <- wlift (PubCompProperties_len_d p);
  do_ write_remaining_length properties_len;
  do_ wopt (pcp_reason_string p) (fun v =>
        do_ put_u8 (prop_code ReasonString); write_mqtt_string v);
  write_user_props (pcp_user_properties p).

(** /repo/src/pubcomp.rs:46-65 PubComp::len. *)
Definition PubComp_len_d (a : PubComp) : res N :=
  if PubComp_is_short a then Ok 2 else
  (Ok 2 + Ok 1)
  + (match pc_properties a with
     | Some p => let properties_len := PubCompProperties_len_d p in
                 len_len_d properties_len + properties_len
     | None => Ok 1
     end).

(** /repo/src/pubcomp.rs:36-44 PubComp::size. *)
Definition PubComp_size_d (a : PubComp) : res N :=
  if PubComp_is_short a then Ok 4 else
  let len := PubComp_len_d a in Ok 1 + len_len_d len + len.

(** /repo/src/pubcomp.rs:99-119 PubComp::write. *)
Definition PubComp_write_d (a : PubComp) : W N :=
  do len <- wlift (PubComp_len_d a);
  do_ put_u8 112;
  do count <- write_remaining_length len;
  do_ put_u16 (pc_pkid a);
  if PubComp_is_short a then wret 4 else
  do_ put_u8 (PubComp_code (pc_reason a));
  do_ (match pc_properties a with
       | Some p => PubCompProperties_write_d p
       | None => do_ write_remaining_length 0; wret tt
       end);
  wlift (Ok 1 + Ok count + Ok len).

(** /repo/src/subscribe.rs:210-222 SubscribeProperties::len. *)
Definition SubscribeProperties_len_d (p : SubscribeProperties) : res N :=
  (match sp_id p with Some id => Ok 1 + Ok (len_len id) | None => Ok 0 end)
  + user_props_len_d (sp_user_properties p).

(** /repo/src/subscribe.rs:265-281 SubscribeProperties::write. *)
Definition SubscribeProperties_write_d (p : SubscribeProperties) : W unit :=
  do properties_len <- wlift (SubscribeProperties_len_d p);
  do_ write_remaining_length properties_len;
  do_ wopt (sp_id p) (fun id =>
        do_ put_u8 (prop_code SubscriptionIdentifier);
        do_ write_remaining_length id; wret tt);
  write_user_props (sp_user_properties p).

(** /repo/src/subscribe.rs:126-129 Filter::len. *)
Definition Filter_len_d (f : Filter) : res N := Ok 2 + Ok (blen (fi_path f)) + Ok 1.

(** /repo/src/subscribe.rs:46-59 Subscribe::len. *)
Definition Subscribe_len_d (s : Subscribe) : res N :=
  (Ok 2 + fold_left (fun a t => a + Filter_len_d t) (su_filters s) (Ok 0))
  + (match su_properties s with
     | Some p => let properties_len := SubscribeProperties_len_d p in
                 len_len_d properties_len + properties_len
     | None => Ok 1
     end).

(** /repo/src/subscribe.rs:39-44 Subscribe::size. *)
Definition Subscribe_size_d (s : Subscribe) : res N :=
  let len := Subscribe_len_d s in Ok 1 + len_len_d len + len.

(** /repo/src/subscribe.rs:81-104 Subscribe::write. *)
Definition Subscribe_write_d (s : Subscribe) : W N :=
  do_ put_u8 130;
  do remaining_len <- wlift (Subscribe_len_d s);
  do remaining_len_bytes <- write_remaining_length remaining_len;
  do_ put_u16 (su_pkid s);
  do_ (match su_properties s with
       | Some p => SubscribeProperties_write_d p
       | None => do_ write_remaining_length 0; wret tt
       end);
  do_ wfor (su_filters s) Filter_write;
  wlift (Ok 1 + Ok remaining_len_bytes + Ok remaining_len).

(** /repo/src/suback.rs:108-120 SubAckProperties::len. *)
Definition SubAckProperties_len_d (p : SubAckProperties) : res N :=
  len_str_d (sap_reason_string p) + user_props_len_d (sap_user_properties p).

(** /repo/src/suback.rs:160-176 SubAckProperties::write. *)
Definition SubAckProperties_write_d (p : SubAckProperties) : W unit :=
  do properties_len <- wlift (SubAckProperties_len_d p);
  do_ write_remaining_length properties_len;
  do_ wopt (sap_reason_string p) (fun v =>
        do_ put_u8 (prop_code ReasonString); write_mqtt_string v);
  write_user_props (sap_user_properties p).

(** /repo/src/suback.rs:18-31 SubAck::len. *)
Definition SubAck_len_d (a : SubAck) : res N :=
  (Ok 2 + Ok (N.of_nat (length (sa_return_codes a))))
  + (match sa_properties a with
     | Some p => let properties_len := SubAckProperties_len_d p in
                 len_len_d properties_len + properties_len
     | None => Ok 1
     end).

(** /repo/src/suback.rs:33-39 SubAck::size. *)
Definition SubAck_size_d (a : SubAck) : res N :=
  let len := SubAck_len_d a in Ok 1 + len_len_d len + len.

(** /repo/src/suback.rs:67-84 SubAck::write. *)
Definition SubAck_write_d (a : SubAck) : W N :=
  do_ put_u8 144;
  do remaining_len <- wlift (SubAck_len_d a);
  do remaining_len_bytes <- write_remaining_length remaining_len;
  do_ put_u16 (sa_pkid a);
  do_ (match sa_properties a with
       | Some p => SubAckProperties_write_d p
       | None => do_ write_remaining_length 0; wret tt
       end);
  do_ put_slice (map SubAck_code (sa_return_codes a));
  wlift (Ok 1 + Ok remaining_len_bytes + Ok remaining_len).

(** /repo/src/unsubscribe.rs:103-111 UnsubscribeProperties::len. *)
Definition UnsubscribeProperties_len_d (p : UnsubscribeProperties) : res N :=
  user_props_len_d (usp_user_properties p).

(** /repo/src/unsubscribe.rs:143-154 UnsubscribeProperties::write. *)
Definition UnsubscribeProperties_write_d (p : UnsubscribeProperties) : W unit :=
  do properties_len <- wlift (UnsubscribeProperties_len_d p);
  do_ write_remaining_length properties_len;
  write_user_props (usp_user_properties p).

(** /repo/src/unsubscribe.rs:34-49 Unsubscribe::len. *)
Definition Unsubscribe_len_d (u : Unsubscribe) : res N :=
  (Ok 2 + fold_left (fun s t => Ok 2 + s + Ok (blen t)) (un_filters u) (Ok 0))
  + (match un_properties u with
     | Some p => let properties_len := UnsubscribeProperties_len_d p in
                 len_len_d properties_len + properties_len
     | None => Ok 1
     end).

(** /repo/src/unsubscribe.rs:26-32 Unsubscribe::size. *)
Definition Unsubscribe_size_d (u : Unsubscribe) : res N :=
  let len := Unsubscribe_len_d u in Ok 1 + len_len_d len + len.

(** /repo/src/unsubscribe.rs:72-94 Unsubscribe::write. *)
Definition Unsubscribe_write_d (u : Unsubscribe) : W N :=
  do_ put_u8 162;
  do remaining_len <- wlift (Unsubscribe_len_d u);
  do remaining_len_bytes <- write_remaining_length remaining_len;
  do_ put_u16 (un_pkid u);
  do_ (match un_properties u with
       | Some p => UnsubscribeProperties_write_d p
       | None => do_ write_remaining_length 0; wret tt
       end);
  do_ wfor (un_filters u) write_mqtt_string;
  wlift (Ok 1 + Ok remaining_len_bytes + Ok remaining_len).

(** /repo/src/unsuback.rs:105-117 UnsubAckProperties::len. *)
Definition UnsubAckProperties_len_d (p : UnsubAckProperties) : res N :=
  len_str_d (uap_reason_string p) + user_props_len_d (uap_user_properties p).

(** /repo/src/unsuback.rs:157-173 UnsubAckProperties::write. *)
Definition UnsubAckProperties_write_d (p : UnsubAckProperties) : W unit :=
  do properties_len <- wlift (UnsubAckProperties_len_d p);
  do_ write_remaining_length properties_len;
  do_ wopt (uap_reason_string p) (fun v =>
        do_ put_u8 (prop_code ReasonString); write_mqtt_string v);
  write_user_props (uap_user_properties p).

(** /repo/src/unsuback.rs:18-31 UnsubAck::len. *)
Definition UnsubAck_len_d (a : UnsubAck) : res N :=
  (Ok 2 + Ok (N.of_nat (length (ua_reasons a))))
  + (match ua_properties a with
     | Some p => let properties_len := UnsubAckProperties_len_d p in
                 len_len_d properties_len + properties_len
     | None => Ok 1
     end).

(** /repo/src/unsuback.rs:33-39 UnsubAck::size. *)
Definition UnsubAck_size_d (a : UnsubAck) : res N :=
  let len := UnsubAck_len_d a in Ok 1 + len_len_d len + len.

(** /repo/src/unsuback.rs:67-83 UnsubAck::write. *)
Definition UnsubAck_write_d (a : UnsubAck) : W N :=
  do_ put_u8 176;
  do remaining_len <- wlift (UnsubAck_len_d a);
  do remaining_len_bytes <- write_remaining_length remaining_len;
  do_ put_u16 (ua_pkid a);
  do_ (match ua_properties a with
       | Some p => UnsubAckProperties_write_d p
       | None => do_ write_remaining_length 0; wret tt
       end);
  do_ put_slice (map UnsubAck_code (ua_reasons a));
  wlift (Ok 1 + Ok remaining_len_bytes + Ok remaining_len).

(** /repo/src/disconnect.rs:143-163 DisconnectProperties::len. *)
Definition DisconnectProperties_len_d (p : DisconnectProperties) : res N :=
  len_if_some_d (dp_session_expiry_interval p) (Ok 1 + Ok 4)
  + len_str_d (dp_reason_string p)
  + user_props_len_d (dp_user_properties p)
  + len_str_d (dp_server_reference p).

(** /repo/src/disconnect.rs:221-247 DisconnectProperties::write. *)
Definition DisconnectProperties_write_d (p : DisconnectProperties) : W unit :=
  do properties_len <- wlift (DisconnectProperties_len_d p);
  do_ write_remaining_length properties_len;
  do_ wopt (dp_session_expiry_interval p) (fun v =>
        do_ put_u8 (prop_code SessionExpiryInterval); put_u32 v);
  do_ wopt (dp_reason_string p) (fun v =>
        do_ put_u8 (prop_code ReasonString); write_mqtt_string v);
  do_ write_user_props (dp_user_properties p);
  wopt (dp_server_reference p) (fun v =>
        do_ put_u8 (prop_code ServerReference); write_mqtt_string v).

(** /repo/src/disconnect.rs:259-279 Disconnect::len. *)
Definition Disconnect_len_d (d : Disconnect) : res N :=
  match di_reason_code d, di_properties d with
  | DRC_NormalDisconnection, None => Ok 2
  | _, Some p =>
      let properties_len := DisconnectProperties_len_d p in
      Ok 1 + (len_len_d properties_len + properties_len)
  | _, None => Ok 1
  end.

(** /repo/src/disconnect.rs:281-291 Disconnect::size. *)
Definition Disconnect_size_d (d : Disconnect) : res N :=
  let? len := Disconnect_len_d d in
  if len =? 2 then Ok len else Ok 1 + Ok (len_len len) + Ok len.

(** /repo/src/disconnect.rs:321-342 Disconnect::write. *)
Definition Disconnect_write_d (d : Disconnect) : W N :=
  do_ put_u8 224;
  do length <- wlift (Disconnect_len_d d);
  if length =? 2 then do_ put_u8 0; wret length
  else
    do len_len <- write_remaining_length length;
    do_ put_u8 (DisconnectReasonCode_u8 (di_reason_code d));
    do_ (match di_properties d with
         | Some p => DisconnectProperties_write_d p
         | None => do_ write_remaining_length 0; wret tt
         end);
    wlift (Ok 1 + Ok len_len + Ok length).

(** /repo/src/lib.rs:218-235 Packet::write. *)
Definition Packet_write_d (p : Packet) : W N :=
  match p with
  | P_Publish publish => Publish_write_d publish
  | P_Subscribe subscription => Subscribe_write_d subscription
  | P_Unsubscribe unsubscribe => Unsubscribe_write_d unsubscribe
  | P_ConnAck ack => ConnAck_write_d ack
  | P_PubAck ack => PubAck_write_d ack
  | P_SubAck ack => SubAck_write_d ack
  | P_UnsubAck unsuback => UnsubAck_write_d unsuback
  | P_PubRec pubrec => PubRec_write_d pubrec
  | P_PubRel pubrel => PubRel_write_d pubrel
  | P_PubComp pubcomp => PubComp_write_d pubcomp
  | P_Connect connect will login => Connect_write_d connect will login
  | P_PingReq => PingReq_write
  | P_PingResp => PingResp_write
  | P_Disconnect disconnect => Disconnect_write_d disconnect
  end.

(** ---------- Framing ---------- *)

(** /repo/src/lib.rs:317-324 FixedHeader::new. *)
Definition FixedHeader_new_d (byte1 remaining_len_len remaining_len : N) : res FixedHeader :=
  let? fixed_header_len := Ok remaining_len_len + Ok 1 in
  Ok (mkFixedHeader byte1 fixed_header_len remaining_len).

(** /repo/src/lib.rs:350-352 FixedHeader::frame_length. *)
Definition frame_length_d (h : FixedHeader) : res N :=
  Ok (fh_fixed_header_len h) + Ok (fh_remaining_len h).

(** /repo/src/lib.rs:449-475 the loop of fn length.  The shift count [shift] is an i32; it is at most
    21 when it is used, so that no bit of the seven is shifted out of a usize of 32 bits. *)
Fixpoint length_loop_d (stream : bytes) (len len_len shift : N) : res (N * N) :=
  match stream with
  | [] => Err (InsufficientBytes 1)
  | byte :: rest =>
      let? len_len := Ok len_len + Ok 1 in
      let? len := Ok len + Ok (N.shiftl (N.land byte 127) shift) in
      if N.land byte 128 =? 0 then Ok (len_len, len)
      else
        let? shift := Ok shift + Ok 7 in
        if 21 <? shift then Err MalformedRemainingLength
        else length_loop_d rest len len_len shift
  end.

(** /repo/src/lib.rs:423-434 fn parse_fixed_header. *)
Definition parse_fixed_header_d (stream : bytes) : res FixedHeader :=
  if blen stream <? 2 then Err (InsufficientBytes (2 - blen stream))
  else
    match stream with
    | [] => Panic  (* stream.next().unwrap() *)
    | byte1 :: rest =>
        let? (len_len, len) := length_loop_d rest 0 0 0 in
        FixedHeader_new_d byte1 len_len len
    end.

(** /repo/src/lib.rs:395-420 fn check. *)
Definition check_d (stream : bytes) (max_packet_size : option N) : res FixedHeader :=
  let? fixed_header := parse_fixed_header_d stream in
  let limit_check :=
    match max_packet_size with
    | Some max_size =>
        if max_size <? fh_remaining_len fixed_header
        then Err (PayloadSizeLimitExceeded (fh_remaining_len fixed_header) max_size)
        else Ok tt
    | None => Ok tt
    end in
  let? _ := limit_check in
  let? frame_length := frame_length_d fixed_header in
  if blen stream <? frame_length
  then Err (InsufficientBytes (frame_length - blen stream))
  else Ok fixed_header.

(** /repo/src/lib.rs:146-216 Packet::read: its own addition is in frame_length; the readers of the
    packets check theirs (MLib.usize_add). *)
Definition Packet_read_d (ft : feature) (stream : bytes) (max_size : option N)
  : res Packet * bytes :=
  match check_d stream max_size with
  | Ok h =>
      match (let? n := frame_length_d h in split_to stream n) with
      | Ok (packet, rest) => (Packet_read_frame ft h packet, rest)
      | Err e => (Err e, stream)
      | Panic => (Panic, stream)
      | Diverge => (Diverge, stream)
      end
  | Err e => (Err e, stream)
  | Panic => (Panic, stream)
  | Diverge => (Diverge, stream)
  end.

End Checked.
