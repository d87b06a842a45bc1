(** Model of /repo/src/connack.rs. *)
From Verif Require Import Types MLib MConnect.

(** /repo/src/connack.rs:132-134 ConnAckProperties::new (derived Default). *)
Definition ConnAckProperties_new : ConnAckProperties :=
  mkConnAckProperties None None None None None None None None [] None None None None None None None None.

(** /repo/src/connack.rs:136-208 ConnAckProperties::len. *)
Definition ConnAckProperties_len (p : ConnAckProperties) : N :=
  len_if_some (ca_session_expiry_interval p) (1 + 4)
  + len_if_some (ca_receive_max p) (1 + 2)
  + len_if_some (ca_max_qos p) (1 + 1)
  + len_if_some (ca_retain_available p) (1 + 1)
  + len_if_some (ca_max_packet_size p) (1 + 4)
  + len_str (ca_assigned_client_identifier p)
  + len_if_some (ca_topic_alias_max p) (1 + 2)
  + len_str (ca_reason_string p)
  + user_props_len (ca_user_properties p)
  + len_if_some (ca_wildcard_subscription_available p) (1 + 1)
  + len_if_some (ca_subscription_identifiers_available p) (1 + 1)
  + len_if_some (ca_shared_subscription_available p) (1 + 1)
  + len_if_some (ca_server_keep_alive p) (1 + 2)
  + len_str (ca_response_information p)
  + len_str (ca_server_reference p)
  + len_str (ca_authentication_method p)
  + len_str (ca_authentication_data p).

(** /repo/src/connack.rs:242-320 body of the `match` in ConnAckProperties::read. *)
Definition ConnAckProperties_step (ft : feature) (prop : N) (p : ConnAckProperties) (b : bytes)
  : res (ConnAckProperties * N * bytes) :=
  let? t := property prop in
  let '(mkConnAckProperties sei rm mq ra mps aci tam rs up wsa sia ssa ska ri sr am ad) := p in
  match t with
  | SessionExpiryInterval =>
      let? (v, b) := read_u32 b in
      Ok (mkConnAckProperties (Some v) rm mq ra mps aci tam rs up wsa sia ssa ska ri sr am ad, 4, b)
  | ReceiveMaximum =>
      let? (v, b) := read_u16 b in
      Ok (mkConnAckProperties sei (Some v) mq ra mps aci tam rs up wsa sia ssa ska ri sr am ad, 2, b)
  | MaximumQos =>
      let? (v, b) := read_u8 b in
      Ok (mkConnAckProperties sei rm (Some v) ra mps aci tam rs up wsa sia ssa ska ri sr am ad, 1, b)
  | RetainAvailable =>
      let? (v, b) := read_u8 b in
      Ok (mkConnAckProperties sei rm mq (Some v) mps aci tam rs up wsa sia ssa ska ri sr am ad, 1, b)
  | AssignedClientIdentifier =>
      let? (v, b) := read_mqtt_string ft b in
      Ok (mkConnAckProperties sei rm mq ra mps (Some v) tam rs up wsa sia ssa ska ri sr am ad,
          2 + blen v, b)
  | MaximumPacketSize =>
      let? (v, b) := read_u32 b in
      Ok (mkConnAckProperties sei rm mq ra (Some v) aci tam rs up wsa sia ssa ska ri sr am ad, 4, b)
  | TopicAliasMaximum =>
      let? (v, b) := read_u16 b in
      Ok (mkConnAckProperties sei rm mq ra mps aci (Some v) rs up wsa sia ssa ska ri sr am ad, 2, b)
  | ReasonString =>
      let? (v, b) := read_mqtt_string ft b in
      Ok (mkConnAckProperties sei rm mq ra mps aci tam (Some v) up wsa sia ssa ska ri sr am ad,
          2 + blen v, b)
  | UserProperty =>
      let? (k, b) := read_mqtt_string ft b in
      let? (v, b) := read_mqtt_string ft b in
      Ok (mkConnAckProperties sei rm mq ra mps aci tam rs (up ++ [(k, v)]) wsa sia ssa ska ri sr am ad,
          2 + blen k + 2 + blen v, b)
  | WildcardSubscriptionAvailable =>
      let? (v, b) := read_u8 b in
      Ok (mkConnAckProperties sei rm mq ra mps aci tam rs up (Some v) sia ssa ska ri sr am ad, 1, b)
  | SubscriptionIdentifierAvailable =>
      let? (v, b) := read_u8 b in
      Ok (mkConnAckProperties sei rm mq ra mps aci tam rs up wsa (Some v) ssa ska ri sr am ad, 1, b)
  | SharedSubscriptionAvailable =>
      let? (v, b) := read_u8 b in
      Ok (mkConnAckProperties sei rm mq ra mps aci tam rs up wsa sia (Some v) ska ri sr am ad, 1, b)
  | ServerKeepAlive =>
      let? (v, b) := read_u16 b in
      Ok (mkConnAckProperties sei rm mq ra mps aci tam rs up wsa sia ssa (Some v) ri sr am ad, 2, b)
  | ResponseInformation =>
      let? (v, b) := read_mqtt_string ft b in
      Ok (mkConnAckProperties sei rm mq ra mps aci tam rs up wsa sia ssa ska (Some v) sr am ad,
          2 + blen v, b)
  | ServerReference =>
      let? (v, b) := read_mqtt_string ft b in
      Ok (mkConnAckProperties sei rm mq ra mps aci tam rs up wsa sia ssa ska ri (Some v) am ad,
          2 + blen v, b)
  | AuthenticationMethod =>
      let? (v, b) := read_mqtt_string ft b in
      Ok (mkConnAckProperties sei rm mq ra mps aci tam rs up wsa sia ssa ska ri sr (Some v) ad,
          2 + blen v, b)
  | AuthenticationData =>
      let? (v, b) := read_mqtt_bytes b in
      Ok (mkConnAckProperties sei rm mq ra mps aci tam rs up wsa sia ssa ska ri sr am (Some v),
          2 + blen v, b)
  | _ => Err (InvalidPropertyType prop)
  end.

(** /repo/src/connack.rs:210-342 ConnAckProperties::read. *)
Definition ConnAckProperties_read (ft : feature) (b : bytes)
  : res (option ConnAckProperties * bytes) :=
  props_read (ConnAckProperties_step ft) ConnAckProperties_new b.

(** /repo/src/connack.rs:344-435 ConnAckProperties::write. *)
Definition ConnAckProperties_write (p : ConnAckProperties) : W unit :=
  do_ write_remaining_length (ConnAckProperties_len p);
  do_ wopt (ca_session_expiry_interval p) (fun v =>
        do_ put_u8 (prop_code SessionExpiryInterval); put_u32 v);
  do_ wopt (ca_receive_max p) (fun v =>
        do_ put_u8 (prop_code ReceiveMaximum); put_u16 v);
  do_ wopt (ca_max_qos p) (fun v =>
        do_ put_u8 (prop_code MaximumQos); put_u8 v);
  do_ wopt (ca_retain_available p) (fun v =>
        do_ put_u8 (prop_code RetainAvailable); put_u8 v);
  do_ wopt (ca_max_packet_size p) (fun v =>
        do_ put_u8 (prop_code MaximumPacketSize); put_u32 v);
  do_ wopt (ca_assigned_client_identifier p) (fun v =>
        do_ put_u8 (prop_code AssignedClientIdentifier); write_mqtt_string v);
  do_ wopt (ca_topic_alias_max p) (fun v =>
        do_ put_u8 (prop_code TopicAliasMaximum); put_u16 v);
  do_ wopt (ca_reason_string p) (fun v =>
        do_ put_u8 (prop_code ReasonString); write_mqtt_string v);
  do_ write_user_props (ca_user_properties p);
  do_ wopt (ca_wildcard_subscription_available p) (fun v =>
        do_ put_u8 (prop_code WildcardSubscriptionAvailable); put_u8 v);
  do_ wopt (ca_subscription_identifiers_available p) (fun v =>
        do_ put_u8 (prop_code SubscriptionIdentifierAvailable); put_u8 v);
  do_ wopt (ca_shared_subscription_available p) (fun v =>
        do_ put_u8 (prop_code SharedSubscriptionAvailable); put_u8 v);
  do_ wopt (ca_server_keep_alive p) (fun v =>
        do_ put_u8 (prop_code ServerKeepAlive); put_u16 v);
  do_ wopt (ca_response_information p) (fun v =>
        do_ put_u8 (prop_code ResponseInformation); write_mqtt_string v);
  do_ wopt (ca_server_reference p) (fun v =>
        do_ put_u8 (prop_code ServerReference); write_mqtt_string v);
  do_ wopt (ca_authentication_method p) (fun v =>
        do_ put_u8 (prop_code AuthenticationMethod); write_mqtt_string v);
  wopt (ca_authentication_data p) (fun v =>
        do_ put_u8 (prop_code AuthenticationData); write_mqtt_bytes v).

(** /repo/src/connack.rs:439-467 fn connect_return. *)
Definition connect_return (num : N) : res ConnectReturnCode :=
  match num with
  | 0 => Ok CRC_Success
  | 128 => Ok CRC_UnspecifiedError
  | 129 => Ok CRC_MalformedPacket
  | 130 => Ok CRC_ProtocolError
  | 131 => Ok CRC_ImplementationSpecificError
  | 132 => Ok CRC_UnsupportedProtocolVersion
  | 133 => Ok CRC_ClientIdentifierNotValid
  | 134 => Ok CRC_BadUserNamePassword
  | 135 => Ok CRC_NotAuthorized
  | 136 => Ok CRC_ServerUnavailable
  | 137 => Ok CRC_ServerBusy
  | 138 => Ok CRC_Banned
  | 140 => Ok CRC_BadAuthenticationMethod
  | 144 => Ok CRC_TopicNameInvalid
  | 149 => Ok CRC_PacketTooLarge
  | 151 => Ok CRC_QuotaExceeded
  | 153 => Ok CRC_PayloadFormatInvalid
  | 154 => Ok CRC_RetainNotSupported
  | 155 => Ok CRC_QoSNotSupported
  | 156 => Ok CRC_UseAnotherServer
  | 157 => Ok CRC_ServerMoved
  | 159 => Ok CRC_ConnectionRateExceeded
  | _ => Err (InvalidConnectReturnCode num)
  end.

(** /repo/src/connack.rs:469-495 fn connect_code; the last arm is `unreachable!()`. *)
Definition connect_code (c : ConnectReturnCode) : res N :=
  match c with
  | CRC_Success => Ok 0
  | CRC_UnspecifiedError => Ok 128
  | CRC_MalformedPacket => Ok 129
  | CRC_ProtocolError => Ok 130
  | CRC_ImplementationSpecificError => Ok 131
  | CRC_UnsupportedProtocolVersion => Ok 132
  | CRC_ClientIdentifierNotValid => Ok 133
  | CRC_BadUserNamePassword => Ok 134
  | CRC_NotAuthorized => Ok 135
  | CRC_ServerUnavailable => Ok 136
  | CRC_ServerBusy => Ok 137
  | CRC_Banned => Ok 138
  | CRC_BadAuthenticationMethod => Ok 140
  | CRC_TopicNameInvalid => Ok 144
  | CRC_PacketTooLarge => Ok 149
  | CRC_QuotaExceeded => Ok 151
  | CRC_PayloadFormatInvalid => Ok 153
  | CRC_RetainNotSupported => Ok 154
  | CRC_QoSNotSupported => Ok 155
  | CRC_UseAnotherServer => Ok 156
  | CRC_ServerMoved => Ok 157
  | CRC_ConnectionRateExceeded => Ok 159
  | _ => Panic
  end.

(** /repo/src/connack.rs:50-63 ConnAck::len. *)
Definition ConnAck_len (a : ConnAck) : N :=
  (1 + 1)
  + (match ck_properties a with
     | Some p => let properties_len := ConnAckProperties_len p in
                 len_len properties_len + properties_len
     | None => 1
     end).

(** /repo/src/connack.rs:65-70 ConnAck::size. *)
Definition ConnAck_size (a : ConnAck) : N :=
  let len := ConnAck_len a in 1 + len_len len + len.

(** /repo/src/connack.rs:72-89 ConnAck::read. *)
Definition ConnAck_read (ft : feature) (h : FixedHeader) (b : bytes) : res ConnAck :=
  let? b := advance b (fh_fixed_header_len h) in
  let? (flags, b) := read_u8 b in
  let? (return_code, b) := read_u8 b in
  let? (properties, b) := ConnAckProperties_read ft b in
  let session_present := N.land flags 1 =? 1 in
  let? code := connect_return return_code in
  Ok (mkConnAck session_present code properties).

(** /repo/src/connack.rs:91-106 ConnAck::write. *)
Definition ConnAck_write (a : ConnAck) : W N :=
  let len := ConnAck_len a in
  do_ put_u8 32;
  do count <- write_remaining_length len;
  do_ put_u8 (bool_u8 (ck_session_present a));
  do code <- wlift (connect_code (ck_code a));
  do_ put_u8 code;
  do_ (match ck_properties a with
       | Some p => ConnAckProperties_write p
       | None => do_ write_remaining_length 0; wret tt
       end);
  wret (1 + count + len).
