(** Model of /repo/src/disconnect.rs. *)
From Verif Require Import Types MLib MConnect.

(** /repo/src/disconnect.rs:80-115 DisconnectReasonCode::try_from (u8). *)
Definition DisconnectReasonCode_try_from (value : N) : res DisconnectReasonCode :=
  match value with
  | 0 => Ok DRC_NormalDisconnection
  | 4 => Ok DRC_DisconnectWithWillMessage
  | 128 => Ok DRC_UnspecifiedError
  | 129 => Ok DRC_MalformedPacket
  | 130 => Ok DRC_ProtocolError
  | 131 => Ok DRC_ImplementationSpecificError
  | 135 => Ok DRC_NotAuthorized
  | 137 => Ok DRC_ServerBusy
  | 139 => Ok DRC_ServerShuttingDown
  | 141 => Ok DRC_KeepAliveTimeout
  | 142 => Ok DRC_SessionTakenOver
  | 143 => Ok DRC_TopicFilterInvalid
  | 144 => Ok DRC_TopicNameInvalid
  | 147 => Ok DRC_ReceiveMaximumExceeded
  | 148 => Ok DRC_TopicAliasInvalid
  | 149 => Ok DRC_PacketTooLarge
  | 150 => Ok DRC_MessageRateTooHigh
  | 151 => Ok DRC_QuotaExceeded
  | 152 => Ok DRC_AdministrativeAction
  | 153 => Ok DRC_PayloadFormatInvalid
  | 154 => Ok DRC_RetainNotSupported
  | 155 => Ok DRC_QoSNotSupported
  | 156 => Ok DRC_UseAnotherServer
  | 157 => Ok DRC_ServerMoved
  | 158 => Ok DRC_SharedSubscriptionNotSupported
  | 159 => Ok DRC_ConnectionRateExceeded
  | 160 => Ok DRC_MaximumConnectTime
  | 161 => Ok DRC_SubscriptionIdentifiersNotSupported
  | 162 => Ok DRC_WildcardSubscriptionsNotSupported
  | _ => Err (InvalidConnectReturnCode value)
  end.

(** /repo/src/disconnect.rs:16-75 `reason_code as u8` (the discriminants). *)
Definition DisconnectReasonCode_u8 (r : DisconnectReasonCode) : N :=
  match r with
  | DRC_NormalDisconnection => 0
  | DRC_DisconnectWithWillMessage => 4
  | DRC_UnspecifiedError => 128
  | DRC_MalformedPacket => 129
  | DRC_ProtocolError => 130
  | DRC_ImplementationSpecificError => 131
  | DRC_NotAuthorized => 135
  | DRC_ServerBusy => 137
  | DRC_ServerShuttingDown => 139
  | DRC_KeepAliveTimeout => 141
  | DRC_SessionTakenOver => 142
  | DRC_TopicFilterInvalid => 143
  | DRC_TopicNameInvalid => 144
  | DRC_ReceiveMaximumExceeded => 147
  | DRC_TopicAliasInvalid => 148
  | DRC_PacketTooLarge => 149
  | DRC_MessageRateTooHigh => 150
  | DRC_QuotaExceeded => 151
  | DRC_AdministrativeAction => 152
  | DRC_PayloadFormatInvalid => 153
  | DRC_RetainNotSupported => 154
  | DRC_QoSNotSupported => 155
  | DRC_UseAnotherServer => 156
  | DRC_ServerMoved => 157
  | DRC_SharedSubscriptionNotSupported => 158
  | DRC_ConnectionRateExceeded => 159
  | DRC_MaximumConnectTime => 160
  | DRC_SubscriptionIdentifiersNotSupported => 161
  | DRC_WildcardSubscriptionsNotSupported => 162
  end.

(** /repo/src/disconnect.rs:174-177 initial variables of DisconnectProperties::extract. *)
Definition DisconnectProperties_init : DisconnectProperties :=
  mkDisconnectProperties None None [] None.

(** /repo/src/disconnect.rs:143-163 DisconnectProperties::len. *)
Definition DisconnectProperties_len (p : DisconnectProperties) : N :=
  len_if_some (dp_session_expiry_interval p) (1 + 4)
  + len_str (dp_reason_string p)
  + user_props_len (dp_user_properties p)
  + len_str (dp_server_reference p).

(** /repo/src/disconnect.rs:186-208 body of the `match` in DisconnectProperties::extract. *)
Definition DisconnectProperties_step (ft : feature) (prop : N) (p : DisconnectProperties) (b : bytes)
  : res (DisconnectProperties * N * bytes) :=
  let? t := property prop in
  let '(mkDisconnectProperties sei rs up sr) := p in
  match t with
  | SessionExpiryInterval =>
      let? (v, b) := read_u32 b in
      Ok (mkDisconnectProperties (Some v) rs up sr, 4, b)
  | ReasonString =>
      let? (v, b) := read_mqtt_string ft b in
      Ok (mkDisconnectProperties sei (Some v) up sr, 2 + blen v, b)
  | UserProperty =>
      let? (k, b) := read_mqtt_string ft b in
      let? (v, b) := read_mqtt_string ft b in
      Ok (mkDisconnectProperties sei rs (up ++ [(k, v)]) sr, 2 + blen k + 2 + blen v, b)
  | ServerReference =>
      let? (v, b) := read_mqtt_string ft b in
      Ok (mkDisconnectProperties sei rs up (Some v), 2 + blen v, b)
  | _ => Err (InvalidPropertyType prop)
  end.

(** /repo/src/disconnect.rs:165-219 DisconnectProperties::extract. *)
Definition DisconnectProperties_extract (ft : feature) (b : bytes)
  : res (option DisconnectProperties * bytes) :=
  props_read (DisconnectProperties_step ft) DisconnectProperties_init b.

(** /repo/src/disconnect.rs:221-247 DisconnectProperties::write. *)
Definition DisconnectProperties_write (p : DisconnectProperties) : W unit :=
  do_ write_remaining_length (DisconnectProperties_len p);
  do_ wopt (dp_session_expiry_interval p) (fun v =>
        do_ put_u8 (prop_code SessionExpiryInterval); put_u32 v);
  do_ wopt (dp_reason_string p) (fun v =>
        do_ put_u8 (prop_code ReasonString); write_mqtt_string v);
  do_ write_user_props (dp_user_properties p);
  wopt (dp_server_reference p) (fun v =>
        do_ put_u8 (prop_code ServerReference); write_mqtt_string v).

(** /repo/src/disconnect.rs:251-257 Disconnect::new. *)
Definition Disconnect_new (reason : DisconnectReasonCode) : Disconnect :=
  mkDisconnect reason None.

(** /repo/src/disconnect.rs:259-279 Disconnect::len. *)
Definition Disconnect_len (d : Disconnect) : N :=
  match di_reason_code d, di_properties d with
  | DRC_NormalDisconnection, None => 2
  | _, Some p =>
      let properties_len := DisconnectProperties_len p in
      1 + (len_len properties_len + properties_len)
  | _, None => 1
  end.

(** /repo/src/disconnect.rs:281-291 Disconnect::size. *)
Definition Disconnect_size (d : Disconnect) : N :=
  let len := Disconnect_len d in
  if len =? 2 then len else 1 + len_len len + len.

(** /repo/src/disconnect.rs:293-319 Disconnect::read. *)
Definition Disconnect_read (ft : feature) (h : FixedHeader) (b : bytes) : res Disconnect :=
  let packet_type := N.shiftr (fh_byte1 h) 4 in
  let flags := N.land (fh_byte1 h) 15 in
  let? b := advance b (fh_fixed_header_len h) in
  if negb (packet_type =? 14) then Err (InvalidPacketType packet_type)
  else if negb (flags =? 0) then Err MalformedPacket
  else if fh_remaining_len h =? 0 then Ok (Disconnect_new DRC_NormalDisconnection)
  else
    let? (reason_code, b) := read_u8 b in
    let? reason := DisconnectReasonCode_try_from reason_code in
    let? (properties, b) := DisconnectProperties_extract ft b in
    Ok (mkDisconnect reason properties).

(** /repo/src/disconnect.rs:321-342 Disconnect::write. *)
Definition Disconnect_write (d : Disconnect) : W N :=
  do_ put_u8 224;
  let length := Disconnect_len d in
  if length =? 2 then do_ put_u8 0; wret length
  else
    do len_len <- write_remaining_length length;
    do_ put_u8 (DisconnectReasonCode_u8 (di_reason_code d));
    do_ (match di_properties d with
         | Some p => DisconnectProperties_write p
         | None => do_ write_remaining_length 0; wret tt
         end);
    wret (1 + len_len + length).
