(** Independent specification: the MQTT 5.0 wire encoding of the packet data types
    (OASIS MQTT 5.0, sections 1.5, 2.2 and 3), value ranges of the Rust types and the
    documented normalisation.  Imports the data types only: nothing of the model. *)
From Verif Require Import Types.

(** ---------- Bytes and numbers ---------- *)

(** A stream of Rust `u8`. *)
Definition bytes_ok (l : bytes) : Prop := Forall (fun b => b < 256) l.

(** MQTT 5.0 section 1.5.2, 1.5.3: big-endian integers. *)
Definition u16be (n : N) : bytes := [n / 256; n mod 256].
Definition u32be (n : N) : bytes :=
  [n / 16777216; (n / 65536) mod 256; (n / 256) mod 256; n mod 256].

(** MQTT 5.0 section 1.5.5: the largest variable byte integer and the minimal encoding. *)
Definition max_varint : N := 268435455.
Definition varint (n : N) : bytes :=
  if n <? 128 then [n]
  else if n <? 16384 then [128 + n mod 128; n / 128]
  else if n <? 2097152 then [128 + n mod 128; 128 + (n / 128) mod 128; n / 16384]
  else [128 + n mod 128; 128 + (n / 128) mod 128; 128 + (n / 16384) mod 128; n / 2097152].

(** ---------- UTF-8 by code points (Unicode 3.9, Table 3-6) ---------- *)

(** A Unicode scalar value. *)
Definition scalar (c : N) : Prop := c < 55296 \/ (57344 <= c /\ c < 1114112).
Definition utf8_encode (c : N) : bytes :=
  if c <? 128 then [c]
  else if c <? 2048 then [192 + c / 64; 128 + c mod 64]
  else if c <? 65536 then [224 + c / 4096; 128 + (c / 64) mod 64; 128 + c mod 64]
  else [240 + c / 262144; 128 + (c / 4096) mod 64; 128 + (c / 64) mod 64; 128 + c mod 64].
(** Well-formed UTF-8: the encoding of some sequence of scalar values. *)
Definition utf8 (l : bytes) : Prop :=
  exists cs, Forall scalar cs /\ l = flat_map utf8_encode cs.

(** A value of the string type selected by the feature: String, Box<str> and Cow<str>
    hold well-formed UTF-8, Bytes (binary_string) anything. *)
Definition text (ft : feature) (s : bytes) : Prop :=
  bytes_ok s /\ match ft with F_binary => True | _ => utf8 s end.

(** ---------- Wire fields ---------- *)

(** A packet is laid out as a sequence of fields. *)
Inductive field : Type :=
| FByte (n : N)      (* one byte *)
| FTwo (n : N)       (* two byte integer *)
| FFour (n : N)      (* four byte integer *)
| FVar (n : N)       (* variable byte integer *)
| FBin (s : bytes)   (* two byte length, then the bytes: strings and binary data *)
| FRaw (s : bytes)   (* bytes without a length: the PUBLISH payload *)
| FId (n : N).       (* mandatory non-zero packet identifier; 0 stands for "missing" *)

Definition field_bytes (f : field) : bytes :=
  match f with
  | FByte n => [n]
  | FTwo n => u16be n
  | FFour n => u32be n
  | FVar n => varint n
  | FBin s => u16be (blen s) ++ s
  | FRaw s => s
  | FId n => if n =? 0 then [] else u16be n
  end.

(** Why a field has no encoding, if it has none. *)
Definition field_error (f : field) : option error :=
  match f with
  | FVar n => if n <=? max_varint then None else Some PayloadTooLong
  | FBin s => if blen s <=? 65535 then None else Some BinaryDataTooLong
  | FId n => if n =? 0 then Some PacketIdZero else None
  | _ => None
  end.

Definition fields_bytes (l : list field) : bytes := flat_map field_bytes l.

(** The first field (in wire order) that has no encoding. *)
Fixpoint first_error (l : list field) : option error :=
  match l with
  | [] => None
  | f :: l => match field_error f with Some e => Some e | None => first_error l end
  end.

(** ---------- Properties (MQTT 5.0 section 2.2.2) ---------- *)

(** A property value: numbers, UTF-8 string, binary data, string pair. *)
Inductive pvalue : Type :=
| VByte (n : N) | VTwo (n : N) | VFour (n : N) | VVar (n : N)
| VStr (s : bytes) | VBin (s : bytes) | VPair (k v : bytes).
(** Property identifier and value. *)
Definition item : Type := (N * pvalue)%type.

Definition value_fields (v : pvalue) : list field :=
  match v with
  | VByte n => [FByte n]
  | VTwo n => [FTwo n]
  | VFour n => [FFour n]
  | VVar n => [FVar n]
  | VStr s => [FBin s]
  | VBin s => [FBin s]
  | VPair k v => [FBin k; FBin v]
  end.
Definition item_fields (i : item) : list field := FByte (fst i) :: value_fields (snd i).
Definition items_fields (l : list item) : list field := flat_map item_fields l.

(** Property length followed by the properties. *)
Definition section_fields (l : list item) : list field :=
  FVar (blen (fields_bytes (items_fields l))) :: items_fields l.

(** Data types of Table 2-4. *)
Inductive kind : Type := KByte | KTwo | KFour | KVar | KStr | KBin | KPair.
Definition property_kind (id : N) : option kind :=
  match id with
  | 1 => Some KByte    (* Payload Format Indicator *)
  | 2 => Some KFour    (* Message Expiry Interval *)
  | 3 => Some KStr     (* Content Type *)
  | 8 => Some KStr     (* Response Topic *)
  | 9 => Some KBin     (* Correlation Data *)
  | 11 => Some KVar    (* Subscription Identifier *)
  | 17 => Some KFour   (* Session Expiry Interval *)
  | 18 => Some KStr    (* Assigned Client Identifier *)
  | 19 => Some KTwo    (* Server Keep Alive *)
  | 21 => Some KStr    (* Authentication Method *)
  | 22 => Some KBin    (* Authentication Data *)
  | 23 => Some KByte   (* Request Problem Information *)
  | 24 => Some KFour   (* Will Delay Interval *)
  | 25 => Some KByte   (* Request Response Information *)
  | 26 => Some KStr    (* Response Information *)
  | 28 => Some KStr    (* Server Reference *)
  | 31 => Some KStr    (* Reason String *)
  | 33 => Some KTwo    (* Receive Maximum *)
  | 34 => Some KTwo    (* Topic Alias Maximum *)
  | 35 => Some KTwo    (* Topic Alias *)
  | 36 => Some KByte   (* Maximum QoS *)
  | 37 => Some KByte   (* Retain Available *)
  | 38 => Some KPair   (* User Property *)
  | 39 => Some KFour   (* Maximum Packet Size *)
  | 40 => Some KByte   (* Wildcard Subscription Available *)
  | 41 => Some KByte   (* Subscription Identifier Available *)
  | 42 => Some KByte   (* Shared Subscription Available *)
  | _ => None
  end.
Definition value_kind (v : pvalue) : kind :=
  match v with
  | VByte _ => KByte | VTwo _ => KTwo | VFour _ => KFour | VVar _ => KVar
  | VStr _ => KStr | VBin _ => KBin | VPair _ _ => KPair
  end.

(** Table 2-4: the properties each packet may carry. *)
Definition connect_allowed : list N := [17; 21; 22; 23; 25; 33; 34; 38; 39].
Definition will_allowed : list N := [1; 2; 3; 8; 9; 24; 38].
Definition connack_allowed : list N :=
  [17; 18; 19; 21; 22; 26; 28; 31; 33; 34; 36; 37; 38; 39; 40; 41; 42].
Definition publish_allowed : list N := [1; 2; 3; 8; 9; 11; 35; 38].
Definition ack_allowed : list N := [31; 38].   (* PUBACK PUBREC PUBREL PUBCOMP SUBACK UNSUBACK *)
Definition subscribe_allowed : list N := [11; 38].
Definition unsubscribe_allowed : list N := [38].
Definition disconnect_allowed : list N := [17; 28; 31; 38].

(** ---------- Property structures as item lists (in the order written) ---------- *)

Definition num (id : N) (k : N -> pvalue) (o : option N) : list item :=
  match o with Some n => [(id, k n)] | None => [] end.
Definition str (id : N) (k : bytes -> pvalue) (o : option bytes) : list item :=
  match o with Some s => [(id, k s)] | None => [] end.
Definition users (l : user_props) : list item := map (fun '(k, v) => (38, VPair k v)) l.
Definition sub_ids (l : list N) : list item := map (fun n => (11, VVar n)) l.

Definition ConnectProperties_items (p : ConnectProperties) : list item :=
  num 17 VFour (cp_session_expiry_interval p)
  ++ num 33 VTwo (cp_receive_maximum p)
  ++ num 39 VFour (cp_max_packet_size p)
  ++ num 34 VTwo (cp_topic_alias_max p)
  ++ num 25 VByte (cp_request_response_info p)
  ++ num 23 VByte (cp_request_problem_info p)
  ++ users (cp_user_properties p)
  ++ str 21 VStr (cp_authentication_method p)
  ++ str 22 VBin (cp_authentication_data p).

Definition LastWillProperties_items (p : LastWillProperties) : list item :=
  num 24 VFour (wp_delay_interval p)
  ++ num 1 VByte (wp_payload_format_indicator p)
  ++ num 2 VFour (wp_message_expiry_interval p)
  ++ str 3 VStr (wp_content_type p)
  ++ str 8 VStr (wp_response_topic p)
  ++ str 9 VBin (wp_correlation_data p)
  ++ users (wp_user_properties p).

Definition ConnAckProperties_items (p : ConnAckProperties) : list item :=
  num 17 VFour (ca_session_expiry_interval p)
  ++ num 33 VTwo (ca_receive_max p)
  ++ num 36 VByte (ca_max_qos p)
  ++ num 37 VByte (ca_retain_available p)
  ++ num 39 VFour (ca_max_packet_size p)
  ++ str 18 VStr (ca_assigned_client_identifier p)
  ++ num 34 VTwo (ca_topic_alias_max p)
  ++ str 31 VStr (ca_reason_string p)
  ++ users (ca_user_properties p)
  ++ num 40 VByte (ca_wildcard_subscription_available p)
  ++ num 41 VByte (ca_subscription_identifiers_available p)
  ++ num 42 VByte (ca_shared_subscription_available p)
  ++ num 19 VTwo (ca_server_keep_alive p)
  ++ str 26 VStr (ca_response_information p)
  ++ str 28 VStr (ca_server_reference p)
  ++ str 21 VStr (ca_authentication_method p)
  ++ str 22 VBin (ca_authentication_data p).

Definition PublishProperties_items (p : PublishProperties) : list item :=
  num 1 VByte (pp_payload_format_indicator p)
  ++ num 2 VFour (pp_message_expiry_interval p)
  ++ num 35 VTwo (pp_topic_alias p)
  ++ str 8 VStr (pp_response_topic p)
  ++ str 9 VBin (pp_correlation_data p)
  ++ users (pp_user_properties p)
  ++ sub_ids (pp_subscription_identifiers p)
  ++ str 3 VStr (pp_content_type p).

Definition ack_items (reason : option bytes) (ups : user_props) : list item :=
  str 31 VStr reason ++ users ups.
Definition PubAckProperties_items (p : PubAckProperties) : list item :=
  ack_items (pap_reason_string p) (pap_user_properties p).
Definition PubRecProperties_items (p : PubRecProperties) : list item :=
  ack_items (prp_reason_string p) (prp_user_properties p).
Definition PubRelProperties_items (p : PubRelProperties) : list item :=
  ack_items (plp_reason_string p) (plp_user_properties p).
Definition PubCompProperties_items (p : PubCompProperties) : list item :=
  ack_items (pcp_reason_string p) (pcp_user_properties p).
Definition SubAckProperties_items (p : SubAckProperties) : list item :=
  ack_items (sap_reason_string p) (sap_user_properties p).
Definition UnsubAckProperties_items (p : UnsubAckProperties) : list item :=
  ack_items (uap_reason_string p) (uap_user_properties p).
Definition SubscribeProperties_items (p : SubscribeProperties) : list item :=
  num 11 VVar (sp_id p) ++ users (sp_user_properties p).
Definition UnsubscribeProperties_items (p : UnsubscribeProperties) : list item :=
  users (usp_user_properties p).
Definition DisconnectProperties_items (p : DisconnectProperties) : list item :=
  num 17 VFour (dp_session_expiry_interval p)
  ++ str 31 VStr (dp_reason_string p)
  ++ users (dp_user_properties p)
  ++ str 28 VStr (dp_server_reference p).

(** The items of an optional property structure. *)
Definition opt_items {A} (f : A -> list item) (o : option A) : list item :=
  match o with Some p => f p | None => [] end.

(** ---------- Codes (MQTT 5.0 section 2.4 and the packet sections) ---------- *)

Definition qos_num (q : QoS) : N :=
  match q with AtMostOnce => 0 | AtLeastOnce => 1 | ExactlyOnce => 2 end.
Definition bit (b : bool) (n : N) : N := if b then n else 0.

(** CONNACK (3.2.2.2).  The first three are MQTT 3.1.1 return codes without an MQTT 5
    code; theorems about encodings exclude them ([legacy_code]). *)
Definition connack_code (c : ConnectReturnCode) : N :=
  match c with
  | CRC_RefusedProtocolVersion => 1 | CRC_BadClientId => 2 | CRC_ServiceUnavailable => 3
  | CRC_Success => 0 | CRC_UnspecifiedError => 128 | CRC_MalformedPacket => 129
  | CRC_ProtocolError => 130 | CRC_ImplementationSpecificError => 131
  | CRC_UnsupportedProtocolVersion => 132 | CRC_ClientIdentifierNotValid => 133
  | CRC_BadUserNamePassword => 134 | CRC_NotAuthorized => 135 | CRC_ServerUnavailable => 136
  | CRC_ServerBusy => 137 | CRC_Banned => 138 | CRC_BadAuthenticationMethod => 140
  | CRC_TopicNameInvalid => 144 | CRC_PacketTooLarge => 149 | CRC_QuotaExceeded => 151
  | CRC_PayloadFormatInvalid => 153 | CRC_RetainNotSupported => 154 | CRC_QoSNotSupported => 155
  | CRC_UseAnotherServer => 156 | CRC_ServerMoved => 157 | CRC_ConnectionRateExceeded => 159
  end.
Definition legacy_code (c : ConnectReturnCode) : bool :=
  match c with
  | CRC_RefusedProtocolVersion | CRC_BadClientId | CRC_ServiceUnavailable => true
  | _ => false
  end.
(** PUBACK (3.4.2.1) and PUBREC (3.5.2.1). *)
Definition puback_code (r : PubAckReason) : N :=
  match r with
  | PAR_Success => 0 | PAR_NoMatchingSubscribers => 16 | PAR_UnspecifiedError => 128
  | PAR_ImplementationSpecificError => 131 | PAR_NotAuthorized => 135
  | PAR_TopicNameInvalid => 144 | PAR_PacketIdentifierInUse => 145 | PAR_QuotaExceeded => 151
  | PAR_PayloadFormatInvalid => 153
  end.
Definition pubrec_code (r : PubRecReason) : N :=
  match r with
  | PRR_Success => 0 | PRR_NoMatchingSubscribers => 16 | PRR_UnspecifiedError => 128
  | PRR_ImplementationSpecificError => 131 | PRR_NotAuthorized => 135
  | PRR_TopicNameInvalid => 144 | PRR_PacketIdentifierInUse => 145 | PRR_QuotaExceeded => 151
  | PRR_PayloadFormatInvalid => 153
  end.
(** PUBREL (3.6.2.1) and PUBCOMP (3.7.2.1). *)
Definition pubrel_code (r : PubRelReason) : N :=
  match r with PLR_Success => 0 | PLR_PacketIdentifierNotFound => 146 end.
Definition pubcomp_code (r : PubCompReason) : N :=
  match r with PCR_Success => 0 | PCR_PacketIdentifierNotFound => 146 end.
(** SUBACK (3.9.3). *)
Definition suback_code (r : SubscribeReasonCode) : N :=
  match r with
  | SRC_Success q => qos_num q | SRC_Unspecified => 128 | SRC_ImplementationSpecific => 131
  | SRC_NotAuthorized => 135 | SRC_TopicFilterInvalid => 143 | SRC_PkidInUse => 145
  | SRC_QuotaExceeded => 151 | SRC_SharedSubscriptionsNotSupported => 158
  | SRC_SubscriptionIdNotSupported => 161 | SRC_WildcardSubscriptionsNotSupported => 162
  end.
(** UNSUBACK (3.11.3). *)
Definition unsuback_code (r : UnsubAckReason) : N :=
  match r with
  | UAR_Success => 0 | UAR_NoSubscriptionExisted => 17 | UAR_UnspecifiedError => 128
  | UAR_ImplementationSpecificError => 131 | UAR_NotAuthorized => 135
  | UAR_TopicFilterInvalid => 143 | UAR_PacketIdentifierInUse => 145
  end.
(** DISCONNECT (3.14.2.1). *)
Definition disconnect_code (r : DisconnectReasonCode) : N :=
  match r with
  | DRC_NormalDisconnection => 0 | DRC_DisconnectWithWillMessage => 4
  | DRC_UnspecifiedError => 128 | DRC_MalformedPacket => 129 | DRC_ProtocolError => 130
  | DRC_ImplementationSpecificError => 131 | DRC_NotAuthorized => 135 | DRC_ServerBusy => 137
  | DRC_ServerShuttingDown => 139 | DRC_KeepAliveTimeout => 141 | DRC_SessionTakenOver => 142
  | DRC_TopicFilterInvalid => 143 | DRC_TopicNameInvalid => 144
  | DRC_ReceiveMaximumExceeded => 147 | DRC_TopicAliasInvalid => 148 | DRC_PacketTooLarge => 149
  | DRC_MessageRateTooHigh => 150 | DRC_QuotaExceeded => 151 | DRC_AdministrativeAction => 152
  | DRC_PayloadFormatInvalid => 153 | DRC_RetainNotSupported => 154 | DRC_QoSNotSupported => 155
  | DRC_UseAnotherServer => 156 | DRC_ServerMoved => 157
  | DRC_SharedSubscriptionNotSupported => 158 | DRC_ConnectionRateExceeded => 159
  | DRC_MaximumConnectTime => 160 | DRC_SubscriptionIdentifiersNotSupported => 161
  | DRC_WildcardSubscriptionsNotSupported => 162
  end.

(** ---------- Packets ---------- *)

Definition nonempty {A} (l : list A) : bool := match l with [] => false | _ => true end.

(** 3.1.2.3: CONNECT flags.  The crate signals user name / password by their being
    non-empty. *)
Definition connect_flags (clean : bool) (w : option LastWill) (l : option Login) : N :=
  bit clean 2
  + (match w with
     | Some w => 4 + 8 * qos_num (lw_qos w) + bit (lw_retain w) 32
     | None => 0
     end)
  + (match l with
     | Some l => bit (nonempty (lo_password l)) 64 + bit (nonempty (lo_username l)) 128
     | None => 0
     end).

Definition mqtt : bytes := [77; 81; 84; 84].   (* "MQTT" *)

Definition will_fields (w : option LastWill) : list field :=
  match w with
  | Some w => section_fields (opt_items LastWillProperties_items (lw_properties w))
              ++ [FBin (lw_topic w); FBin (lw_message w)]
  | None => []
  end.
Definition login_fields (l : option Login) : list field :=
  match l with
  | Some l => (if nonempty (lo_username l) then [FBin (lo_username l)] else [])
              ++ (if nonempty (lo_password l) then [FBin (lo_password l)] else [])
  | None => []
  end.
(** 3.1.2, 3.1.3 with an arbitrary flags byte. *)
Definition connect_fields (flags : N) (c : Connect) (w : option LastWill) (l : option Login)
  : list field :=
  [FBin mqtt; FByte 5; FByte flags; FTwo (co_keep_alive c)]
  ++ section_fields (opt_items ConnectProperties_items (co_properties c))
  ++ [FBin (co_client_id c)] ++ will_fields w ++ login_fields l.

(** 3.8.3.1: subscription options. *)
Definition filter_options (f : Filter) : N :=
  qos_num (fi_qos f) + bit (fi_nolocal f) 4 + bit (fi_preserve_retain f) 8
  + 16 * match fi_retain_forward_rule f with
         | OnEverySubscribe => 0 | OnNewSubscribe => 1 | Never => 2 end.
Definition filter_fields (f : Filter) : list field := [FBin (fi_path f); FByte (filter_options f)].

(** Acknowledgements may end after the packet identifier (2 bytes) when the reason is
    Success and there are no properties. *)
Definition ack_fields (pkid code : N) (none : bool) (items : list item) : list field :=
  if (code =? 0) && none then [FTwo pkid]
  else [FTwo pkid; FByte code] ++ section_fields items.
Definition is_none {A} (o : option A) : bool := match o with None => true | _ => false end.

(** Variable header and payload. *)
Definition body_fields (p : Packet) : list field :=
  match p with
  | P_Connect c w l => connect_fields (connect_flags (co_clean_start c) w l) c w l
  | P_ConnAck a =>
      [FByte (bit (ck_session_present a) 1); FByte (connack_code (ck_code a))]
      ++ section_fields (opt_items ConnAckProperties_items (ck_properties a))
  | P_Publish p =>
      [FBin (pu_topic p)]
      ++ (match pu_qos p with AtMostOnce => [] | _ => [FId (pu_pkid p)] end)
      ++ section_fields (opt_items PublishProperties_items (pu_properties p))
      ++ [FRaw (pu_payload p)]
  | P_PubAck a =>
      ack_fields (pa_pkid a) (puback_code (pa_reason a)) (is_none (pa_properties a))
        (opt_items PubAckProperties_items (pa_properties a))
  | P_PubRec a =>
      ack_fields (pr_pkid a) (pubrec_code (pr_reason a)) (is_none (pr_properties a))
        (opt_items PubRecProperties_items (pr_properties a))
  | P_PubRel a =>
      ack_fields (pl_pkid a) (pubrel_code (pl_reason a)) (is_none (pl_properties a))
        (opt_items PubRelProperties_items (pl_properties a))
  | P_PubComp a =>
      ack_fields (pc_pkid a) (pubcomp_code (pc_reason a)) (is_none (pc_properties a))
        (opt_items PubCompProperties_items (pc_properties a))
  | P_Subscribe s =>
      [FTwo (su_pkid s)]
      ++ section_fields (opt_items SubscribeProperties_items (su_properties s))
      ++ flat_map filter_fields (su_filters s)
  | P_SubAck a =>
      [FTwo (sa_pkid a)]
      ++ section_fields (opt_items SubAckProperties_items (sa_properties a))
      ++ map (fun r => FByte (suback_code r)) (sa_return_codes a)
  | P_Unsubscribe u =>
      [FTwo (un_pkid u)]
      ++ section_fields (opt_items UnsubscribeProperties_items (un_properties u))
      ++ map FBin (un_filters u)
  | P_UnsubAck a =>
      [FTwo (ua_pkid a)]
      ++ section_fields (opt_items UnsubAckProperties_items (ua_properties a))
      ++ map (fun r => FByte (unsuback_code r)) (ua_reasons a)
  | P_PingReq => []
  | P_PingResp => []
  | P_Disconnect d =>
      let items := opt_items DisconnectProperties_items (di_properties d) in
      if (disconnect_code (di_reason_code d) =? 0) && negb (nonempty items) then []
      else [FByte (disconnect_code (di_reason_code d))] ++ section_fields items
  end.

(** 2.1.2, 2.1.3: packet type and flags. *)
Definition first_byte (p : Packet) : N :=
  match p with
  | P_Connect _ _ _ => 16
  | P_ConnAck _ => 32
  | P_Publish p => 48 + bit (pu_dup p) 8 + 2 * qos_num (pu_qos p) + bit (pu_retain p) 1
  | P_PubAck _ => 64
  | P_PubRec _ => 80
  | P_PubRel _ => 98
  | P_PubComp _ => 112
  | P_Subscribe _ => 130
  | P_SubAck _ => 144
  | P_Unsubscribe _ => 162
  | P_UnsubAck _ => 176
  | P_PingReq => 192
  | P_PingResp => 208
  | P_Disconnect _ => 224
  end.

(** The whole packet: fixed header (type, remaining length), then the body. *)
Definition frame_fields (byte1 : N) (body : list field) : list field :=
  FByte byte1 :: FVar (blen (fields_bytes body)) :: body.
Definition packet_fields (p : Packet) : list field := frame_fields (first_byte p) (body_fields p).

(** The MQTT 5 encoding of a packet. *)
Definition encode (p : Packet) : bytes := fields_bytes (packet_fields p).

(** Every field has an encoding: strings and binary data at most 65535 bytes, variable byte
    integers (remaining length, property lengths, subscription identifiers) at most
    268435455, packet identifier of a QoS>0 PUBLISH not 0. *)
Definition encodable (p : Packet) : Prop := Forall (fun f => field_error f = None) (packet_fields p).

(** ---------- Shapes the crate mishandles ---------- *)

(** DISCONNECT with a reason other than normal disconnection and no (or empty) properties. *)
Definition bad_disconnect (p : Packet) : bool :=
  match p with
  | P_Disconnect d =>
      negb (disconnect_code (di_reason_code d) =? 0)
      && negb (nonempty (opt_items DisconnectProperties_items (di_properties d)))
  | _ => false
  end.
(** CONNACK with a return code that has no MQTT 5 code. *)
Definition legacy_connack (p : Packet) : bool :=
  match p with P_ConnAck a => legacy_code (ck_code a) | _ => false end.
Definition is_connect (p : Packet) : bool :=
  match p with P_Connect _ _ _ => true | _ => false end.

(** Bytes of a list of subscription identifier properties. *)
Definition ids_size (ids : list N) : N := blen (fields_bytes (items_fields (sub_ids ids))).
(** The j-th identifier (from 0) is only read when j is less than the bytes from it to the
    end of the property section. *)
Fixpoint ids_safe_from (j : N) (ids : list N) : bool :=
  match ids with
  | [] => true
  | id :: r => (j <? ids_size (id :: r)) && ids_safe_from (j + 1) r
  end.
(** PUBLISH properties that survive a round trip: with a content type, fewer identifiers
    than the content type property has bytes; without, see [ids_safe_from]. *)
Definition ids_safe (ids : list N) (content_type : option bytes) : bool :=
  match content_type with
  | Some ct => N.of_nat (length ids) <? 3 + blen ct
  | None => ids_safe_from 0 ids
  end.
Definition publish_safe (p : Packet) : bool :=
  match p with
  | P_Publish p =>
      match pu_properties p with
      | Some q => ids_safe (pp_subscription_identifiers q) (pp_content_type q)
      | None => true
      end
  | _ => true
  end.
(** Packets whose list must not be empty. *)
Definition list_safe (p : Packet) : bool :=
  match p with
  | P_Subscribe s => nonempty (su_filters s)
  | P_SubAck a => nonempty (sa_return_codes a)
  | P_UnsubAck a => nonempty (ua_reasons a)
  | _ => true
  end.
Definition roundtrip_safe (p : Packet) : bool :=
  negb (bad_disconnect p) && negb (legacy_connack p) && publish_safe p && list_safe p.

(** ---------- Values of the Rust types ---------- *)

Definition value_ok (ft : feature) (v : pvalue) : Prop :=
  match v with
  | VByte n => n < 256
  | VTwo n => n < 65536
  | VFour n => n < 4294967296
  | VVar n => True
  | VStr s => text ft s
  | VBin s => bytes_ok s
  | VPair k v => text ft k /\ text ft v
  end.
Definition items_ok (ft : feature) (l : list item) : Prop :=
  Forall (fun i => value_ok ft (snd i)) l.

(** u16 fields below 65536, String fields well-formed UTF-8, Bytes fields bytes. *)
Definition rust_packet (ft : feature) (p : Packet) : Prop :=
  match p with
  | P_Connect c w l =>
      co_keep_alive c < 65536 /\ text ft (co_client_id c)
      /\ items_ok ft (opt_items ConnectProperties_items (co_properties c))
      /\ (forall w', w = Some w' ->
            bytes_ok (lw_topic w') /\ bytes_ok (lw_message w')
            /\ items_ok ft (opt_items LastWillProperties_items (lw_properties w')))
      /\ (forall l', l = Some l' -> text ft (lo_username l') /\ text ft (lo_password l'))
  | P_ConnAck a => items_ok ft (opt_items ConnAckProperties_items (ck_properties a))
  | P_Publish p =>
      text ft (pu_topic p) /\ pu_pkid p < 65536 /\ bytes_ok (pu_payload p)
      /\ items_ok ft (opt_items PublishProperties_items (pu_properties p))
  | P_PubAck a => pa_pkid a < 65536
      /\ items_ok ft (opt_items PubAckProperties_items (pa_properties a))
  | P_PubRec a => pr_pkid a < 65536
      /\ items_ok ft (opt_items PubRecProperties_items (pr_properties a))
  | P_PubRel a => pl_pkid a < 65536
      /\ items_ok ft (opt_items PubRelProperties_items (pl_properties a))
  | P_PubComp a => pc_pkid a < 65536
      /\ items_ok ft (opt_items PubCompProperties_items (pc_properties a))
  | P_Subscribe s => su_pkid s < 65536
      /\ items_ok ft (opt_items SubscribeProperties_items (su_properties s))
      /\ Forall (fun f => text ft (fi_path f)) (su_filters s)
  | P_SubAck a => sa_pkid a < 65536
      /\ items_ok ft (opt_items SubAckProperties_items (sa_properties a))
  | P_Unsubscribe u => un_pkid u < 65536
      /\ items_ok ft (opt_items UnsubscribeProperties_items (un_properties u))
      /\ Forall (text ft) (un_filters u)
  | P_UnsubAck a => ua_pkid a < 65536
      /\ items_ok ft (opt_items UnsubAckProperties_items (ua_properties a))
  | P_PingReq => True
  | P_PingResp => True
  | P_Disconnect d => items_ok ft (opt_items DisconnectProperties_items (di_properties d))
  end.

(** ---------- Normalisation ---------- *)

(** An empty property structure is the same as none. *)
Definition drop_empty {A} (f : A -> list item) (o : option A) : option A :=
  match o with
  | Some p => if nonempty (f p) then Some p else None
  | None => None
  end.
Definition normalize_will (w : LastWill) : LastWill :=
  mkLastWill (lw_topic w) (lw_message w) (lw_qos w) (lw_retain w)
    (drop_empty LastWillProperties_items (lw_properties w)).
Definition normalize_login (l : option Login) : option Login :=
  match l with
  | Some l => if nonempty (lo_username l) || nonempty (lo_password l) then Some l else None
  | None => None
  end.
Definition normalize (p : Packet) : Packet :=
  match p with
  | P_Connect c w l =>
      P_Connect (mkConnect (co_keep_alive c) (co_client_id c) (co_clean_start c)
                   (drop_empty ConnectProperties_items (co_properties c)))
        (option_map normalize_will w) (normalize_login l)
  | P_ConnAck a =>
      P_ConnAck (mkConnAck (ck_session_present a) (ck_code a)
                   (drop_empty ConnAckProperties_items (ck_properties a)))
  | P_Publish p =>
      P_Publish (mkPublish (pu_dup p) (pu_qos p) (pu_retain p) (pu_topic p)
                   (match pu_qos p with AtMostOnce => 0 | _ => pu_pkid p end)
                   (pu_payload p) (drop_empty PublishProperties_items (pu_properties p)))
  | P_PubAck a =>
      P_PubAck (mkPubAck (pa_pkid a) (pa_reason a)
                  (drop_empty PubAckProperties_items (pa_properties a)))
  | P_PubRec a =>
      P_PubRec (mkPubRec (pr_pkid a) (pr_reason a)
                  (drop_empty PubRecProperties_items (pr_properties a)))
  | P_PubRel a =>
      P_PubRel (mkPubRel (pl_pkid a) (pl_reason a)
                  (drop_empty PubRelProperties_items (pl_properties a)))
  | P_PubComp a =>
      P_PubComp (mkPubComp (pc_pkid a) (pc_reason a)
                   (drop_empty PubCompProperties_items (pc_properties a)))
  | P_Subscribe s =>
      P_Subscribe (mkSubscribe (su_pkid s) (su_filters s)
                     (drop_empty SubscribeProperties_items (su_properties s)))
  | P_SubAck a =>
      P_SubAck (mkSubAck (sa_pkid a) (sa_return_codes a)
                  (drop_empty SubAckProperties_items (sa_properties a)))
  | P_Unsubscribe u =>
      P_Unsubscribe (mkUnsubscribe (un_pkid u) (un_filters u)
                       (drop_empty UnsubscribeProperties_items (un_properties u)))
  | P_UnsubAck a =>
      P_UnsubAck (mkUnsubAck (ua_pkid a) (ua_reasons a)
                    (drop_empty UnsubAckProperties_items (ua_properties a)))
  | P_PingReq => P_PingReq
  | P_PingResp => P_PingResp
  | P_Disconnect d =>
      P_Disconnect (mkDisconnect (di_reason_code d)
                      (drop_empty DisconnectProperties_items (di_properties d)))
  end.
