(** Model of the derived comparisons of /repo/src: `PartialEq` of the packets, their parts, the errors and the
    fixed header; `PartialOrd` of QoS and of the fixed header; and of mqtt_string_new.
    A derived `eq` compares the variants' discriminants and then the fields in order; a derived `partial_cmp`
    compares the discriminants, or the fields in order until two differ.
    Strings, `Bytes`, `Vec`, `Option` and tuples compare by their contents (their own `PartialEq`). *)
From Verif Require Import Types MLib.

(** `PartialEq` of Option<T>, Vec<T> and (A, B) (standard library, by contents). *)
Definition option_eq {A} (eq : A -> A -> bool) (a b : option A) : bool :=
  match a, b with
  | Some x, Some y => eq x y
  | None, None => true
  | _, _ => false
  end.
Fixpoint vec_eq {A} (eq : A -> A -> bool) (a b : list A) : bool :=
  match a, b with
  | x :: a, y :: b => eq x y && vec_eq eq a b
  | [], [] => true
  | _, _ => false
  end.
Definition pair_eq {A B} (ea : A -> A -> bool) (eb : B -> B -> bool) (a b : A * B) : bool :=
  ea (fst a) (fst b) && eb (snd a) (snd b).
(** `PartialEq` of bool. *)
Definition bool_eq (a b : bool) : bool := eqb a b.
(** `PartialEq` of Vec<(MqttString, MqttString)>. *)
Definition user_props_eq : user_props -> user_props -> bool := vec_eq (pair_eq bytes_eqb bytes_eqb).

(** /repo/src/lib.rs:618 enum QoS: discriminants. *)
Definition QoS_disc (a : QoS) : N :=
  match a with
  | AtMostOnce => 0
  | AtLeastOnce => 1
  | ExactlyOnce => 2
  end.
(** /repo/src/lib.rs:618 derived PartialEq of QoS. *)
Definition QoS_eq (a b : QoS) : bool := QoS_disc a =? QoS_disc b.

(** /repo/src/lib.rs:240 enum PacketType: discriminants. *)
Definition PacketType_disc (a : PacketType) : N :=
  match a with
  | PT_Connect => 1
  | PT_ConnAck => 2
  | PT_Publish => 3
  | PT_PubAck => 4
  | PT_PubRec => 5
  | PT_PubRel => 6
  | PT_PubComp => 7
  | PT_Subscribe => 8
  | PT_SubAck => 9
  | PT_Unsubscribe => 10
  | PT_UnsubAck => 11
  | PT_PingReq => 12
  | PT_PingResp => 13
  | PT_Disconnect => 14
  end.
(** /repo/src/lib.rs:240 derived PartialEq of PacketType. *)
Definition PacketType_eq (a b : PacketType) : bool := PacketType_disc a =? PacketType_disc b.

(** /repo/src/connect.rs:138 derived PartialEq of ConnectProperties. *)
Definition ConnectProperties_eq (a b : ConnectProperties) : bool :=
  (option_eq N.eqb) (cp_session_expiry_interval a) (cp_session_expiry_interval b)
  && (option_eq N.eqb) (cp_receive_maximum a) (cp_receive_maximum b)
  && (option_eq N.eqb) (cp_max_packet_size a) (cp_max_packet_size b)
  && (option_eq N.eqb) (cp_topic_alias_max a) (cp_topic_alias_max b)
  && (option_eq N.eqb) (cp_request_response_info a) (cp_request_response_info b)
  && (option_eq N.eqb) (cp_request_problem_info a) (cp_request_problem_info b)
  && user_props_eq (cp_user_properties a) (cp_user_properties b)
  && (option_eq bytes_eqb) (cp_authentication_method a) (cp_authentication_method b)
  && (option_eq bytes_eqb) (cp_authentication_data a) (cp_authentication_data b).

(** /repo/src/connect.rs:11 derived PartialEq of Connect. *)
Definition Connect_eq (a b : Connect) : bool :=
  N.eqb (co_keep_alive a) (co_keep_alive b)
  && bytes_eqb (co_client_id a) (co_client_id b)
  && bool_eq (co_clean_start a) (co_clean_start b)
  && (option_eq ConnectProperties_eq) (co_properties a) (co_properties b).

(** /repo/src/connect.rs:430 derived PartialEq of LastWillProperties. *)
Definition LastWillProperties_eq (a b : LastWillProperties) : bool :=
  (option_eq N.eqb) (wp_delay_interval a) (wp_delay_interval b)
  && (option_eq N.eqb) (wp_payload_format_indicator a) (wp_payload_format_indicator b)
  && (option_eq N.eqb) (wp_message_expiry_interval a) (wp_message_expiry_interval b)
  && (option_eq bytes_eqb) (wp_content_type a) (wp_content_type b)
  && (option_eq bytes_eqb) (wp_response_topic a) (wp_response_topic b)
  && (option_eq bytes_eqb) (wp_correlation_data a) (wp_correlation_data b)
  && user_props_eq (wp_user_properties a) (wp_user_properties b).

(** /repo/src/connect.rs:357 derived PartialEq of LastWill. *)
Definition LastWill_eq (a b : LastWill) : bool :=
  bytes_eqb (lw_topic a) (lw_topic b)
  && bytes_eqb (lw_message a) (lw_message b)
  && QoS_eq (lw_qos a) (lw_qos b)
  && bool_eq (lw_retain a) (lw_retain b)
  && (option_eq LastWillProperties_eq) (lw_properties a) (lw_properties b).

(** /repo/src/connect.rs:589 derived PartialEq of Login. *)
Definition Login_eq (a b : Login) : bool :=
  bytes_eqb (lo_username a) (lo_username b)
  && bytes_eqb (lo_password a) (lo_password b).

(** /repo/src/connack.rs:12 enum ConnectReturnCode: discriminants. *)
Definition ConnectReturnCode_disc (a : ConnectReturnCode) : N :=
  match a with
  | CRC_Success => 0
  | CRC_RefusedProtocolVersion => 1
  | CRC_BadClientId => 2
  | CRC_ServiceUnavailable => 3
  | CRC_UnspecifiedError => 4
  | CRC_MalformedPacket => 5
  | CRC_ProtocolError => 6
  | CRC_ImplementationSpecificError => 7
  | CRC_UnsupportedProtocolVersion => 8
  | CRC_ClientIdentifierNotValid => 9
  | CRC_BadUserNamePassword => 10
  | CRC_NotAuthorized => 11
  | CRC_ServerUnavailable => 12
  | CRC_ServerBusy => 13
  | CRC_Banned => 14
  | CRC_BadAuthenticationMethod => 15
  | CRC_TopicNameInvalid => 16
  | CRC_PacketTooLarge => 17
  | CRC_QuotaExceeded => 18
  | CRC_PayloadFormatInvalid => 19
  | CRC_RetainNotSupported => 20
  | CRC_QoSNotSupported => 21
  | CRC_UseAnotherServer => 22
  | CRC_ServerMoved => 23
  | CRC_ConnectionRateExceeded => 24
  end.
(** /repo/src/connack.rs:12 derived PartialEq of ConnectReturnCode. *)
Definition ConnectReturnCode_eq (a b : ConnectReturnCode) : bool := ConnectReturnCode_disc a =? ConnectReturnCode_disc b.

(** /repo/src/connack.rs:109 derived PartialEq of ConnAckProperties. *)
Definition ConnAckProperties_eq (a b : ConnAckProperties) : bool :=
  (option_eq N.eqb) (ca_session_expiry_interval a) (ca_session_expiry_interval b)
  && (option_eq N.eqb) (ca_receive_max a) (ca_receive_max b)
  && (option_eq N.eqb) (ca_max_qos a) (ca_max_qos b)
  && (option_eq N.eqb) (ca_retain_available a) (ca_retain_available b)
  && (option_eq N.eqb) (ca_max_packet_size a) (ca_max_packet_size b)
  && (option_eq bytes_eqb) (ca_assigned_client_identifier a) (ca_assigned_client_identifier b)
  && (option_eq N.eqb) (ca_topic_alias_max a) (ca_topic_alias_max b)
  && (option_eq bytes_eqb) (ca_reason_string a) (ca_reason_string b)
  && user_props_eq (ca_user_properties a) (ca_user_properties b)
  && (option_eq N.eqb) (ca_wildcard_subscription_available a) (ca_wildcard_subscription_available b)
  && (option_eq N.eqb) (ca_subscription_identifiers_available a) (ca_subscription_identifiers_available b)
  && (option_eq N.eqb) (ca_shared_subscription_available a) (ca_shared_subscription_available b)
  && (option_eq N.eqb) (ca_server_keep_alive a) (ca_server_keep_alive b)
  && (option_eq bytes_eqb) (ca_response_information a) (ca_response_information b)
  && (option_eq bytes_eqb) (ca_server_reference a) (ca_server_reference b)
  && (option_eq bytes_eqb) (ca_authentication_method a) (ca_authentication_method b)
  && (option_eq bytes_eqb) (ca_authentication_data a) (ca_authentication_data b).

(** /repo/src/connack.rs:42 derived PartialEq of ConnAck. *)
Definition ConnAck_eq (a b : ConnAck) : bool :=
  bool_eq (ck_session_present a) (ck_session_present b)
  && ConnectReturnCode_eq (ck_code a) (ck_code b)
  && (option_eq ConnAckProperties_eq) (ck_properties a) (ck_properties b).

(** /repo/src/publish.rs:130 derived PartialEq of PublishProperties. *)
Definition PublishProperties_eq (a b : PublishProperties) : bool :=
  (option_eq N.eqb) (pp_payload_format_indicator a) (pp_payload_format_indicator b)
  && (option_eq N.eqb) (pp_message_expiry_interval a) (pp_message_expiry_interval b)
  && (option_eq N.eqb) (pp_topic_alias a) (pp_topic_alias b)
  && (option_eq bytes_eqb) (pp_response_topic a) (pp_response_topic b)
  && (option_eq bytes_eqb) (pp_correlation_data a) (pp_correlation_data b)
  && user_props_eq (pp_user_properties a) (pp_user_properties b)
  && (vec_eq N.eqb) (pp_subscription_identifiers a) (pp_subscription_identifiers b)
  && (option_eq bytes_eqb) (pp_content_type a) (pp_content_type b).

(** /repo/src/publish.rs:11 derived PartialEq of Publish. *)
Definition Publish_eq (a b : Publish) : bool :=
  bool_eq (pu_dup a) (pu_dup b)
  && QoS_eq (pu_qos a) (pu_qos b)
  && bool_eq (pu_retain a) (pu_retain b)
  && bytes_eqb (pu_topic a) (pu_topic b)
  && N.eqb (pu_pkid a) (pu_pkid b)
  && bytes_eqb (pu_payload a) (pu_payload b)
  && (option_eq PublishProperties_eq) (pu_properties a) (pu_properties b).

(** /repo/src/puback.rs:10 enum PubAckReason: discriminants. *)
Definition PubAckReason_disc (a : PubAckReason) : N :=
  match a with
  | PAR_Success => 0
  | PAR_NoMatchingSubscribers => 1
  | PAR_UnspecifiedError => 2
  | PAR_ImplementationSpecificError => 3
  | PAR_NotAuthorized => 4
  | PAR_TopicNameInvalid => 5
  | PAR_PacketIdentifierInUse => 6
  | PAR_QuotaExceeded => 7
  | PAR_PayloadFormatInvalid => 8
  end.
(** /repo/src/puback.rs:10 derived PartialEq of PubAckReason. *)
Definition PubAckReason_eq (a b : PubAckReason) : bool := PubAckReason_disc a =? PubAckReason_disc b.

(** /repo/src/puback.rs:129 derived PartialEq of PubAckProperties. *)
Definition PubAckProperties_eq (a b : PubAckProperties) : bool :=
  (option_eq bytes_eqb) (pap_reason_string a) (pap_reason_string b)
  && user_props_eq (pap_user_properties a) (pap_user_properties b).

(** /repo/src/puback.rs:24 derived PartialEq of PubAck. *)
Definition PubAck_eq (a b : PubAck) : bool :=
  N.eqb (pa_pkid a) (pa_pkid b)
  && PubAckReason_eq (pa_reason a) (pa_reason b)
  && (option_eq PubAckProperties_eq) (pa_properties a) (pa_properties b).

(** /repo/src/pubrec.rs:10 enum PubRecReason: discriminants. *)
Definition PubRecReason_disc (a : PubRecReason) : N :=
  match a with
  | PRR_Success => 0
  | PRR_NoMatchingSubscribers => 1
  | PRR_UnspecifiedError => 2
  | PRR_ImplementationSpecificError => 3
  | PRR_NotAuthorized => 4
  | PRR_TopicNameInvalid => 5
  | PRR_PacketIdentifierInUse => 6
  | PRR_QuotaExceeded => 7
  | PRR_PayloadFormatInvalid => 8
  end.
(** /repo/src/pubrec.rs:10 derived PartialEq of PubRecReason. *)
Definition PubRecReason_eq (a b : PubRecReason) : bool := PubRecReason_disc a =? PubRecReason_disc b.

(** /repo/src/pubrec.rs:124 derived PartialEq of PubRecProperties. *)
Definition PubRecProperties_eq (a b : PubRecProperties) : bool :=
  (option_eq bytes_eqb) (prp_reason_string a) (prp_reason_string b)
  && user_props_eq (prp_user_properties a) (prp_user_properties b).

(** /repo/src/pubrec.rs:25 derived PartialEq of PubRec. *)
Definition PubRec_eq (a b : PubRec) : bool :=
  N.eqb (pr_pkid a) (pr_pkid b)
  && PubRecReason_eq (pr_reason a) (pr_reason b)
  && (option_eq PubRecProperties_eq) (pr_properties a) (pr_properties b).

(** /repo/src/pubrel.rs:10 enum PubRelReason: discriminants. *)
Definition PubRelReason_disc (a : PubRelReason) : N :=
  match a with
  | PLR_Success => 0
  | PLR_PacketIdentifierNotFound => 1
  end.
(** /repo/src/pubrel.rs:10 derived PartialEq of PubRelReason. *)
Definition PubRelReason_eq (a b : PubRelReason) : bool := PubRelReason_disc a =? PubRelReason_disc b.

(** /repo/src/pubrel.rs:123 derived PartialEq of PubRelProperties. *)
Definition PubRelProperties_eq (a b : PubRelProperties) : bool :=
  (option_eq bytes_eqb) (plp_reason_string a) (plp_reason_string b)
  && user_props_eq (plp_user_properties a) (plp_user_properties b).

(** /repo/src/pubrel.rs:18 derived PartialEq of PubRel. *)
Definition PubRel_eq (a b : PubRel) : bool :=
  N.eqb (pl_pkid a) (pl_pkid b)
  && PubRelReason_eq (pl_reason a) (pl_reason b)
  && (option_eq PubRelProperties_eq) (pl_properties a) (pl_properties b).

(** /repo/src/pubcomp.rs:10 enum PubCompReason: discriminants. *)
Definition PubCompReason_disc (a : PubCompReason) : N :=
  match a with
  | PCR_Success => 0
  | PCR_PacketIdentifierNotFound => 1
  end.
(** /repo/src/pubcomp.rs:10 derived PartialEq of PubCompReason. *)
Definition PubCompReason_eq (a b : PubCompReason) : bool := PubCompReason_disc a =? PubCompReason_disc b.

(** /repo/src/pubcomp.rs:122 derived PartialEq of PubCompProperties. *)
Definition PubCompProperties_eq (a b : PubCompProperties) : bool :=
  (option_eq bytes_eqb) (pcp_reason_string a) (pcp_reason_string b)
  && user_props_eq (pcp_user_properties a) (pcp_user_properties b).

(** /repo/src/pubcomp.rs:18 derived PartialEq of PubComp. *)
Definition PubComp_eq (a b : PubComp) : bool :=
  N.eqb (pc_pkid a) (pc_pkid b)
  && PubCompReason_eq (pc_reason a) (pc_reason b)
  && (option_eq PubCompProperties_eq) (pc_properties a) (pc_properties b).

(** /repo/src/subscribe.rs:190 enum RetainForwardRule: discriminants. *)
Definition RetainForwardRule_disc (a : RetainForwardRule) : N :=
  match a with
  | OnEverySubscribe => 0
  | OnNewSubscribe => 1
  | Never => 2
  end.
(** /repo/src/subscribe.rs:190 derived PartialEq of RetainForwardRule. *)
Definition RetainForwardRule_eq (a b : RetainForwardRule) : bool := RetainForwardRule_disc a =? RetainForwardRule_disc b.

(** /repo/src/subscribe.rs:108 derived PartialEq of Filter. *)
Definition Filter_eq (a b : Filter) : bool :=
  bytes_eqb (fi_path a) (fi_path b)
  && QoS_eq (fi_qos a) (fi_qos b)
  && bool_eq (fi_nolocal a) (fi_nolocal b)
  && bool_eq (fi_preserve_retain a) (fi_preserve_retain b)
  && RetainForwardRule_eq (fi_retain_forward_rule a) (fi_retain_forward_rule b).

(** /repo/src/subscribe.rs:203 derived PartialEq of SubscribeProperties. *)
Definition SubscribeProperties_eq (a b : SubscribeProperties) : bool :=
  (option_eq N.eqb) (sp_id a) (sp_id b)
  && user_props_eq (sp_user_properties a) (sp_user_properties b).

(** /repo/src/subscribe.rs:10 derived PartialEq of Subscribe. *)
Definition Subscribe_eq (a b : Subscribe) : bool :=
  N.eqb (su_pkid a) (su_pkid b)
  && (vec_eq Filter_eq) (su_filters a) (su_filters b)
  && (option_eq SubscribeProperties_eq) (su_properties a) (su_properties b).

(** /repo/src/suback.rs:87 enum SubscribeReasonCode: discriminants. *)
Definition SubscribeReasonCode_disc (a : SubscribeReasonCode) : N :=
  match a with
  | SRC_Success _ => 0
  | SRC_Unspecified => 1
  | SRC_ImplementationSpecific => 2
  | SRC_NotAuthorized => 3
  | SRC_TopicFilterInvalid => 4
  | SRC_PkidInUse => 5
  | SRC_QuotaExceeded => 6
  | SRC_SharedSubscriptionsNotSupported => 7
  | SRC_SubscriptionIdNotSupported => 8
  | SRC_WildcardSubscriptionsNotSupported => 9
  end.
(** /repo/src/suback.rs:87 derived PartialEq of SubscribeReasonCode. *)
Definition SubscribeReasonCode_eq (a b : SubscribeReasonCode) : bool :=
  (SubscribeReasonCode_disc a =? SubscribeReasonCode_disc b)
  && match a, b with
     | SRC_Success x, SRC_Success y => QoS_eq x y
     | _, _ => true
     end.

(** /repo/src/suback.rs:101 derived PartialEq of SubAckProperties. *)
Definition SubAckProperties_eq (a b : SubAckProperties) : bool :=
  (option_eq bytes_eqb) (sap_reason_string a) (sap_reason_string b)
  && user_props_eq (sap_user_properties a) (sap_user_properties b).

(** /repo/src/suback.rs:10 derived PartialEq of SubAck. *)
Definition SubAck_eq (a b : SubAck) : bool :=
  N.eqb (sa_pkid a) (sa_pkid b)
  && (vec_eq SubscribeReasonCode_eq) (sa_return_codes a) (sa_return_codes b)
  && (option_eq SubAckProperties_eq) (sa_properties a) (sa_properties b).

(** /repo/src/unsubscribe.rs:97 derived PartialEq of UnsubscribeProperties. *)
Definition UnsubscribeProperties_eq (a b : UnsubscribeProperties) : bool :=
  user_props_eq (usp_user_properties a) (usp_user_properties b).

(** /repo/src/unsubscribe.rs:10 derived PartialEq of Unsubscribe. *)
Definition Unsubscribe_eq (a b : Unsubscribe) : bool :=
  N.eqb (un_pkid a) (un_pkid b)
  && (vec_eq bytes_eqb) (un_filters a) (un_filters b)
  && (option_eq UnsubscribeProperties_eq) (un_properties a) (un_properties b).

(** /repo/src/unsuback.rs:86 enum UnsubAckReason: discriminants. *)
Definition UnsubAckReason_disc (a : UnsubAckReason) : N :=
  match a with
  | UAR_Success => 0
  | UAR_NoSubscriptionExisted => 1
  | UAR_UnspecifiedError => 2
  | UAR_ImplementationSpecificError => 3
  | UAR_NotAuthorized => 4
  | UAR_TopicFilterInvalid => 5
  | UAR_PacketIdentifierInUse => 6
  end.
(** /repo/src/unsuback.rs:86 derived PartialEq of UnsubAckReason. *)
Definition UnsubAckReason_eq (a b : UnsubAckReason) : bool := UnsubAckReason_disc a =? UnsubAckReason_disc b.

(** /repo/src/unsuback.rs:98 derived PartialEq of UnsubAckProperties. *)
Definition UnsubAckProperties_eq (a b : UnsubAckProperties) : bool :=
  (option_eq bytes_eqb) (uap_reason_string a) (uap_reason_string b)
  && user_props_eq (uap_user_properties a) (uap_user_properties b).

(** /repo/src/unsuback.rs:10 derived PartialEq of UnsubAck. *)
Definition UnsubAck_eq (a b : UnsubAck) : bool :=
  N.eqb (ua_pkid a) (ua_pkid b)
  && (vec_eq UnsubAckReason_eq) (ua_reasons a) (ua_reasons b)
  && (option_eq UnsubAckProperties_eq) (ua_properties a) (ua_properties b).

(** /repo/src/disconnect.rs:14 enum DisconnectReasonCode: discriminants. *)
Definition DisconnectReasonCode_disc (a : DisconnectReasonCode) : N :=
  match a with
  | DRC_NormalDisconnection => 0
  | DRC_DisconnectWithWillMessage => 4
  | DRC_UnspecifiedError => 128
  | DRC_MalformedPacket => 129
  | DRC_ProtocolError => 130
  | DRC_ImplementationSpecificError => 131
  | DRC_NotAuthorized => 135
  | DRC_ServerBusy => 137
  | DRC_ServerShuttingDown => 139
  | DRC_KeepAliveTimeout => 141
  | DRC_SessionTakenOver => 142
  | DRC_TopicFilterInvalid => 143
  | DRC_TopicNameInvalid => 144
  | DRC_ReceiveMaximumExceeded => 147
  | DRC_TopicAliasInvalid => 148
  | DRC_PacketTooLarge => 149
  | DRC_MessageRateTooHigh => 150
  | DRC_QuotaExceeded => 151
  | DRC_AdministrativeAction => 152
  | DRC_PayloadFormatInvalid => 153
  | DRC_RetainNotSupported => 154
  | DRC_QoSNotSupported => 155
  | DRC_UseAnotherServer => 156
  | DRC_ServerMoved => 157
  | DRC_SharedSubscriptionNotSupported => 158
  | DRC_ConnectionRateExceeded => 159
  | DRC_MaximumConnectTime => 160
  | DRC_SubscriptionIdentifiersNotSupported => 161
  | DRC_WildcardSubscriptionsNotSupported => 162
  end.
(** /repo/src/disconnect.rs:14 derived PartialEq of DisconnectReasonCode. *)
Definition DisconnectReasonCode_eq (a b : DisconnectReasonCode) : bool := DisconnectReasonCode_disc a =? DisconnectReasonCode_disc b.

(** /repo/src/disconnect.rs:118 derived PartialEq of DisconnectProperties. *)
Definition DisconnectProperties_eq (a b : DisconnectProperties) : bool :=
  (option_eq N.eqb) (dp_session_expiry_interval a) (dp_session_expiry_interval b)
  && (option_eq bytes_eqb) (dp_reason_string a) (dp_reason_string b)
  && user_props_eq (dp_user_properties a) (dp_user_properties b)
  && (option_eq bytes_eqb) (dp_server_reference a) (dp_server_reference b).

(** /repo/src/disconnect.rs:133 derived PartialEq of Disconnect. *)
Definition Disconnect_eq (a b : Disconnect) : bool :=
  DisconnectReasonCode_eq (di_reason_code a) (di_reason_code b)
  && (option_eq DisconnectProperties_eq) (di_properties a) (di_properties b).

(** /repo/src/lib.rs:644 enum Error: discriminants. *)
Definition Error_disc (a : error) : N :=
  match a with
  | InvalidConnectReturnCode _ => 0
  | InvalidReason _ => 1
  | InvalidRemainingLength _ => 2
  | InvalidProtocol => 3
  | InvalidProtocolLevel _ => 4
  | IncorrectPacketFormat => 5
  | InvalidPacketType _ => 6
  | InvalidRetainForwardRule _ => 7
  | InvalidQoS _ => 8
  | InvalidSubscribeReasonCode _ => 9
  | PacketIdZero => 10
  | EmptySubscription => 11
  | SubscriptionIdZero => 12
  | PayloadSizeIncorrect => 13
  | PayloadTooLong => 14
  | BinaryDataTooLong => 15
  | PayloadSizeLimitExceeded _ _ => 16
  | PayloadRequired => 17
  | PayloadNotUtf8 => 18
  | TopicNotUtf8 => 19
  | BoundaryCrossed _ => 20
  | MalformedPacket => 21
  | MalformedRemainingLength => 22
  | InvalidPropertyType _ => 23
  | InsufficientBytes _ => 24
  end.
(** /repo/src/lib.rs:644 derived PartialEq of Error ([PayloadNotUtf8] without its Utf8Error, see Types.v). *)
Definition Error_eq (a b : error) : bool :=
  (Error_disc a =? Error_disc b)
  && match a, b with
     | InvalidConnectReturnCode x, InvalidConnectReturnCode y => x =? y
     | InvalidReason x, InvalidReason y => x =? y
     | InvalidRemainingLength x, InvalidRemainingLength y => x =? y
     | InvalidProtocolLevel x, InvalidProtocolLevel y => x =? y
     | InvalidPacketType x, InvalidPacketType y => x =? y
     | InvalidRetainForwardRule x, InvalidRetainForwardRule y => x =? y
     | InvalidQoS x, InvalidQoS y => x =? y
     | InvalidSubscribeReasonCode x, InvalidSubscribeReasonCode y => x =? y
     | PayloadSizeLimitExceeded x u, PayloadSizeLimitExceeded y v => (x =? y) && (u =? v)
     | BoundaryCrossed x, BoundaryCrossed y => x =? y
     | InvalidPropertyType x, InvalidPropertyType y => x =? y
     | InsufficientBytes x, InsufficientBytes y => x =? y
     | _, _ => true
     end.

(** /repo/src/lib.rs:126 enum Packet: discriminants. *)
Definition Packet_disc (a : Packet) : N :=
  match a with
  | P_Connect _ _ _ => 0
  | P_ConnAck _ => 1
  | P_Publish _ => 2
  | P_PubAck _ => 3
  | P_PingReq => 4
  | P_PingResp => 5
  | P_Subscribe _ => 6
  | P_SubAck _ => 7
  | P_PubRec _ => 8
  | P_PubRel _ => 9
  | P_PubComp _ => 10
  | P_Unsubscribe _ => 11
  | P_UnsubAck _ => 12
  | P_Disconnect _ => 13
  end.
(** /repo/src/lib.rs:126 derived PartialEq of Packet; /repo/src/ping.rs:4,14 of the unit structs PingReq, PingResp. *)
Definition Packet_eq (a b : Packet) : bool :=
  (Packet_disc a =? Packet_disc b)
  && match a, b with
     | P_Connect x0 x1 x2, P_Connect y0 y1 y2 => Connect_eq x0 y0 && (option_eq LastWill_eq) x1 y1 && (option_eq Login_eq) x2 y2
     | P_ConnAck x0, P_ConnAck y0 => ConnAck_eq x0 y0
     | P_Publish x0, P_Publish y0 => Publish_eq x0 y0
     | P_PubAck x0, P_PubAck y0 => PubAck_eq x0 y0
     | P_Subscribe x0, P_Subscribe y0 => Subscribe_eq x0 y0
     | P_SubAck x0, P_SubAck y0 => SubAck_eq x0 y0
     | P_PubRec x0, P_PubRec y0 => PubRec_eq x0 y0
     | P_PubRel x0, P_PubRel y0 => PubRel_eq x0 y0
     | P_PubComp x0, P_PubComp y0 => PubComp_eq x0 y0
     | P_Unsubscribe x0, P_Unsubscribe y0 => Unsubscribe_eq x0 y0
     | P_UnsubAck x0, P_UnsubAck y0 => UnsubAck_eq x0 y0
     | P_Disconnect x0, P_Disconnect y0 => Disconnect_eq x0 y0
     | _, _ => true
     end.

(** /repo/src/lib.rs:302 derived PartialEq of FixedHeader. *)
Definition FixedHeader_eq (a b : FixedHeader) : bool :=
  (fh_byte1 a =? fh_byte1 b) && (fh_fixed_header_len a =? fh_fixed_header_len b)
  && (fh_remaining_len a =? fh_remaining_len b).

(** /repo/src/lib.rs:618 derived PartialOrd of QoS: partial_cmp on the discriminants. *)
Definition QoS_partial_cmp (a b : QoS) : option comparison := Some (QoS_disc a ?= QoS_disc b).

(** `usize::partial_cmp`, `u8::partial_cmp`. *)
Definition uint_partial_cmp (a b : N) : option comparison := Some (a ?= b).
(** How a derived partial_cmp goes from one field to the next. *)
Definition then_cmp (c : option comparison) (d : option comparison) : option comparison :=
  match c with
  | Some Eq => d
  | c => c
  end.
(** /repo/src/lib.rs:302 derived PartialOrd of FixedHeader: field by field. *)
Definition FixedHeader_partial_cmp (a b : FixedHeader) : option comparison :=
  then_cmp (uint_partial_cmp (fh_byte1 a) (fh_byte1 b))
    (then_cmp (uint_partial_cmp (fh_fixed_header_len a) (fh_fixed_header_len b))
       (uint_partial_cmp (fh_remaining_len a) (fh_remaining_len b))).

(** The default methods of PartialOrd: `<`, `<=`, `>`, `>=` from partial_cmp. *)
Definition is_lt (c : option comparison) : bool := match c with Some Lt => true | _ => false end.
Definition is_le (c : option comparison) : bool := match c with Some (Lt | Eq) => true | _ => false end.
Definition is_gt (c : option comparison) : bool := match c with Some Gt => true | _ => false end.
Definition is_ge (c : option comparison) : bool := match c with Some (Gt | Eq) => true | _ => false end.

(** /repo/src/lib.rs:94-124 mqtt_string_new: `to_string`, `into`, `Bytes::copy_from_slice` and `Cow::Borrowed` all
    keep the contents of the `&str`. *)
Definition mqtt_string_new (ft : feature) (str : bytes) : bytes :=
  match ft with
  | F_default => str   (* str.to_string() *)
  | F_boxed => str     (* str.into() *)
  | F_binary => str    (* Bytes::copy_from_slice(str.as_bytes()) *)
  | F_cow => str       (* Cow::Borrowed(str) *)
  end.
