(** Data types of the crate: bytes, errors, results, packet structures.
    Models the type declarations of /repo/src (fields and variants one to one).
    Simplifications: u8/u16/u32/usize fields are [N] (their ranges are stated
    by [rust_packet] in Spec.v); Bytes/String/Box<str>/Cow<str> are [list N]. *)
From Coq Require Export List NArith Bool.
Export ListNotations.
Open Scope N_scope.

(** A byte string.  Bytes/BytesMut/String of the crate. *)
Definition bytes := list N.
(** Number of bytes: `.len()` on Bytes, String, slices. *)
Definition blen (l : bytes) : N := N.of_nat (length l).

(** /repo/src/lib.rs:643-699 enum Error.  [PayloadNotUtf8] carries a Utf8Error
    in the code, dropped here (the variant is never produced by the crate). *)
Inductive error : Type :=
| InvalidConnectReturnCode (n : N)
| InvalidReason (n : N)
| InvalidRemainingLength (n : N)
| InvalidProtocol
| InvalidProtocolLevel (n : N)
| IncorrectPacketFormat
| InvalidPacketType (n : N)
| InvalidRetainForwardRule (n : N)
| InvalidQoS (n : N)
| InvalidSubscribeReasonCode (n : N)
| PacketIdZero
| EmptySubscription
| SubscriptionIdZero
| PayloadSizeIncorrect
| PayloadTooLong
| BinaryDataTooLong
| PayloadSizeLimitExceeded (pkt_size max : N)
| PayloadRequired
| PayloadNotUtf8
| TopicNotUtf8
| BoundaryCrossed (n : N)
| MalformedPacket
| MalformedRemainingLength
| InvalidPropertyType (n : N)
| InsufficientBytes (n : N).

(** Outcome of a call: Rust's Result plus explicit panic and
    non-termination (a loop that ran out of its fuel). *)
Inductive res (A : Type) : Type :=
| Ok (a : A)
| Err (e : error)
| Panic
| Diverge.
Arguments Ok {A} a.
Arguments Err {A} e.
Arguments Panic {A}.
Arguments Diverge {A}.

(** Cargo features selecting MqttString: /repo/src/lib.rs:56-70. *)
Inductive feature : Type := F_default | F_boxed | F_cow | F_binary.

(** /repo/src/lib.rs:616-630 enum QoS (default AtMostOnce). *)
Inductive QoS : Type := AtMostOnce | AtLeastOnce | ExactlyOnce.
Definition QoS_eqb (a b : QoS) : bool :=
  match a, b with
  | AtMostOnce, AtMostOnce | AtLeastOnce, AtLeastOnce | ExactlyOnce, ExactlyOnce => true
  | _, _ => false
  end.

(** /repo/src/lib.rs:238-256 enum PacketType. *)
Inductive PacketType : Type :=
| PT_Connect | PT_ConnAck | PT_Publish | PT_PubAck | PT_PubRec | PT_PubRel | PT_PubComp
| PT_Subscribe | PT_SubAck | PT_Unsubscribe | PT_UnsubAck | PT_PingReq | PT_PingResp | PT_Disconnect.

(** User properties: Vec<(MqttString, MqttString)>. *)
Definition user_props := list (bytes * bytes).

(** /repo/src/connect.rs:138-156 struct ConnectProperties. *)
Record ConnectProperties := mkConnectProperties {
  cp_session_expiry_interval : option N;
  cp_receive_maximum : option N;
  cp_max_packet_size : option N;
  cp_topic_alias_max : option N;
  cp_request_response_info : option N;
  cp_request_problem_info : option N;
  cp_user_properties : user_props;
  cp_authentication_method : option bytes;
  cp_authentication_data : option bytes }.

(** /repo/src/connect.rs:11-20 struct Connect. *)
Record Connect := mkConnect {
  co_keep_alive : N;
  co_client_id : bytes;
  co_clean_start : bool;
  co_properties : option ConnectProperties }.

(** /repo/src/connect.rs:430-439 struct LastWillProperties. *)
Record LastWillProperties := mkLastWillProperties {
  wp_delay_interval : option N;
  wp_payload_format_indicator : option N;
  wp_message_expiry_interval : option N;
  wp_content_type : option bytes;
  wp_response_topic : option bytes;
  wp_correlation_data : option bytes;
  wp_user_properties : user_props }.

(** /repo/src/connect.rs:357-364 struct LastWill. *)
Record LastWill := mkLastWill {
  lw_topic : bytes;
  lw_message : bytes;
  lw_qos : QoS;
  lw_retain : bool;
  lw_properties : option LastWillProperties }.

(** /repo/src/connect.rs:589-593 struct Login. *)
Record Login := mkLogin {
  lo_username : bytes;
  lo_password : bytes }.

(** /repo/src/connack.rs:12-39 enum ConnectReturnCode. *)
Inductive ConnectReturnCode : Type :=
| CRC_Success | CRC_RefusedProtocolVersion | CRC_BadClientId | CRC_ServiceUnavailable
| CRC_UnspecifiedError | CRC_MalformedPacket | CRC_ProtocolError
| CRC_ImplementationSpecificError | CRC_UnsupportedProtocolVersion
| CRC_ClientIdentifierNotValid | CRC_BadUserNamePassword | CRC_NotAuthorized
| CRC_ServerUnavailable | CRC_ServerBusy | CRC_Banned | CRC_BadAuthenticationMethod
| CRC_TopicNameInvalid | CRC_PacketTooLarge | CRC_QuotaExceeded | CRC_PayloadFormatInvalid
| CRC_RetainNotSupported | CRC_QoSNotSupported | CRC_UseAnotherServer | CRC_ServerMoved
| CRC_ConnectionRateExceeded.

(** /repo/src/connack.rs:109-128 struct ConnAckProperties. *)
Record ConnAckProperties := mkConnAckProperties {
  ca_session_expiry_interval : option N;
  ca_receive_max : option N;
  ca_max_qos : option N;
  ca_retain_available : option N;
  ca_max_packet_size : option N;
  ca_assigned_client_identifier : option bytes;
  ca_topic_alias_max : option N;
  ca_reason_string : option bytes;
  ca_user_properties : user_props;
  ca_wildcard_subscription_available : option N;
  ca_subscription_identifiers_available : option N;
  ca_shared_subscription_available : option N;
  ca_server_keep_alive : option N;
  ca_response_information : option bytes;
  ca_server_reference : option bytes;
  ca_authentication_method : option bytes;
  ca_authentication_data : option bytes }.

(** /repo/src/connack.rs:42-47 struct ConnAck. *)
Record ConnAck := mkConnAck {
  ck_session_present : bool;
  ck_code : ConnectReturnCode;
  ck_properties : option ConnAckProperties }.

(** /repo/src/publish.rs:130-140 struct PublishProperties. *)
Record PublishProperties := mkPublishProperties {
  pp_payload_format_indicator : option N;
  pp_message_expiry_interval : option N;
  pp_topic_alias : option N;
  pp_response_topic : option bytes;
  pp_correlation_data : option bytes;
  pp_user_properties : user_props;
  pp_subscription_identifiers : list N;
  pp_content_type : option bytes }.

(** /repo/src/publish.rs:11-20 struct Publish. *)
Record Publish := mkPublish {
  pu_dup : bool;
  pu_qos : QoS;
  pu_retain : bool;
  pu_topic : bytes;
  pu_pkid : N;
  pu_payload : bytes;
  pu_properties : option PublishProperties }.

(** /repo/src/puback.rs:10-21 enum PubAckReason. *)
Inductive PubAckReason : Type :=
| PAR_Success | PAR_NoMatchingSubscribers | PAR_UnspecifiedError
| PAR_ImplementationSpecificError | PAR_NotAuthorized | PAR_TopicNameInvalid
| PAR_PacketIdentifierInUse | PAR_QuotaExceeded | PAR_PayloadFormatInvalid.

(** /repo/src/puback.rs:129-133 struct PubAckProperties. *)
Record PubAckProperties := mkPubAckProperties {
  pap_reason_string : option bytes;
  pap_user_properties : user_props }.

(** /repo/src/puback.rs:24-29 struct PubAck. *)
Record PubAck := mkPubAck {
  pa_pkid : N;
  pa_reason : PubAckReason;
  pa_properties : option PubAckProperties }.

(** /repo/src/pubrec.rs:10-22 enum PubRecReason. *)
Inductive PubRecReason : Type :=
| PRR_Success | PRR_NoMatchingSubscribers | PRR_UnspecifiedError
| PRR_ImplementationSpecificError | PRR_NotAuthorized | PRR_TopicNameInvalid
| PRR_PacketIdentifierInUse | PRR_QuotaExceeded | PRR_PayloadFormatInvalid.

(** /repo/src/pubrec.rs:124-128 struct PubRecProperties. *)
Record PubRecProperties := mkPubRecProperties {
  prp_reason_string : option bytes;
  prp_user_properties : user_props }.

(** /repo/src/pubrec.rs:25-30 struct PubRec. *)
Record PubRec := mkPubRec {
  pr_pkid : N;
  pr_reason : PubRecReason;
  pr_properties : option PubRecProperties }.

(** /repo/src/pubrel.rs:10-15 enum PubRelReason. *)
Inductive PubRelReason : Type := PLR_Success | PLR_PacketIdentifierNotFound.

(** /repo/src/pubrel.rs:123-127 struct PubRelProperties. *)
Record PubRelProperties := mkPubRelProperties {
  plp_reason_string : option bytes;
  plp_user_properties : user_props }.

(** /repo/src/pubrel.rs:18-23 struct PubRel. *)
Record PubRel := mkPubRel {
  pl_pkid : N;
  pl_reason : PubRelReason;
  pl_properties : option PubRelProperties }.

(** /repo/src/pubcomp.rs:10-15 enum PubCompReason. *)
Inductive PubCompReason : Type := PCR_Success | PCR_PacketIdentifierNotFound.

(** /repo/src/pubcomp.rs:122-126 struct PubCompProperties. *)
Record PubCompProperties := mkPubCompProperties {
  pcp_reason_string : option bytes;
  pcp_user_properties : user_props }.

(** /repo/src/pubcomp.rs:18-23 struct PubComp. *)
Record PubComp := mkPubComp {
  pc_pkid : N;
  pc_reason : PubCompReason;
  pc_properties : option PubCompProperties }.

(** /repo/src/subscribe.rs:190-201 enum RetainForwardRule. *)
Inductive RetainForwardRule : Type := OnEverySubscribe | OnNewSubscribe | Never.

(** /repo/src/subscribe.rs:108-115 struct Filter. *)
Record Filter := mkFilter {
  fi_path : bytes;
  fi_qos : QoS;
  fi_nolocal : bool;
  fi_preserve_retain : bool;
  fi_retain_forward_rule : RetainForwardRule }.

(** /repo/src/subscribe.rs:203-207 struct SubscribeProperties. *)
Record SubscribeProperties := mkSubscribeProperties {
  sp_id : option N;
  sp_user_properties : user_props }.

(** /repo/src/subscribe.rs:10-15 struct Subscribe. *)
Record Subscribe := mkSubscribe {
  su_pkid : N;
  su_filters : list Filter;
  su_properties : option SubscribeProperties }.

(** /repo/src/suback.rs:87-99 enum SubscribeReasonCode. *)
Inductive SubscribeReasonCode : Type :=
| SRC_Success (q : QoS) | SRC_Unspecified | SRC_ImplementationSpecific | SRC_NotAuthorized
| SRC_TopicFilterInvalid | SRC_PkidInUse | SRC_QuotaExceeded
| SRC_SharedSubscriptionsNotSupported | SRC_SubscriptionIdNotSupported
| SRC_WildcardSubscriptionsNotSupported.

(** /repo/src/suback.rs:101-105 struct SubAckProperties. *)
Record SubAckProperties := mkSubAckProperties {
  sap_reason_string : option bytes;
  sap_user_properties : user_props }.

(** /repo/src/suback.rs:10-15 struct SubAck. *)
Record SubAck := mkSubAck {
  sa_pkid : N;
  sa_return_codes : list SubscribeReasonCode;
  sa_properties : option SubAckProperties }.

(** /repo/src/unsubscribe.rs:97-100 struct UnsubscribeProperties. *)
Record UnsubscribeProperties := mkUnsubscribeProperties {
  usp_user_properties : user_props }.

(** /repo/src/unsubscribe.rs:10-15 struct Unsubscribe. *)
Record Unsubscribe := mkUnsubscribe {
  un_pkid : N;
  un_filters : list bytes;
  un_properties : option UnsubscribeProperties }.

(** /repo/src/unsuback.rs:86-96 enum UnsubAckReason. *)
Inductive UnsubAckReason : Type :=
| UAR_Success | UAR_NoSubscriptionExisted | UAR_UnspecifiedError
| UAR_ImplementationSpecificError | UAR_NotAuthorized | UAR_TopicFilterInvalid
| UAR_PacketIdentifierInUse.

(** /repo/src/unsuback.rs:98-102 struct UnsubAckProperties. *)
Record UnsubAckProperties := mkUnsubAckProperties {
  uap_reason_string : option bytes;
  uap_user_properties : user_props }.

(** /repo/src/unsuback.rs:10-15 struct UnsubAck. *)
Record UnsubAck := mkUnsubAck {
  ua_pkid : N;
  ua_reasons : list UnsubAckReason;
  ua_properties : option UnsubAckProperties }.

(** /repo/src/disconnect.rs:14-75 enum DisconnectReasonCode. *)
Inductive DisconnectReasonCode : Type :=
| DRC_NormalDisconnection | DRC_DisconnectWithWillMessage | DRC_UnspecifiedError
| DRC_MalformedPacket | DRC_ProtocolError | DRC_ImplementationSpecificError
| DRC_NotAuthorized | DRC_ServerBusy | DRC_ServerShuttingDown | DRC_KeepAliveTimeout
| DRC_SessionTakenOver | DRC_TopicFilterInvalid | DRC_TopicNameInvalid
| DRC_ReceiveMaximumExceeded | DRC_TopicAliasInvalid | DRC_PacketTooLarge
| DRC_MessageRateTooHigh | DRC_QuotaExceeded | DRC_AdministrativeAction
| DRC_PayloadFormatInvalid | DRC_RetainNotSupported | DRC_QoSNotSupported
| DRC_UseAnotherServer | DRC_ServerMoved | DRC_SharedSubscriptionNotSupported
| DRC_ConnectionRateExceeded | DRC_MaximumConnectTime
| DRC_SubscriptionIdentifiersNotSupported | DRC_WildcardSubscriptionsNotSupported.

(** /repo/src/disconnect.rs:118-131 struct DisconnectProperties. *)
Record DisconnectProperties := mkDisconnectProperties {
  dp_session_expiry_interval : option N;
  dp_reason_string : option bytes;
  dp_user_properties : user_props;
  dp_server_reference : option bytes }.

(** /repo/src/disconnect.rs:133-140 struct Disconnect. *)
Record Disconnect := mkDisconnect {
  di_reason_code : DisconnectReasonCode;
  di_properties : option DisconnectProperties }.

(** /repo/src/lib.rs:126-142 enum Packet (PingReq/PingResp are unit structs). *)
Inductive Packet : Type :=
| P_Connect (c : Connect) (w : option LastWill) (l : option Login)
| P_ConnAck (a : ConnAck)
| P_Publish (p : Publish)
| P_PubAck (a : PubAck)
| P_PingReq
| P_PingResp
| P_Subscribe (s : Subscribe)
| P_SubAck (s : SubAck)
| P_PubRec (r : PubRec)
| P_PubRel (r : PubRel)
| P_PubComp (c : PubComp)
| P_Unsubscribe (u : Unsubscribe)
| P_UnsubAck (u : UnsubAck)
| P_Disconnect (d : Disconnect).
