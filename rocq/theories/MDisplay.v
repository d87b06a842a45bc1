(** Model of the Display of Error, /repo/src/lib.rs:643-700 (thiserror: the format string of the
    variant with its fields inserted). *)
From Coq Require Import String DecimalString.
From Verif Require Import Types.
Open Scope string_scope.

(** Display and Debug of an unsigned integer: decimal, without leading zeros. *)
Definition show (n : N) : string := NilZero.string_of_uint (N.to_uint n).

(** /repo/src/lib.rs:644-699 the #[error("...")] attributes.  [utf8] is what Display of the
    wrapped Utf8Error prints; the error type of the model does not carry it, as no function of
    the crate returns this variant. *)
Definition display (utf8 : string) (e : error) : string :=
  match e with
  | InvalidConnectReturnCode n => "Invalid return code received as response for connect = " ++ show n
  | InvalidReason n => "Invalid reason = " ++ show n
  | InvalidRemainingLength n => "Invalid remaining length = " ++ show n
  | InvalidProtocol => "Invalid protocol used"
  | InvalidProtocolLevel _ => "Invalid protocol level"
  | IncorrectPacketFormat => "Invalid packet format"
  | InvalidPacketType n => "Invalid packet type = " ++ show n
  | InvalidRetainForwardRule n => "Invalid retain forward rule = " ++ show n
  | InvalidQoS n => "Invalid QoS level = " ++ show n
  | InvalidSubscribeReasonCode n => "Invalid subscribe reason code = " ++ show n
  | PacketIdZero => "Packet received has id Zero"
  | EmptySubscription => "Empty Subscription"
  | SubscriptionIdZero => "Subscription had id Zero"
  | PayloadSizeIncorrect => "Payload size is incorrect"
  | PayloadTooLong => "Payload is too long"
  | BinaryDataTooLong => "Binary data is too long"
  | PayloadSizeLimitExceeded pkt_size max =>
      "Max Payload size of " ++ show max ++ " has been exceeded by packet of " ++ show pkt_size ++ " bytes"
  | PayloadRequired => "Payload is required"
  | PayloadNotUtf8 => "Payload is required = " ++ utf8
  | TopicNotUtf8 => "Topic not utf-8"
  | BoundaryCrossed n => "Promised boundary crossed, contains " ++ show n ++ " bytes"
  | MalformedPacket => "Packet is malformed"
  | MalformedRemainingLength => "Remaining length is malformed"
  | InvalidPropertyType n => "Invalid property type = " ++ show n
  | InsufficientBytes n => "Insufficient number of bytes to frame packet, " ++ show n ++ " more bytes required"
  end.
