(** Model of /repo/src/unsuback.rs. *)
From Verif Require Import Types MLib MConnect.

(** /repo/src/unsuback.rs:120-121 initial variables of UnsubAckProperties::read. *)
Definition UnsubAckProperties_init : UnsubAckProperties := mkUnsubAckProperties None [].

(** /repo/src/unsuback.rs:105-117 UnsubAckProperties::len. *)
Definition UnsubAckProperties_len (p : UnsubAckProperties) : N :=
  len_str (uap_reason_string p) + user_props_len (uap_user_properties p).

(** /repo/src/unsuback.rs:135-148 body of the `match` in UnsubAckProperties::read. *)
Definition UnsubAckProperties_step (ft : feature) (prop : N) (p : UnsubAckProperties) (b : bytes)
  : res (UnsubAckProperties * N * bytes) :=
  let? t := property prop in
  let '(mkUnsubAckProperties rs up) := p in
  match t with
  | ReasonString =>
      let? (v, b) := read_mqtt_string ft b in
      Ok (mkUnsubAckProperties (Some v) up, 2 + blen v, b)
  | UserProperty =>
      let? (k, b) := read_mqtt_string ft b in
      let? (v, b) := read_mqtt_string ft b in
      Ok (mkUnsubAckProperties rs (up ++ [(k, v)]), 2 + blen k + 2 + blen v, b)
  | _ => Err (InvalidPropertyType prop)
  end.

(** /repo/src/unsuback.rs:119-155 UnsubAckProperties::read. *)
Definition UnsubAckProperties_read (ft : feature) (b : bytes)
  : res (option UnsubAckProperties * bytes) :=
  props_read (UnsubAckProperties_step ft) UnsubAckProperties_init b.

(** /repo/src/unsuback.rs:157-173 UnsubAckProperties::write. *)
Definition UnsubAckProperties_write (p : UnsubAckProperties) : W unit :=
  do_ write_remaining_length (UnsubAckProperties_len p);
  do_ wopt (uap_reason_string p) (fun v =>
        do_ put_u8 (prop_code ReasonString); write_mqtt_string v);
  write_user_props (uap_user_properties p).

(** /repo/src/unsuback.rs:177-190 fn reason. *)
Definition UnsubAck_reason (num : N) : res UnsubAckReason :=
  match num with
  | 0 => Ok UAR_Success
  | 17 => Ok UAR_NoSubscriptionExisted
  | 128 => Ok UAR_UnspecifiedError
  | 131 => Ok UAR_ImplementationSpecificError
  | 135 => Ok UAR_NotAuthorized
  | 143 => Ok UAR_TopicFilterInvalid
  | 145 => Ok UAR_PacketIdentifierInUse
  | _ => Err (InvalidSubscribeReasonCode num)
  end.

(** /repo/src/unsuback.rs:192-202 fn code. *)
Definition UnsubAck_code (r : UnsubAckReason) : N :=
  match r with
  | UAR_Success => 0
  | UAR_NoSubscriptionExisted => 17
  | UAR_UnspecifiedError => 128
  | UAR_ImplementationSpecificError => 131
  | UAR_NotAuthorized => 135
  | UAR_TopicFilterInvalid => 143
  | UAR_PacketIdentifierInUse => 145
  end.

(** /repo/src/unsuback.rs:18-31 UnsubAck::len. *)
Definition UnsubAck_len (a : UnsubAck) : N :=
  (2 + N.of_nat (length (ua_reasons a)))
  + (match ua_properties a with
     | Some p => let properties_len := UnsubAckProperties_len p in
                 len_len properties_len + properties_len
     | None => 1
     end).

(** /repo/src/unsuback.rs:33-39 UnsubAck::size. *)
Definition UnsubAck_size (a : UnsubAck) : N :=
  let len := UnsubAck_len a in 1 + len_len len + len.

(** /repo/src/unsuback.rs:53-56 the `while bytes.has_remaining()` loop of UnsubAck::read. *)
Fixpoint UnsubAck_read_loop (fuel : nat) (codes : list UnsubAckReason) (b : bytes)
  : res (list UnsubAckReason) :=
  match b with
  | [] => Ok codes
  | _ =>
      match fuel with
      | O => Diverge
      | S fuel =>
          let? (c, b) := read_u8 b in
          let? r := UnsubAck_reason c in
          UnsubAck_read_loop fuel (codes ++ [r]) b
      end
  end.

(** /repo/src/unsuback.rs:41-65 UnsubAck::read. *)
Definition UnsubAck_read (ft : feature) (h : FixedHeader) (b : bytes) : res UnsubAck :=
  let? b := advance b (fh_fixed_header_len h) in
  let? (pkid, b) := read_u16 b in
  let? (properties, b) := UnsubAckProperties_read ft b in
  match b with
  | [] => Err MalformedPacket
  | _ =>
      let? codes := UnsubAck_read_loop (S (length b)) [] b in
      Ok (mkUnsubAck pkid codes properties)
  end.

(** /repo/src/unsuback.rs:67-83 UnsubAck::write. *)
Definition UnsubAck_write (a : UnsubAck) : W N :=
  do_ put_u8 176;
  let remaining_len := UnsubAck_len a in
  do remaining_len_bytes <- write_remaining_length remaining_len;
  do_ put_u16 (ua_pkid a);
  do_ (match ua_properties a with
       | Some p => UnsubAckProperties_write p
       | None => do_ write_remaining_length 0; wret tt
       end);
  do_ put_slice (map UnsubAck_code (ua_reasons a));
  wret (1 + remaining_len_bytes + remaining_len).
