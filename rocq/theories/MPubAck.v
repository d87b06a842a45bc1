(** Model of /repo/src/puback.rs. *)
From Verif Require Import Types MLib MConnect.

(** /repo/src/puback.rs:151-152 initial variables of PubAckProperties::read. *)
Definition PubAckProperties_init : PubAckProperties := mkPubAckProperties None [].

(** /repo/src/puback.rs:136-148 PubAckProperties::len. *)
Definition PubAckProperties_len (p : PubAckProperties) : N :=
  len_str (pap_reason_string p) + user_props_len (pap_user_properties p).

(** /repo/src/puback.rs:166-179 body of the `match` in PubAckProperties::read. *)
Definition PubAckProperties_step (ft : feature) (prop : N) (p : PubAckProperties) (b : bytes)
  : res (PubAckProperties * N * bytes) :=
  let? t := property prop in
  let '(mkPubAckProperties rs up) := p in
  match t with
  | ReasonString =>
      let? (v, b) := read_mqtt_string ft b in
      Ok (mkPubAckProperties (Some v) up, 2 + blen v, b)
  | UserProperty =>
      let? (k, b) := read_mqtt_string ft b in
      let? (v, b) := read_mqtt_string ft b in
      Ok (mkPubAckProperties rs (up ++ [(k, v)]), 2 + blen k + 2 + blen v, b)
  | _ => Err (InvalidPropertyType prop)
  end.

(** /repo/src/puback.rs:150-186 PubAckProperties::read. *)
Definition PubAckProperties_read (ft : feature) (b : bytes)
  : res (option PubAckProperties * bytes) :=
  props_read (PubAckProperties_step ft) PubAckProperties_init b.

(** /repo/src/puback.rs:188-204 PubAckProperties::write. *)
Definition PubAckProperties_write (p : PubAckProperties) : W unit :=
  do_ write_remaining_length (PubAckProperties_len p);
  do_ wopt (pap_reason_string p) (fun v =>
        do_ put_u8 (prop_code ReasonString); write_mqtt_string v);
  write_user_props (pap_user_properties p).

(** /repo/src/puback.rs:208-223 fn reason. *)
Definition PubAck_reason (num : N) : res PubAckReason :=
  match num with
  | 0 => Ok PAR_Success
  | 16 => Ok PAR_NoMatchingSubscribers
  | 128 => Ok PAR_UnspecifiedError
  | 131 => Ok PAR_ImplementationSpecificError
  | 135 => Ok PAR_NotAuthorized
  | 144 => Ok PAR_TopicNameInvalid
  | 145 => Ok PAR_PacketIdentifierInUse
  | 151 => Ok PAR_QuotaExceeded
  | 153 => Ok PAR_PayloadFormatInvalid
  | _ => Err (InvalidConnectReturnCode num)
  end.

(** /repo/src/puback.rs:226-238 fn code. *)
Definition PubAck_code (r : PubAckReason) : N :=
  match r with
  | PAR_Success => 0
  | PAR_NoMatchingSubscribers => 16
  | PAR_UnspecifiedError => 128
  | PAR_ImplementationSpecificError => 131
  | PAR_NotAuthorized => 135
  | PAR_TopicNameInvalid => 144
  | PAR_PacketIdentifierInUse => 145
  | PAR_QuotaExceeded => 151
  | PAR_PayloadFormatInvalid => 153
  end.

(** /repo/src/puback.rs:33-39 PubAck::new. *)
Definition PubAck_new (pkid : N) (properties : option PubAckProperties) : PubAck :=
  mkPubAck pkid PAR_Success properties.

(** The condition `self.reason == PubAckReason::Success && self.properties.is_none()`
    (/repo/src/puback.rs:43, 56, 114). *)
Definition PubAck_is_short (a : PubAck) : bool :=
  match pa_reason a, pa_properties a with
  | PAR_Success, None => true
  | _, _ => false
  end.

(** /repo/src/puback.rs:52-70 PubAck::len. *)
Definition PubAck_len (a : PubAck) : N :=
  if PubAck_is_short a then 2 else
  (2 + 1)
  + (match pa_properties a with
     | Some p => let properties_len := PubAckProperties_len p in
                 len_len properties_len + properties_len
     | None => 1
     end).

(** /repo/src/puback.rs:42-50 PubAck::size. *)
Definition PubAck_size (a : PubAck) : N :=
  if PubAck_is_short a then 4 else
  let len := PubAck_len a in 1 + len_len len + len.

(** /repo/src/puback.rs:72-104 PubAck::read. *)
Definition PubAck_read (ft : feature) (h : FixedHeader) (b : bytes) : res PubAck :=
  let? b := advance b (fh_fixed_header_len h) in
  let? (pkid, b) := read_u16 b in
  if fh_remaining_len h =? 2 then Ok (mkPubAck pkid PAR_Success None)
  else
    let? (ack_reason, b) := read_u8 b in
    if fh_remaining_len h <? 4 then
      let? r := PubAck_reason ack_reason in
      Ok (mkPubAck pkid r None)
    else
      let? (properties, b) := PubAckProperties_read ft b in
      let? r := PubAck_reason ack_reason in
      Ok (mkPubAck pkid r properties).

(** /repo/src/puback.rs:106-126 PubAck::write. *)
Definition PubAck_write (a : PubAck) : W N :=
  let len := PubAck_len a in
  do_ put_u8 64;
  do count <- write_remaining_length len;
  do_ put_u16 (pa_pkid a);
  if PubAck_is_short a then wret 4 else
  do_ put_u8 (PubAck_code (pa_reason a));
  do_ (match pa_properties a with
       | Some p => PubAckProperties_write p
       | None => do_ write_remaining_length 0; wret tt
       end);
  wret (1 + count + len).
