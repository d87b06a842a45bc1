(** Model of /repo/src/pubrec.rs. *)
From Verif Require Import Types MLib MConnect.

(** /repo/src/pubrec.rs:146-147 initial variables of PubRecProperties::read. *)
Definition PubRecProperties_init : PubRecProperties := mkPubRecProperties None [].

(** /repo/src/pubrec.rs:131-143 PubRecProperties::len. *)
Definition PubRecProperties_len (p : PubRecProperties) : N :=
  len_str (prp_reason_string p) + user_props_len (prp_user_properties p).

(** /repo/src/pubrec.rs:161-174 body of the `match` in PubRecProperties::read. *)
Definition PubRecProperties_step (ft : feature) (prop : N) (p : PubRecProperties) (b : bytes)
  : res (PubRecProperties * N * bytes) :=
  let? t := property prop in
  let '(mkPubRecProperties rs up) := p in
  match t with
  | ReasonString =>
      let? (v, b) := read_mqtt_string ft b in
      Ok (mkPubRecProperties (Some v) up, 2 + blen v, b)
  | UserProperty =>
      let? (k, b) := read_mqtt_string ft b in
      let? (v, b) := read_mqtt_string ft b in
      Ok (mkPubRecProperties rs (up ++ [(k, v)]), 2 + blen k + 2 + blen v, b)
  | _ => Err (InvalidPropertyType prop)
  end.

(** /repo/src/pubrec.rs:145-181 PubRecProperties::read. *)
Definition PubRecProperties_read (ft : feature) (b : bytes)
  : res (option PubRecProperties * bytes) :=
  props_read (PubRecProperties_step ft) PubRecProperties_init b.

(** /repo/src/pubrec.rs:183-199 PubRecProperties::write. *)
Definition PubRecProperties_write (p : PubRecProperties) : W unit :=
  do_ write_remaining_length (PubRecProperties_len p);
  do_ wopt (prp_reason_string p) (fun v =>
        do_ put_u8 (prop_code ReasonString); write_mqtt_string v);
  write_user_props (prp_user_properties p).

(** /repo/src/pubrec.rs:203-218 fn reason. *)
Definition PubRec_reason (num : N) : res PubRecReason :=
  match num with
  | 0 => Ok PRR_Success
  | 16 => Ok PRR_NoMatchingSubscribers
  | 128 => Ok PRR_UnspecifiedError
  | 131 => Ok PRR_ImplementationSpecificError
  | 135 => Ok PRR_NotAuthorized
  | 144 => Ok PRR_TopicNameInvalid
  | 145 => Ok PRR_PacketIdentifierInUse
  | 151 => Ok PRR_QuotaExceeded
  | 153 => Ok PRR_PayloadFormatInvalid
  | _ => Err (InvalidConnectReturnCode num)
  end.

(** /repo/src/pubrec.rs:220-232 fn code. *)
Definition PubRec_code (r : PubRecReason) : N :=
  match r with
  | PRR_Success => 0
  | PRR_NoMatchingSubscribers => 16
  | PRR_UnspecifiedError => 128
  | PRR_ImplementationSpecificError => 131
  | PRR_NotAuthorized => 135
  | PRR_TopicNameInvalid => 144
  | PRR_PacketIdentifierInUse => 145
  | PRR_QuotaExceeded => 151
  | PRR_PayloadFormatInvalid => 153
  end.

(** /repo/src/pubrec.rs:34-40 PubRec::new. *)
Definition PubRec_new (pkid : N) (properties : option PubRecProperties) : PubRec :=
  mkPubRec pkid PRR_Success properties.

(** The condition `self.reason == PubRecReason::Success && self.properties.is_none()`
    (/repo/src/pubrec.rs:56, 108). *)
Definition PubRec_is_short (a : PubRec) : bool :=
  match pr_reason a, pr_properties a with
  | PRR_Success, None => true
  | _, _ => false
  end.

(** /repo/src/pubrec.rs:50-69 PubRec::len. *)
Definition PubRec_len (a : PubRec) : N :=
  if PubRec_is_short a then 2 else
  (2 + 1)
  + (match pr_properties a with
     | Some p => let properties_len := PubRecProperties_len p in
                 len_len properties_len + properties_len
     | None => 1
     end).

(** /repo/src/pubrec.rs:43-48 PubRec::size. *)
Definition PubRec_size (a : PubRec) : N :=
  let len := PubRec_len a in 1 + len_len len + len.

(** /repo/src/pubrec.rs:71-99 PubRec::read. *)
Definition PubRec_read (ft : feature) (h : FixedHeader) (b : bytes) : res PubRec :=
  let? b := advance b (fh_fixed_header_len h) in
  let? (pkid, b) := read_u16 b in
  if fh_remaining_len h =? 2 then Ok (mkPubRec pkid PRR_Success None)
  else
    let? (ack_reason, b) := read_u8 b in
    if fh_remaining_len h <? 4 then
      let? r := PubRec_reason ack_reason in
      Ok (mkPubRec pkid r None)
    else
      let? (properties, b) := PubRecProperties_read ft b in
      let? r := PubRec_reason ack_reason in
      Ok (mkPubRec pkid r properties).

(** /repo/src/pubrec.rs:101-121 PubRec::write. *)
Definition PubRec_write (a : PubRec) : W N :=
  let len := PubRec_len a in
  do_ put_u8 80;
  do count <- write_remaining_length len;
  do_ put_u16 (pr_pkid a);
  if PubRec_is_short a then wret 4 else
  do_ put_u8 (PubRec_code (pr_reason a));
  do_ (match pr_properties a with
       | Some p => PubRecProperties_write p
       | None => do_ write_remaining_length 0; wret tt
       end);
  wret (1 + count + len).
