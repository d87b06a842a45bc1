(** Model of /repo/src/pubrel.rs. *)
From Verif Require Import Types MLib MConnect.

(** /repo/src/pubrel.rs:145-146 initial variables of PubRelProperties::read. *)
Definition PubRelProperties_init : PubRelProperties := mkPubRelProperties None [].

(** /repo/src/pubrel.rs:130-142 PubRelProperties::len. *)
Definition PubRelProperties_len (p : PubRelProperties) : N :=
  len_str (plp_reason_string p) + user_props_len (plp_user_properties p).

(** /repo/src/pubrel.rs:160-173 body of the `match` in PubRelProperties::read. *)
Definition PubRelProperties_step (ft : feature) (prop : N) (p : PubRelProperties) (b : bytes)
  : res (PubRelProperties * N * bytes) :=
  let? t := property prop in
  let '(mkPubRelProperties rs up) := p in
  match t with
  | ReasonString =>
      let? (v, b) := read_mqtt_string ft b in
      Ok (mkPubRelProperties (Some v) up, 2 + blen v, b)
  | UserProperty =>
      let? (k, b) := read_mqtt_string ft b in
      let? (v, b) := read_mqtt_string ft b in
      Ok (mkPubRelProperties rs (up ++ [(k, v)]), 2 + blen k + 2 + blen v, b)
  | _ => Err (InvalidPropertyType prop)
  end.

(** /repo/src/pubrel.rs:144-180 PubRelProperties::read. *)
Definition PubRelProperties_read (ft : feature) (b : bytes)
  : res (option PubRelProperties * bytes) :=
  props_read (PubRelProperties_step ft) PubRelProperties_init b.

(** /repo/src/pubrel.rs:182-198 PubRelProperties::write. *)
Definition PubRelProperties_write (p : PubRelProperties) : W unit :=
  do_ write_remaining_length (PubRelProperties_len p);
  do_ wopt (plp_reason_string p) (fun v =>
        do_ put_u8 (prop_code ReasonString); write_mqtt_string v);
  write_user_props (plp_user_properties p).

(** /repo/src/pubrel.rs:202-210 fn reason. *)
Definition PubRel_reason (num : N) : res PubRelReason :=
  match num with
  | 0 => Ok PLR_Success
  | 146 => Ok PLR_PacketIdentifierNotFound
  | _ => Err (InvalidConnectReturnCode num)
  end.

(** /repo/src/pubrel.rs:212-217 fn code. *)
Definition PubRel_code (r : PubRelReason) : N :=
  match r with
  | PLR_Success => 0
  | PLR_PacketIdentifierNotFound => 146
  end.

(** /repo/src/pubrel.rs:27-33 PubRel::new. *)
Definition PubRel_new (pkid : N) (properties : option PubRelProperties) : PubRel :=
  mkPubRel pkid PLR_Success properties.

(** The condition `self.reason == PubRelReason::Success && self.properties.is_none()`
    (/repo/src/pubrel.rs:38, 54, 107). *)
Definition PubRel_is_short (a : PubRel) : bool :=
  match pl_reason a, pl_properties a with
  | PLR_Success, None => true
  | _, _ => false
  end.

(** /repo/src/pubrel.rs:48-67 PubRel::len. *)
Definition PubRel_len (a : PubRel) : N :=
  if PubRel_is_short a then 2 else
  (2 + 1)
  + (match pl_properties a with
     | Some p => let properties_len := PubRelProperties_len p in
                 len_len properties_len + properties_len
     | None => 1
     end).

(** /repo/src/pubrel.rs:36-46 PubRel::size. *)
Definition PubRel_size (a : PubRel) : N :=
  if PubRel_is_short a then 4 else
  let len := PubRel_len a in 1 + len_len len + len.

(** /repo/src/pubrel.rs:69-98 PubRel::read. *)
Definition PubRel_read (ft : feature) (h : FixedHeader) (b : bytes) : res PubRel :=
  let? b := advance b (fh_fixed_header_len h) in
  let? (pkid, b) := read_u16 b in
  if fh_remaining_len h =? 2 then Ok (mkPubRel pkid PLR_Success None)
  else
    let? (ack_reason, b) := read_u8 b in
    if fh_remaining_len h <? 4 then
      let? r := PubRel_reason ack_reason in
      Ok (mkPubRel pkid r None)
    else
      let? (properties, b) := PubRelProperties_read ft b in
      let? r := PubRel_reason ack_reason in
      Ok (mkPubRel pkid r properties).

(** /repo/src/pubrel.rs:100-120 PubRel::write. *)
Definition PubRel_write (a : PubRel) : W N :=
  let len := PubRel_len a in
  do_ put_u8 98;
  do count <- write_remaining_length len;
  do_ put_u16 (pl_pkid a);
  if PubRel_is_short a then wret 4 else
  do_ put_u8 (PubRel_code (pl_reason a));
  do_ (match pl_properties a with
       | Some p => PubRelProperties_write p
       | None => do_ write_remaining_length 0; wret tt
       end);
  wret (1 + count + len).
