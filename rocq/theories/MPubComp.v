(** Model of /repo/src/pubcomp.rs. *)
From Verif Require Import Types MLib MConnect.

(** /repo/src/pubcomp.rs:144-145 initial variables of PubCompProperties::read. *)
Definition PubCompProperties_init : PubCompProperties := mkPubCompProperties None [].

(** /repo/src/pubcomp.rs:129-141 PubCompProperties::len. *)
Definition PubCompProperties_len (p : PubCompProperties) : N :=
  len_str (pcp_reason_string p) + user_props_len (pcp_user_properties p).

(** /repo/src/pubcomp.rs:159-172 body of the `match` in PubCompProperties::read. *)
Definition PubCompProperties_step (ft : feature) (prop : N) (p : PubCompProperties) (b : bytes)
  : res (PubCompProperties * N * bytes) :=
  let? t := property prop in
  let '(mkPubCompProperties rs up) := p in
  match t with
  | ReasonString =>
      let? (v, b) := read_mqtt_string ft b in
      Ok (mkPubCompProperties (Some v) up, 2 + blen v, b)
  | UserProperty =>
      let? (k, b) := read_mqtt_string ft b in
      let? (v, b) := read_mqtt_string ft b in
      Ok (mkPubCompProperties rs (up ++ [(k, v)]), 2 + blen k + 2 + blen v, b)
  | _ => Err (InvalidPropertyType prop)
  end.

(** /repo/src/pubcomp.rs:143-179 PubCompProperties::read. *)
Definition PubCompProperties_read (ft : feature) (b : bytes)
  : res (option PubCompProperties * bytes) :=
  props_read (PubCompProperties_step ft) PubCompProperties_init b.

(** /repo/src/pubcomp.rs:181-197 PubCompProperties::write. *)
Definition PubCompProperties_write (p : PubCompProperties) : W unit :=
  do_ write_remaining_length (PubCompProperties_len p);
  do_ wopt (pcp_reason_string p) (fun v =>
        do_ put_u8 (prop_code ReasonString); write_mqtt_string v);
  write_user_props (pcp_user_properties p).

(** /repo/src/pubcomp.rs:201-209 fn reason. *)
Definition PubComp_reason (num : N) : res PubCompReason :=
  match num with
  | 0 => Ok PCR_Success
  | 146 => Ok PCR_PacketIdentifierNotFound
  | _ => Err (InvalidConnectReturnCode num)
  end.

(** /repo/src/pubcomp.rs:211-216 fn code. *)
Definition PubComp_code (r : PubCompReason) : N :=
  match r with
  | PCR_Success => 0
  | PCR_PacketIdentifierNotFound => 146
  end.

(** /repo/src/pubcomp.rs:27-33 PubComp::new. *)
Definition PubComp_new (pkid : N) (properties : option PubCompProperties) : PubComp :=
  mkPubComp pkid PCR_Success properties.

(** The condition `self.reason == PubCompReason::Success && self.properties.is_none()`
    (/repo/src/pubcomp.rs:37, 52, 106). *)
Definition PubComp_is_short (a : PubComp) : bool :=
  match pc_reason a, pc_properties a with
  | PCR_Success, None => true
  | _, _ => false
  end.

(** /repo/src/pubcomp.rs:46-65 PubComp::len. *)
Definition PubComp_len (a : PubComp) : N :=
  if PubComp_is_short a then 2 else
  (2 + 1)
  + (match pc_properties a with
     | Some p => let properties_len := PubCompProperties_len p in
                 len_len properties_len + properties_len
     | None => 1
     end).

(** /repo/src/pubcomp.rs:36-44 PubComp::size. *)
Definition PubComp_size (a : PubComp) : N :=
  if PubComp_is_short a then 4 else
  let len := PubComp_len a in 1 + len_len len + len.

(** /repo/src/pubcomp.rs:67-97 PubComp::read. *)
Definition PubComp_read (ft : feature) (h : FixedHeader) (b : bytes) : res PubComp :=
  let? b := advance b (fh_fixed_header_len h) in
  let? (pkid, b) := read_u16 b in
  if fh_remaining_len h =? 2 then Ok (mkPubComp pkid PCR_Success None)
  else
    let? (ack_reason, b) := read_u8 b in
    if fh_remaining_len h <? 4 then
      let? r := PubComp_reason ack_reason in
      Ok (mkPubComp pkid r None)
    else
      let? (properties, b) := PubCompProperties_read ft b in
      let? r := PubComp_reason ack_reason in
      Ok (mkPubComp pkid r properties).

(** /repo/src/pubcomp.rs:99-119 PubComp::write. *)
Definition PubComp_write (a : PubComp) : W N :=
  let len := PubComp_len a in
  do_ put_u8 112;
  do count <- write_remaining_length len;
  do_ put_u16 (pc_pkid a);
  if PubComp_is_short a then wret 4 else
  do_ put_u8 (PubComp_code (pc_reason a));
  do_ (match pc_properties a with
       | Some p => PubCompProperties_write p
       | None => do_ write_remaining_length 0; wret tt
       end);
  wret (1 + count + len).
