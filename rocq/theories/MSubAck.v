(** Model of /repo/src/suback.rs. *)
From Verif Require Import Types MLib MConnect.

(** /repo/src/suback.rs:123-124 initial variables of SubAckProperties::read. *)
Definition SubAckProperties_init : SubAckProperties := mkSubAckProperties None [].

(** /repo/src/suback.rs:108-120 SubAckProperties::len. *)
Definition SubAckProperties_len (p : SubAckProperties) : N :=
  len_str (sap_reason_string p) + user_props_len (sap_user_properties p).

(** /repo/src/suback.rs:138-151 body of the `match` in SubAckProperties::read. *)
Definition SubAckProperties_step (ft : feature) (prop : N) (p : SubAckProperties) (b : bytes)
  : res (SubAckProperties * N * bytes) :=
  let? t := property prop in
  let '(mkSubAckProperties rs up) := p in
  match t with
  | ReasonString =>
      let? (v, b) := read_mqtt_string ft b in
      Ok (mkSubAckProperties (Some v) up, 2 + blen v, b)
  | UserProperty =>
      let? (k, b) := read_mqtt_string ft b in
      let? (v, b) := read_mqtt_string ft b in
      Ok (mkSubAckProperties rs (up ++ [(k, v)]), 2 + blen k + 2 + blen v, b)
  | _ => Err (InvalidPropertyType prop)
  end.

(** /repo/src/suback.rs:122-158 SubAckProperties::read. *)
Definition SubAckProperties_read (ft : feature) (b : bytes)
  : res (option SubAckProperties * bytes) :=
  props_read (SubAckProperties_step ft) SubAckProperties_init b.

(** /repo/src/suback.rs:160-176 SubAckProperties::write. *)
Definition SubAckProperties_write (p : SubAckProperties) : W unit :=
  do_ write_remaining_length (SubAckProperties_len p);
  do_ wopt (sap_reason_string p) (fun v =>
        do_ put_u8 (prop_code ReasonString); write_mqtt_string v);
  write_user_props (sap_user_properties p).

(** /repo/src/suback.rs:179-197 fn reason. *)
Definition SubAck_reason (num : N) : res SubscribeReasonCode :=
  match num with
  | 0 => Ok (SRC_Success AtMostOnce)
  | 1 => Ok (SRC_Success AtLeastOnce)
  | 2 => Ok (SRC_Success ExactlyOnce)
  | 128 => Ok SRC_Unspecified
  | 131 => Ok SRC_ImplementationSpecific
  | 135 => Ok SRC_NotAuthorized
  | 143 => Ok SRC_TopicFilterInvalid
  | 145 => Ok SRC_PkidInUse
  | 151 => Ok SRC_QuotaExceeded
  | 158 => Ok SRC_SharedSubscriptionsNotSupported
  | 161 => Ok SRC_SubscriptionIdNotSupported
  | 162 => Ok SRC_WildcardSubscriptionsNotSupported
  | _ => Err (InvalidSubscribeReasonCode num)
  end.

(** /repo/src/suback.rs:199-212 fn code. *)
Definition SubAck_code (r : SubscribeReasonCode) : N :=
  match r with
  | SRC_Success q => qos_u8 q
  | SRC_Unspecified => 128
  | SRC_ImplementationSpecific => 131
  | SRC_NotAuthorized => 135
  | SRC_TopicFilterInvalid => 143
  | SRC_PkidInUse => 145
  | SRC_QuotaExceeded => 151
  | SRC_SharedSubscriptionsNotSupported => 158
  | SRC_SubscriptionIdNotSupported => 161
  | SRC_WildcardSubscriptionsNotSupported => 162
  end.

(** /repo/src/suback.rs:18-31 SubAck::len. *)
Definition SubAck_len (a : SubAck) : N :=
  (2 + N.of_nat (length (sa_return_codes a)))
  + (match sa_properties a with
     | Some p => let properties_len := SubAckProperties_len p in
                 len_len properties_len + properties_len
     | None => 1
     end).

(** /repo/src/suback.rs:33-39 SubAck::size. *)
Definition SubAck_size (a : SubAck) : N :=
  let len := SubAck_len a in 1 + len_len len + len.

(** /repo/src/suback.rs:53-56 the `while bytes.has_remaining()` loop of SubAck::read. *)
Fixpoint SubAck_read_loop (fuel : nat) (codes : list SubscribeReasonCode) (b : bytes)
  : res (list SubscribeReasonCode) :=
  match b with
  | [] => Ok codes
  | _ =>
      match fuel with
      | O => Diverge
      | S fuel =>
          let? (c, b) := read_u8 b in
          let? r := SubAck_reason c in
          SubAck_read_loop fuel (codes ++ [r]) b
      end
  end.

(** /repo/src/suback.rs:41-65 SubAck::read. *)
Definition SubAck_read (ft : feature) (h : FixedHeader) (b : bytes) : res SubAck :=
  let? b := advance b (fh_fixed_header_len h) in
  let? (pkid, b) := read_u16 b in
  let? (properties, b) := SubAckProperties_read ft b in
  match b with
  | [] => Err MalformedPacket
  | _ =>
      let? codes := SubAck_read_loop (S (length b)) [] b in
      Ok (mkSubAck pkid codes properties)
  end.

(** /repo/src/suback.rs:67-84 SubAck::write. *)
Definition SubAck_write (a : SubAck) : W N :=
  do_ put_u8 144;
  let remaining_len := SubAck_len a in
  do remaining_len_bytes <- write_remaining_length remaining_len;
  do_ put_u16 (sa_pkid a);
  do_ (match sa_properties a with
       | Some p => SubAckProperties_write p
       | None => do_ write_remaining_length 0; wret tt
       end);
  do_ put_slice (map SubAck_code (sa_return_codes a));
  wret (1 + remaining_len_bytes + remaining_len).
