(** Model of /repo/src/unsubscribe.rs. *)
From Verif Require Import Types MLib MConnect.

(** /repo/src/unsubscribe.rs:114 initial variables of UnsubscribeProperties::read. *)
Definition UnsubscribeProperties_init : UnsubscribeProperties := mkUnsubscribeProperties [].

(** /repo/src/unsubscribe.rs:103-111 UnsubscribeProperties::len. *)
Definition UnsubscribeProperties_len (p : UnsubscribeProperties) : N :=
  user_props_len (usp_user_properties p).

(** /repo/src/unsubscribe.rs:129-137 body of the `match` in UnsubscribeProperties::read. *)
Definition UnsubscribeProperties_step (ft : feature) (prop : N) (p : UnsubscribeProperties) (b : bytes)
  : res (UnsubscribeProperties * N * bytes) :=
  let? t := property prop in
  let '(mkUnsubscribeProperties up) := p in
  match t with
  | UserProperty =>
      let? (k, b) := read_mqtt_string ft b in
      let? (v, b) := read_mqtt_string ft b in
      Ok (mkUnsubscribeProperties (up ++ [(k, v)]), 2 + blen k + 2 + blen v, b)
  | _ => Err (InvalidPropertyType prop)
  end.

(** /repo/src/unsubscribe.rs:113-141 UnsubscribeProperties::read. *)
Definition UnsubscribeProperties_read (ft : feature) (b : bytes)
  : res (option UnsubscribeProperties * bytes) :=
  props_read (UnsubscribeProperties_step ft) UnsubscribeProperties_init b.

(** /repo/src/unsubscribe.rs:143-154 UnsubscribeProperties::write. *)
Definition UnsubscribeProperties_write (p : UnsubscribeProperties) : W unit :=
  do_ write_remaining_length (UnsubscribeProperties_len p);
  write_user_props (usp_user_properties p).

(** /repo/src/unsubscribe.rs:18-24 Unsubscribe::new (pkid defaults to 0). *)
Definition Unsubscribe_new (filter : bytes) (properties : option UnsubscribeProperties)
  : Unsubscribe := mkUnsubscribe 0 [filter] properties.

(** /repo/src/unsubscribe.rs:34-49 Unsubscribe::len. *)
Definition Unsubscribe_len (u : Unsubscribe) : N :=
  (2 + fold_left (fun s t => 2 + s + blen t) (un_filters u) 0)
  + (match un_properties u with
     | Some p => let properties_len := UnsubscribeProperties_len p in
                 len_len properties_len + properties_len
     | None => 1
     end).

(** /repo/src/unsubscribe.rs:26-32 Unsubscribe::size. *)
Definition Unsubscribe_size (u : Unsubscribe) : N :=
  let len := Unsubscribe_len u in 1 + len_len len + len.

(** /repo/src/unsubscribe.rs:59-62 the `while bytes.has_remaining()` loop of Unsubscribe::read. *)
Fixpoint Unsubscribe_read_loop (ft : feature) (fuel : nat) (filters : list bytes) (b : bytes)
  : res (list bytes) :=
  match b with
  | [] => Ok filters
  | _ =>
      match fuel with
      | O => Diverge
      | S fuel =>
          let? (filter, b) := read_mqtt_string ft b in
          Unsubscribe_read_loop ft fuel (filters ++ [filter]) b
      end
  end.

(** /repo/src/unsubscribe.rs:51-70 Unsubscribe::read. *)
Definition Unsubscribe_read (ft : feature) (h : FixedHeader) (b : bytes) : res Unsubscribe :=
  let? b := advance b (fh_fixed_header_len h) in
  let? (pkid, b) := read_u16 b in
  let? (properties, b) := UnsubscribeProperties_read ft b in
  let? filters := Unsubscribe_read_loop ft (S (length b)) [] b in
  Ok (mkUnsubscribe pkid filters properties).

(** /repo/src/unsubscribe.rs:72-94 Unsubscribe::write. *)
Definition Unsubscribe_write (u : Unsubscribe) : W N :=
  do_ put_u8 162;
  let remaining_len := Unsubscribe_len u in
  do remaining_len_bytes <- write_remaining_length remaining_len;
  do_ put_u16 (un_pkid u);
  do_ (match un_properties u with
       | Some p => UnsubscribeProperties_write p
       | None => do_ write_remaining_length 0; wret tt
       end);
  do_ wfor (un_filters u) write_mqtt_string;
  wret (1 + remaining_len_bytes + remaining_len).
