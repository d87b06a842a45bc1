(** Model of /repo/src/subscribe.rs. *)
From Verif Require Import Types MLib MConnect.

(** /repo/src/subscribe.rs:225-226 initial variables of SubscribeProperties::read. *)
Definition SubscribeProperties_init : SubscribeProperties := mkSubscribeProperties None [].

(** /repo/src/subscribe.rs:210-222 SubscribeProperties::len. *)
Definition SubscribeProperties_len (p : SubscribeProperties) : N :=
  (match sp_id p with Some id => 1 + len_len id | None => 0 end)
  + user_props_len (sp_user_properties p).

(** /repo/src/subscribe.rs:241-256 body of the `match` in SubscribeProperties::read.
    Note `cursor += 1 + id_len` (245). *)
Definition SubscribeProperties_step (ft : feature) (prop : N) (p : SubscribeProperties) (b : bytes)
  : res (SubscribeProperties * N * bytes) :=
  let? t := property prop in
  let '(mkSubscribeProperties id up) := p in
  match t with
  | SubscriptionIdentifier =>
      let? (id_len, sub_id) := length_ b in
      let? b := advance b id_len in
      Ok (mkSubscribeProperties (Some sub_id) up, 1 + id_len, b)
  | UserProperty =>
      let? (k, b) := read_mqtt_string ft b in
      let? (v, b) := read_mqtt_string ft b in
      Ok (mkSubscribeProperties id (up ++ [(k, v)]), 2 + blen k + 2 + blen v, b)
  | _ => Err (InvalidPropertyType prop)
  end.

(** /repo/src/subscribe.rs:224-263 SubscribeProperties::read. *)
Definition SubscribeProperties_read (ft : feature) (b : bytes)
  : res (option SubscribeProperties * bytes) :=
  props_read (SubscribeProperties_step ft) SubscribeProperties_init b.

(** /repo/src/subscribe.rs:265-281 SubscribeProperties::write. *)
Definition SubscribeProperties_write (p : SubscribeProperties) : W unit :=
  do_ write_remaining_length (SubscribeProperties_len p);
  do_ wopt (sp_id p) (fun id =>
        do_ put_u8 (prop_code SubscriptionIdentifier);
        do_ write_remaining_length id; wret tt);
  write_user_props (sp_user_properties p).

(** /repo/src/subscribe.rs:118-124 Filter::new (other fields default). *)
Definition Filter_new (topic : bytes) (q : QoS) : Filter :=
  mkFilter topic q false false OnEverySubscribe.

(** /repo/src/subscribe.rs:126-129 Filter::len. *)
Definition Filter_len (f : Filter) : N := 2 + blen (fi_path f) + 1.

(** /repo/src/subscribe.rs:135-161 the `while bytes.has_remaining()` loop of Filter::read. *)
Fixpoint Filter_read_loop (ft : feature) (fuel : nat) (filters : list Filter) (b : bytes)
  : res (list Filter) :=
  match b with
  | [] => Ok filters
  | _ =>
      match fuel with
      | O => Diverge
      | S fuel =>
          let? (path, b) := read_mqtt_string ft b in
          let? (options, b) := read_u8 b in
          let requested_qos := N.land options 3 in
          let nolocal := negb (N.land (N.shiftr options 2) 1 =? 0) in
          let preserve_retain := negb (N.land (N.shiftr options 3) 1 =? 0) in
          let rule := N.land (N.shiftr options 4) 3 in
          let? retain_forward_rule :=
            (match rule with
             | 0 => Ok OnEverySubscribe
             | 1 => Ok OnNewSubscribe
             | 2 => Ok Never
             | _ => Err (InvalidRetainForwardRule rule)
             end) in
          match qos requested_qos with
          | None => Err (InvalidQoS requested_qos)
          | Some q =>
              Filter_read_loop ft fuel
                (filters ++ [mkFilter path q nolocal preserve_retain retain_forward_rule]) b
          end
      end
  end.

(** /repo/src/subscribe.rs:131-164 Filter::read (always consumes all bytes on success). *)
Definition Filter_read (ft : feature) (b : bytes) : res (list Filter) :=
  Filter_read_loop ft (S (length b)) [] b.

(** /repo/src/subscribe.rs:166-187 Filter::write. *)
Definition Filter_write (f : Filter) : W unit :=
  let options := N.lor 0 (qos_u8 (fi_qos f)) in
  let options := if fi_nolocal f then N.lor options 4 else options in
  let options := if fi_preserve_retain f then N.lor options 8 else options in
  let options := N.lor options (match fi_retain_forward_rule f with
                                | OnEverySubscribe => 0
                                | OnNewSubscribe => 16
                                | Never => 32
                                end) in
  do_ write_mqtt_string (fi_path f);
  put_u8 options.

(** /repo/src/subscribe.rs:19-25 Subscribe::new (pkid defaults to 0). *)
Definition Subscribe_new (f : Filter) (properties : option SubscribeProperties) : Subscribe :=
  mkSubscribe 0 [f] properties.
(** /repo/src/subscribe.rs:27-36 Subscribe::new_many. *)
Definition Subscribe_new_many (fs : list Filter) (properties : option SubscribeProperties)
  : Subscribe := mkSubscribe 0 fs properties.

(** /repo/src/subscribe.rs:46-59 Subscribe::len. *)
Definition Subscribe_len (s : Subscribe) : N :=
  (2 + fold_left (fun a t => a + Filter_len t) (su_filters s) 0)
  + (match su_properties s with
     | Some p => let properties_len := SubscribeProperties_len p in
                 len_len properties_len + properties_len
     | None => 1
     end).

(** /repo/src/subscribe.rs:39-44 Subscribe::size. *)
Definition Subscribe_size (s : Subscribe) : N :=
  let len := Subscribe_len s in 1 + len_len len + len.

(** /repo/src/subscribe.rs:61-79 Subscribe::read. *)
Definition Subscribe_read (ft : feature) (h : FixedHeader) (b : bytes) : res Subscribe :=
  let? b := advance b (fh_fixed_header_len h) in
  let? (pkid, b) := read_u16 b in
  let? (properties, b) := SubscribeProperties_read ft b in
  let? filters := Filter_read ft b in
  match filters with
  | [] => Err EmptySubscription
  | _ => Ok (mkSubscribe pkid filters properties)
  end.

(** /repo/src/subscribe.rs:81-104 Subscribe::write. *)
Definition Subscribe_write (s : Subscribe) : W N :=
  do_ put_u8 130;
  let remaining_len := Subscribe_len s in
  do remaining_len_bytes <- write_remaining_length remaining_len;
  do_ put_u16 (su_pkid s);
  do_ (match su_properties s with
       | Some p => SubscribeProperties_write p
       | None => do_ write_remaining_length 0; wret tt
       end);
  do_ wfor (su_filters s) Filter_write;
  wret (1 + remaining_len_bytes + remaining_len).
