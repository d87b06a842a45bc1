(** What a failing component reader leaves in the caller's buffer (specification for C57): the
    faults of Faults.v with the bytes that remain.  Imports no model file.

    A description relates the bytes still to be read with the error they cause and the bytes that
    are left then. *)
From Verif Require Import Types Spec Wire Sites Faults.

Definition leaves := bytes -> error -> bytes -> Prop.

(** Nothing can go wrong. *)
Definition never : leaves := fun _ _ _ => False.
(** The defect is noticed before anything is taken. *)
Definition untouched (F : fault) : leaves := fun b e left => F b e /\ left = b.
(** A part that is defective itself, or complete and followed by a defect. *)
Definition after {A} (R : A -> bytes -> Prop) (L : leaves) (next : A -> leaves) : leaves :=
  fun b e left => L b e left \/ exists a l r, b = l ++ r /\ R a l /\ next a r e left.
(** A condition that is checked without taking anything. *)
Definition checked (c : Prop) (err : error) (next : leaves) : leaves :=
  fun b e left => (~ c /\ e = err /\ left = b) \/ (c /\ next b e left).

(** Length-prefixed data: an incomplete length is not taken; a length that promises too much is. *)
Definition bin_leaves : leaves := fun b e left =>
  (blen b < 2 /\ e = MalformedPacket /\ left = b)
  \/ exists n, n < 65536 /\ b = u16be n ++ left /\ blen left < n /\ e = BoundaryCrossed n.
(** Text that is not UTF-8 is taken. *)
Definition str_leaves (ft : feature) : leaves := fun b e left =>
  bin_leaves b e left
  \/ ft <> F_binary /\ e = TopicNotUtf8 /\ exists s l, b = l ++ left /\ bin_wire s l /\ ~ utf8 s.

Definition value_leaves (ft : feature) (k : kind) : leaves :=
  match k with
  | KByte => untouched (fixed_faulty 1)
  | KTwo => untouched (fixed_faulty 2)
  | KFour => untouched (fixed_faulty 4)
  | KVar => untouched varint_faulty
  | KStr => str_leaves ft
  | KBin => bin_leaves
  | KPair => after (str_wire ft) (str_leaves ft) (fun _ => str_leaves ft)
  end.
(** The identifier of a property is taken before it is looked at. *)
Definition property_leaves (ft : feature) (allowed : list N) : leaves := fun b e left =>
  match b with
  | [] => e = MalformedPacket /\ left = []
  | id :: r =>
      match property_kind id with
      | Some k => checked (In id allowed) (InvalidPropertyType id) (value_leaves ft k) r e left
      | None => e = InvalidPropertyType id /\ left = r
      end
  end.
Definition section_leaves (ft : feature) (allowed : list N) : leaves :=
  after varint_wire (untouched varint_faulty) (fun declared b e left =>
    exists sp r, b = concat (map snd sp) ++ r /\ Forall (spelled_wire ft allowed) sp
      /\ total sp < declared /\ property_leaves ft allowed r e left).

Definition will_leaves (ft : feature) (flags : N) : leaves :=
  if N.testbit flags 2
  then after (section_wire ft will_allowed) (section_leaves ft will_allowed) (fun _ =>
       after bin_wire bin_leaves (fun _ =>
       after bin_wire bin_leaves (fun _ =>
       checked ((flags / 8) mod 4 <> 3) (InvalidQoS 3) never)))
  else checked ((flags / 8) mod 8 = 0) IncorrectPacketFormat never.

Definition optional_str_leaves (ft : feature) (present : bool) : leaves :=
  if present then str_leaves ft else never.
Definition login_leaves (ft : feature) (flags : N) : leaves :=
  after (optional_str_wire ft (N.testbit flags 7)) (optional_str_leaves ft (N.testbit flags 7)) (fun _ =>
  optional_str_leaves ft (N.testbit flags 6)).

(** The options of a filter are taken before they are looked at. *)
Definition filter_leaves (ft : feature) : leaves :=
  after (str_wire ft) (str_leaves ft) (fun _ =>
  after byte_wire (untouched (fixed_faulty 1)) (fun options =>
  checked ((options / 16) mod 4 <> 3) (InvalidRetainForwardRule 3) (
  checked (options mod 4 <> 3) (InvalidQoS 3) never))).
(** Good filters and then a defective one. *)
Definition filters_leaves (ft : feature) : leaves := fun b e left =>
  exists fs l r, b = l ++ r /\ list_wire (filter_wire ft) fs l /\ r <> [] /\ filter_leaves ft r e left.
