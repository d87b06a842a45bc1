(** Independent description of the rejected streams: which error each defect gives
    (specification for C06, C17, C23, C25, C32 and C42).  Imports no model file.

    A fault relates the bytes still to be read with the error they cause. *)
From Verif Require Import Types Spec Wire Sites.

Definition fault := bytes -> error -> Prop.

(** Nothing can go wrong. *)
Definition fine : fault := fun _ _ => False.
(** The bytes begin with a part described by [R]; either that part is defective (fault [F]),
    or it is complete and what follows it is defective. *)
Definition part {A} (R : A -> bytes -> Prop) (F : fault) (next : A -> fault) : fault :=
  fun b e => F b e \/ exists a l r, b = l ++ r /\ R a l /\ next a r e.
(** A condition that must hold before going on. *)
Definition guard (c : Prop) (err : error) (next : fault) : fault :=
  fun b e => (~ c /\ e = err) \/ (c /\ next b e).

(** ---------- Fields ---------- *)

Definition byte_wire (n : N) (l : bytes) : Prop := l = [n].
(** Fixed-size integers: the input ends too early. *)
Definition fixed_faulty (size : N) : fault := fun b e => blen b < size /\ e = MalformedPacket.

(** Variable byte integers: the input ends after a byte with the continuation bit, or four
    bytes have it. *)
Definition varint_faulty : fault := fun b e =>
  (broken_varint b /\ e = InsufficientBytes 1)
  \/ exists l r, b = l ++ r /\ blen l = 4 /\ Forall (fun x => 128 <= x) l
       /\ e = MalformedRemainingLength.

(** Length-prefixed data: no complete length, or fewer bytes than announced. *)
Definition bin_faulty : fault := fun b e =>
  (blen b < 2 /\ e = MalformedPacket)
  \/ exists n r, n < 65536 /\ b = u16be n ++ r /\ blen r < n /\ e = BoundaryCrossed n.
(** Text: moreover it must be UTF-8 (unless the feature switches the check off). *)
Definition str_faulty (ft : feature) : fault := fun b e =>
  bin_faulty b e
  \/ ft <> F_binary /\ e = TopicNotUtf8
     /\ exists s l r, b = l ++ r /\ bin_wire s l /\ ~ utf8 s.

(** ---------- Properties ---------- *)

Definition value_faulty (ft : feature) (k : kind) : fault :=
  match k with
  | KByte => fixed_faulty 1
  | KTwo => fixed_faulty 2
  | KFour => fixed_faulty 4
  | KVar => varint_faulty
  | KStr => str_faulty ft
  | KBin => bin_faulty
  | KPair => part (str_wire ft) (str_faulty ft) (fun _ => str_faulty ft)
  end.
(** A property: identifier missing, unknown or not allowed here, or a defective value. *)
Definition property_faulty (ft : feature) (allowed : list N) : fault := fun b e =>
  match b with
  | [] => e = MalformedPacket
  | id :: r =>
      match property_kind id with
      | Some k => guard (In id allowed) (InvalidPropertyType id) (value_faulty ft k) r e
      | None => e = InvalidPropertyType id
      end
  end.
(** A section: defective length, or good properties not yet reaching the declared length and
    then a defective one. *)
Definition section_faulty (ft : feature) (allowed : list N) : fault :=
  part varint_wire varint_faulty (fun declared b e =>
    exists sp r, b = concat (map snd sp) ++ r /\ Forall (spelled_wire ft allowed) sp
      /\ total sp < declared /\ property_faulty ft allowed r e).

(** ---------- Bodies ---------- *)

Definition will_faulty (ft : feature) (flags : N) : fault :=
  if N.testbit flags 2
  then part (section_wire ft will_allowed) (section_faulty ft will_allowed) (fun _ =>
       part bin_wire bin_faulty (fun _ =>
       part bin_wire bin_faulty (fun _ =>
       guard ((flags / 8) mod 4 <> 3) (InvalidQoS 3) fine)))
  else guard ((flags / 8) mod 8 = 0) IncorrectPacketFormat fine.

Definition optional_str_faulty (ft : feature) (present : bool) : fault :=
  if present then str_faulty ft else fine.
Definition login_faulty (ft : feature) (flags : N) : fault :=
  part (optional_str_wire ft (N.testbit flags 7)) (optional_str_faulty ft (N.testbit flags 7)) (fun _ =>
  optional_str_faulty ft (N.testbit flags 6)).

Definition connect_faulty (ft : feature) : fault :=
  part (str_wire ft) (str_faulty ft) (fun name =>
  part byte_wire (fixed_faulty 1) (fun level =>
  guard (name = mqtt) InvalidProtocol (
  guard (level = 5) (InvalidProtocolLevel level) (
  part byte_wire (fixed_faulty 1) (fun flags =>
  part u16_wire (fixed_faulty 2) (fun _ =>
  part (section_wire ft connect_allowed) (section_faulty ft connect_allowed) (fun _ =>
  part (str_wire ft) (str_faulty ft) (fun _ =>
  part (will_wire ft flags) (will_faulty ft flags) (fun _ =>
  login_faulty ft flags))))))))).

Definition connack_faulty (ft : feature) : fault :=
  part byte_wire (fixed_faulty 1) (fun _ =>
  part byte_wire (fixed_faulty 1) (fun code =>
  part (section_wire ft connack_allowed) (section_faulty ft connack_allowed) (fun _ =>
  guard (exists r, legacy_code r = false /\ connack_code r = code) (InvalidConnectReturnCode code) fine))).

Definition publish_faulty (ft : feature) (byte1 : N) : fault :=
  guard ((byte1 / 2) mod 4 <> 3) (InvalidQoS 3) (
  part (str_wire ft) (str_faulty ft) (fun _ =>
  if (byte1 / 2) mod 4 =? 0
  then section_faulty ft publish_allowed
  else part u16_wire (fixed_faulty 2) (fun pkid =>
       guard (pkid <> 0) PacketIdZero (section_faulty ft publish_allowed)))).

(** [valid]: the reason codes of that acknowledgement. *)
Definition ack_faulty (ft : feature) (valid : N -> Prop) : fault :=
  part u16_wire (fixed_faulty 2) (fun _ b e =>
  match b with
  | [] => False
  | [code] => ~ valid code /\ e = InvalidConnectReturnCode code
  | code :: r =>
      part (section_wire ft ack_allowed) (section_faulty ft ack_allowed) (fun _ =>
      guard (valid code) (InvalidConnectReturnCode code) fine) r e
  end).

Definition filter_faulty (ft : feature) : fault :=
  part (str_wire ft) (str_faulty ft) (fun _ =>
  part byte_wire (fixed_faulty 1) (fun options =>
  guard ((options / 16) mod 4 <> 3) (InvalidRetainForwardRule 3) (
  guard (options mod 4 <> 3) (InvalidQoS 3) fine))).
Definition reason_faulty (valid : N -> Prop) : fault :=
  part byte_wire fine (fun code => guard (valid code) (InvalidSubscribeReasonCode code) fine).

(** Good elements and then a defective one. *)
Definition list_faulty {A} (R : A -> bytes -> Prop) (F : fault) : fault := fun b e =>
  exists xs l r, b = l ++ r /\ list_wire R xs l /\ r <> [] /\ F r e.

Definition subscribe_faulty (ft : feature) : fault :=
  part u16_wire (fixed_faulty 2) (fun _ =>
  part (section_wire ft subscribe_allowed) (section_faulty ft subscribe_allowed) (fun _ b e =>
  (b = [] /\ e = EmptySubscription) \/ list_faulty (filter_wire ft) (filter_faulty ft) b e)).
Definition unsubscribe_faulty (ft : feature) : fault :=
  part u16_wire (fixed_faulty 2) (fun _ =>
  part (section_wire ft unsubscribe_allowed) (section_faulty ft unsubscribe_allowed) (fun _ =>
  list_faulty (str_wire ft) (str_faulty ft))).
Definition codes_faulty (ft : feature) (valid : N -> Prop) : fault :=
  part u16_wire (fixed_faulty 2) (fun _ =>
  part (section_wire ft ack_allowed) (section_faulty ft ack_allowed) (fun _ b e =>
  (b = [] /\ e = MalformedPacket)
  \/ list_faulty (fun c l => valid c /\ l = [c]) (reason_faulty valid) b e)).

Definition disconnect_faulty (ft : feature) (byte1 : N) : fault :=
  guard (byte1 mod 16 = 0) MalformedPacket (fun b e =>
  match b with
  | [] => False
  | code :: r =>
      guard (exists x, disconnect_code x = code) (InvalidConnectReturnCode code)
        (section_faulty ft disconnect_allowed) r e
  end).

(** A body with the first byte of its frame. *)
Definition body_faulty (ft : feature) (byte1 : N) : fault := fun body e =>
  match byte1 / 16 with
  | 0 | 15 => e = InvalidPacketType (byte1 / 16)
  | 12 | 13 => False
  | 14 => disconnect_faulty ft byte1 body e
  | type =>
      guard (body <> []) PayloadRequired
        (match type with
         | 1 => connect_faulty ft
         | 2 => connack_faulty ft
         | 3 => publish_faulty ft byte1
         | 4 => ack_faulty ft (fun c => exists r, puback_code r = c)
         | 5 => ack_faulty ft (fun c => exists r, pubrec_code r = c)
         | 6 => ack_faulty ft (fun c => exists r, pubrel_code r = c)
         | 7 => ack_faulty ft (fun c => exists r, pubcomp_code r = c)
         | 8 => subscribe_faulty ft
         | 9 => codes_faulty ft (fun c => exists r, suback_code r = c)
         | 10 => unsubscribe_faulty ft
         | _ => codes_faulty ft (fun c => exists r, unsuback_code r = c)
         end) body e
  end.

(** The fixed header: too short, overlong length, over the limit, or body not yet there. *)
Definition header_faulty (max : option N) : fault := fun s e =>
  (blen s < 2 /\ e = InsufficientBytes (2 - blen s))
  \/ (exists byte1 t, s = byte1 :: t /\ t <> [] /\ varint_faulty t e)
  \/ (exists byte1 lb t n, s = byte1 :: lb ++ t /\ varint_wire n lb
        /\ ((exists m, max = Some m /\ m < n /\ e = PayloadSizeLimitExceeded n m)
            \/ (within max n /\ blen t < n /\ e = InsufficientBytes (n - blen t)))).

(** A section that breaks off in a variable byte integer: in its own length, or in a
    subscription identifier (11) that comes before the declared length is reached. *)
Definition section_cut (ft : feature) (allowed : list N) (r : bytes) : Prop :=
  broken_varint r
  \/ exists declared lb sp v,
       r = lb ++ concat (map snd sp) ++ 11 :: v /\ varint_wire declared lb
       /\ Forall (spelled_wire ft allowed) sp /\ total sp < declared
       /\ In 11 allowed /\ broken_varint v.

(** A section with a property that is not allowed, before the declared length is reached. *)
Definition section_forbids (ft : feature) (allowed : list N) (id : N) (r : bytes) : Prop :=
  exists declared lb sp v,
    r = lb ++ concat (map snd sp) ++ id :: v /\ varint_wire declared lb
    /\ Forall (spelled_wire ft allowed) sp /\ total sp < declared
    /\ ~ In id allowed.

(** The packets in which the standard defines each property (MQTT 5.0, table 2-4), by packet
    type; 0 stands for the will properties of CONNECT. *)
Definition defined_in (id : N) : list N :=
  match id with
  | 1 => [3; 0]
  | 2 => [3; 0]
  | 3 => [3; 0]
  | 8 => [3; 0]
  | 9 => [3; 0]
  | 11 => [3; 8]
  | 17 => [1; 2; 14]
  | 18 => [2]
  | 19 => [2]
  | 21 => [1; 2; 15]
  | 22 => [1; 2; 15]
  | 23 => [1]
  | 24 => [0]
  | 25 => [1]
  | 26 => [2]
  | 28 => [2; 14]
  | 31 => [2; 4; 5; 6; 7; 9; 11; 14; 15]
  | 33 => [1; 2]
  | 34 => [1; 2]
  | 35 => [3]
  | 36 => [2]
  | 37 => [2]
  | 38 => [1; 2; 3; 0; 4; 5; 6; 7; 8; 9; 10; 11; 14; 15]
  | 39 => [1; 2]
  | 40 => [2]
  | 41 => [2]
  | 42 => [2]
  | _ => []
  end.

(** ---------- Which errors can occur where (specification for C43) ---------- *)

(** Errors of fields and property sections; where strings are binary they need not be UTF-8. *)
Definition field_error_of (ft : feature) (e : error) : Prop :=
  match e with
  | TopicNotUtf8 => ft <> F_binary
  | MalformedPacket | BoundaryCrossed _ | InvalidPropertyType _ | MalformedRemainingLength => True
  | InsufficientBytes n => n = 1
  | _ => False
  end.
(** The errors a packet of each type can be rejected with once its frame is complete. *)
Definition vocabulary (ft : feature) (type : N) (e : error) : Prop :=
  match type with
  | 0 | 15 => e = InvalidPacketType type
  | 12 | 13 => False
  | 14 => field_error_of ft e \/ exists c, e = InvalidConnectReturnCode c
  | _ =>
      e = PayloadRequired \/ field_error_of ft e
      \/ match type with
         | 1 => e = InvalidProtocol \/ (exists l, l <> 5 /\ e = InvalidProtocolLevel l)
                \/ e = IncorrectPacketFormat \/ e = InvalidQoS 3
         | 3 => e = InvalidQoS 3 \/ e = PacketIdZero
         | 8 => e = EmptySubscription \/ e = InvalidQoS 3 \/ e = InvalidRetainForwardRule 3
         | 9 | 11 => exists c, e = InvalidSubscribeReasonCode c
         | 10 => False
         | _ => exists c, e = InvalidConnectReturnCode c
         end
  end.
(** The errors of an incomplete or unacceptable fixed header. *)
Definition header_vocabulary (e : error) : Prop :=
  match e with
  | InsufficientBytes n => 0 < n
  | MalformedRemainingLength => True
  | PayloadSizeLimitExceeded n m => m < n
  | _ => False
  end.

(** ---------- CONNECT (specification for C28) ---------- *)

(** A CONNECT body up to the place of the last will: protocol name, level, flags, keep alive,
    property section, client identifier. *)
Definition connect_front (ft : feature) (flags : N) (pre : bytes) : Prop :=
  exists k lk o ls c lc,
    pre = (u16be 4 ++ mqtt) ++ [5; flags] ++ lk ++ ls ++ lc
    /\ u16_wire k lk /\ section_wire ft connect_allowed o ls /\ str_wire ft c lc.
(** The fields of a last will. *)
Definition will_body (ft : feature) (l : bytes) : Prop :=
  exists o ls t lt m lm,
    l = ls ++ lt ++ lm /\ section_wire ft will_allowed o ls /\ bin_wire t lt /\ bin_wire m lm.

(** ---------- SUBSCRIBE options (specification for C36, MQTT 5.0 section 3.8.3.1) ---------- *)

Definition rule_num (r : RetainForwardRule) : N :=
  match r with OnEverySubscribe => 0 | OnNewSubscribe => 1 | Never => 2 end.
(** Bits 0-1 QoS, bit 2 no local, bit 3 retain as published, bits 4-5 retain handling. *)
Definition options_hold (o : N) (f : Filter) : Prop :=
  o mod 4 = qos_num (fi_qos f) /\ N.testbit o 2 = fi_nolocal f
  /\ N.testbit o 3 = fi_preserve_retain f /\ (o / 16) mod 4 = rule_num (fi_retain_forward_rule f).
(** A topic filter followed by its options. *)
Definition filter_at (path : bytes) (o : N) : bytes := u16be (blen path) ++ path ++ [o].
