(** Model of the helpers of /repo/src/lib.rs. *)
From Verif Require Import Types.

(** Rust's `?` on a Result. *)
Definition rbind {A B} (r : res A) (k : A -> res B) : res B :=
  match r with Ok a => k a | Err e => Err e | Panic => Panic | Diverge => Diverge end.
Notation "'let?' p := e 'in' k" := (rbind e (fun p => k))
  (at level 200, p pattern, e at level 100, k at level 200).

(** ---------- Operations of the `bytes` crate ---------- *)

(** Buf::advance on Bytes: panics when cnt > len. *)
Definition advance (b : bytes) (cnt : N) : res bytes :=
  if cnt <=? blen b then Ok (skipn (N.to_nat cnt) b) else Panic.

(** Bytes::split_to / BytesMut::split_to: (front, rest), panics when at > len. *)
Definition split_to (b : bytes) (at_ : N) : res (bytes * bytes) :=
  if at_ <=? blen b then Ok (firstn (N.to_nat at_) b, skipn (N.to_nat at_) b) else Panic.

(** Buf::get_u8 / get_u16 / get_u32 (big endian), panic when too short. *)
Definition get_u8 (b : bytes) : res (N * bytes) :=
  match b with x :: r => Ok (x, r) | _ => Panic end.
Definition get_u16 (b : bytes) : res (N * bytes) :=
  match b with x :: y :: r => Ok (x * 256 + y, r) | _ => Panic end.
Definition get_u32 (b : bytes) : res (N * bytes) :=
  match b with
  | x :: y :: z :: w :: r => Ok (((x * 256 + y) * 256 + z) * 256 + w, r)
  | _ => Panic
  end.

(** usize addition on the read path; panics on overflow of the smallest
    supported usize (32 bits).  (Release builds wrap instead; the theorems show
    the limit is never reached.) *)
Definition usize_limit : N := 4294967296.
Definition usize_add (a b : N) : res N :=
  if a + b <? usize_limit then Ok (a + b) else Panic.

(** ---------- Property identifiers ---------- *)

(** /repo/src/lib.rs:258-288 enum PropertyType. *)
Inductive PropertyType : Type :=
| PayloadFormatIndicator | MessageExpiryInterval | ContentType | ResponseTopic
| CorrelationData | SubscriptionIdentifier | SessionExpiryInterval
| AssignedClientIdentifier | ServerKeepAlive | AuthenticationMethod | AuthenticationData
| RequestProblemInformation | WillDelayInterval | RequestResponseInformation
| ResponseInformation | ServerReference | ReasonString | ReceiveMaximum
| TopicAliasMaximum | TopicAlias | MaximumQos | RetainAvailable | UserProperty
| MaximumPacketSize | WildcardSubscriptionAvailable | SubscriptionIdentifierAvailable
| SharedSubscriptionAvailable.

(** /repo/src/lib.rs:258-288 `as u8` of PropertyType (the discriminants). *)
Definition prop_code (p : PropertyType) : N :=
  match p with
  | PayloadFormatIndicator => 1
  | MessageExpiryInterval => 2
  | ContentType => 3
  | ResponseTopic => 8
  | CorrelationData => 9
  | SubscriptionIdentifier => 11
  | SessionExpiryInterval => 17
  | AssignedClientIdentifier => 18
  | ServerKeepAlive => 19
  | AuthenticationMethod => 21
  | AuthenticationData => 22
  | RequestProblemInformation => 23
  | WillDelayInterval => 24
  | RequestResponseInformation => 25
  | ResponseInformation => 26
  | ServerReference => 28
  | ReasonString => 31
  | ReceiveMaximum => 33
  | TopicAliasMaximum => 34
  | TopicAlias => 35
  | MaximumQos => 36
  | RetainAvailable => 37
  | UserProperty => 38
  | MaximumPacketSize => 39
  | WildcardSubscriptionAvailable => 40
  | SubscriptionIdentifierAvailable => 41
  | SharedSubscriptionAvailable => 42
  end.

(** /repo/src/lib.rs:355-388 fn property. *)
Definition property (num : N) : res PropertyType :=
  match num with
  | 1 => Ok PayloadFormatIndicator
  | 2 => Ok MessageExpiryInterval
  | 3 => Ok ContentType
  | 8 => Ok ResponseTopic
  | 9 => Ok CorrelationData
  | 11 => Ok SubscriptionIdentifier
  | 17 => Ok SessionExpiryInterval
  | 18 => Ok AssignedClientIdentifier
  | 19 => Ok ServerKeepAlive
  | 21 => Ok AuthenticationMethod
  | 22 => Ok AuthenticationData
  | 23 => Ok RequestProblemInformation
  | 24 => Ok WillDelayInterval
  | 25 => Ok RequestResponseInformation
  | 26 => Ok ResponseInformation
  | 28 => Ok ServerReference
  | 31 => Ok ReasonString
  | 33 => Ok ReceiveMaximum
  | 34 => Ok TopicAliasMaximum
  | 35 => Ok TopicAlias
  | 36 => Ok MaximumQos
  | 37 => Ok RetainAvailable
  | 38 => Ok UserProperty
  | 39 => Ok MaximumPacketSize
  | 40 => Ok WildcardSubscriptionAvailable
  | 41 => Ok SubscriptionIdentifierAvailable
  | 42 => Ok SharedSubscriptionAvailable
  | _ => Err (InvalidPropertyType num)
  end.

(** /repo/src/lib.rs:632-641 fn qos. *)
Definition qos (num : N) : option QoS :=
  match num with
  | 0 => Some AtMostOnce
  | 1 => Some AtLeastOnce
  | 2 => Some ExactlyOnce
  | _ => None
  end.

(** /repo/src/lib.rs:616-624 `qos as u8`. *)
Definition qos_u8 (q : QoS) : N :=
  match q with AtMostOnce => 0 | AtLeastOnce => 1 | ExactlyOnce => 2 end.

(** `u8::from(bool)`. *)
Definition bool_u8 (b : bool) : N := if b then 1 else 0.

(** ---------- Framing ---------- *)

(** /repo/src/lib.rs:302-314 struct FixedHeader. *)
Record FixedHeader := mkFixedHeader {
  fh_byte1 : N;
  fh_fixed_header_len : N;
  fh_remaining_len : N }.

(** /repo/src/lib.rs:317-324 FixedHeader::new (usize addition unchecked: callers
    inside the crate pass 1..4). *)
Definition FixedHeader_new (byte1 remaining_len_len remaining_len : N) : FixedHeader :=
  mkFixedHeader byte1 (remaining_len_len + 1) remaining_len.

(** /repo/src/lib.rs:326-345 FixedHeader::packet_type. *)
Definition packet_type (h : FixedHeader) : res PacketType :=
  let num := N.shiftr (fh_byte1 h) 4 in
  match num with
  | 1 => Ok PT_Connect
  | 2 => Ok PT_ConnAck
  | 3 => Ok PT_Publish
  | 4 => Ok PT_PubAck
  | 5 => Ok PT_PubRec
  | 6 => Ok PT_PubRel
  | 7 => Ok PT_PubComp
  | 8 => Ok PT_Subscribe
  | 9 => Ok PT_SubAck
  | 10 => Ok PT_Unsubscribe
  | 11 => Ok PT_UnsubAck
  | 12 => Ok PT_PingReq
  | 13 => Ok PT_PingResp
  | 14 => Ok PT_Disconnect
  | _ => Err (InvalidPacketType num)
  end.

(** /repo/src/lib.rs:350-352 FixedHeader::frame_length. *)
Definition frame_length (h : FixedHeader) : N :=
  fh_fixed_header_len h + fh_remaining_len h.

(** /repo/src/lib.rs:449-475 the `for byte in stream` loop of fn length with its
    loop variables; the empty-stream case is the `if !done` exit at 471-473. *)
Fixpoint length_loop (stream : bytes) (len len_len shift : N) : res (N * N) :=
  match stream with
  | [] => Err (InsufficientBytes 1)
  | byte :: rest =>
      let len_len := len_len + 1 in
      let len := len + N.shiftl (N.land byte 127) shift in
      if N.land byte 128 =? 0 then Ok (len_len, len)
      else
        let shift := shift + 7 in
        if 21 <? shift then Err MalformedRemainingLength
        else length_loop rest len len_len shift
  end.

(** /repo/src/lib.rs:439-476 fn length: returns (len_len, len). *)
Definition length_ (stream : bytes) : res (N * N) := length_loop stream 0 0 0.

(** /repo/src/lib.rs:423-434 fn parse_fixed_header. *)
Definition parse_fixed_header (stream : bytes) : res FixedHeader :=
  if blen stream <? 2 then Err (InsufficientBytes (2 - blen stream))
  else
    match stream with
    | [] => Panic  (* stream.next().unwrap() *)
    | byte1 :: rest =>
        let? (len_len, len) := length_ rest in
        Ok (FixedHeader_new byte1 len_len len)
    end.

(** /repo/src/lib.rs:395-420 fn check. *)
Definition check (stream : bytes) (max_packet_size : option N) : res FixedHeader :=
  let? fixed_header := parse_fixed_header stream in
  let limit_check :=
    match max_packet_size with
    | Some max_size =>
        if max_size <? fh_remaining_len fixed_header
        then Err (PayloadSizeLimitExceeded (fh_remaining_len fixed_header) max_size)
        else Ok tt
    | None => Ok tt
    end in
  let? _ := limit_check in
  if blen stream <? frame_length fixed_header
  then Err (InsufficientBytes (frame_length fixed_header - blen stream))
  else Ok fixed_header.

(** ---------- Primitive readers ---------- *)

(** /repo/src/lib.rs:589-596 fn read_u16. *)
Definition read_u16 (b : bytes) : res (N * bytes) :=
  if blen b <? 2 then Err MalformedPacket else get_u16 b.
(** /repo/src/lib.rs:598-605 fn read_u8. *)
Definition read_u8 (b : bytes) : res (N * bytes) :=
  match b with [] => Err MalformedPacket | _ => get_u8 b end.
(** /repo/src/lib.rs:607-614 fn read_u32. *)
Definition read_u32 (b : bytes) : res (N * bytes) :=
  if blen b <? 4 then Err MalformedPacket else get_u32 b.

(** /repo/src/lib.rs:478-492 fn read_mqtt_bytes. *)
Definition read_mqtt_bytes (b : bytes) : res (bytes * bytes) :=
  let? (len, b) := read_u16 b in
  if blen b <? len then Err (BoundaryCrossed len) else split_to b len.

(** `std::str::from_utf8(..).is_ok()`, called at /repo/src/lib.rs:499 and 509.
    Model of the standard library's documented behaviour (Unicode Table 3-7
    "Well-Formed UTF-8 Byte Sequences"); proved equivalent to an independent
    definition by code points in Spec.v/PUtf8.v. *)
Definition cont_byte (b : N) : bool := (128 <=? b) && (b <=? 191).
Definition in_range (lo hi b : N) : bool := (lo <=? b) && (b <=? hi).
Fixpoint from_utf8 (l : bytes) : bool :=
  match l with
  | [] => true
  | a :: l1 =>
      if a <? 128 then from_utf8 l1
      else if in_range 194 223 a then
        match l1 with
        | b :: l2 => cont_byte b && from_utf8 l2
        | [] => false
        end
      else if in_range 224 239 a then
        match l1 with
        | b :: c :: l3 =>
            (if a =? 224 then in_range 160 191 b
             else if a =? 237 then in_range 128 159 b
             else cont_byte b) && cont_byte c && from_utf8 l3
        | _ => false
        end
      else if in_range 240 244 a then
        match l1 with
        | b :: c :: d :: l4 =>
            (if a =? 240 then in_range 144 191 b
             else if a =? 244 then in_range 128 143 b
             else cont_byte b) && cont_byte c && cont_byte d && from_utf8 l4
        | _ => false
        end
      else false
  end.

(** /repo/src/lib.rs:494-519 fn read_mqtt_string, one arm per feature
    (default and boxed_string share the code at 496-503). *)
Definition read_mqtt_string (ft : feature) (b : bytes) : res (bytes * bytes) :=
  match ft with
  | F_default | F_boxed =>
      let? (s, b) := read_mqtt_bytes b in
      if from_utf8 s then Ok (s, b) else Err TopicNotUtf8
  | F_cow =>
      let? (s, b) := read_mqtt_bytes b in
      if from_utf8 s then Ok (s, b) else Err TopicNotUtf8
  | F_binary => read_mqtt_bytes b
  end.

(** Equality of byte strings. *)
Fixpoint bytes_eqb (a b : bytes) : bool :=
  match a, b with
  | [], [] => true
  | x :: a, y :: b => (x =? y) && bytes_eqb a b
  | _, _ => false
  end.
(** /repo/src/lib.rs:77-92 fn mqtt_string_eq (all features compare the bytes). *)
Definition mqtt_string_eq (m str : bytes) : bool := bytes_eqb m str.

(** "MQTT" as bytes (/repo/src/connect.rs:34,102). *)
Definition str_MQTT : bytes := [77; 81; 84; 84].

(** ---------- Writers ---------- *)

(** A function taking `&mut BytesMut` and returning Result: maps the old buffer
    contents to (outcome, new contents); the contents after Err or a panic are
    kept, as the caller can observe them. *)
Definition W (A : Type) : Type := bytes -> res A * bytes.
Definition wret {A} (a : A) : W A := fun b => (Ok a, b).
Definition wbind {A B} (w : W A) (k : A -> W B) : W B := fun b =>
  match w b with
  | (Ok a, b') => k a b'
  | (Err e, b') => (Err e, b')
  | (Panic, b') => (Panic, b')
  | (Diverge, b') => (Diverge, b')
  end.
Notation "'do' p <- e ; k" := (wbind e (fun p => k))
  (at level 200, p pattern, e at level 100, k at level 200).
Notation "'do_' e ; k" := (wbind e (fun _ => k))
  (at level 200, e at level 100, k at level 200).
Definition wfail {A} (e : error) : W A := fun b => (Err e, b).
(** A value computed by a call that may panic, e.g. `unreachable!()`. *)
Definition wlift {A} (r : res A) : W A := fun b => (r, b).

(** BufMut::put_u8 / put_u16 / put_u32 (big endian), extend_from_slice / put_slice. *)
Definition put_slice (s : bytes) : W unit := fun b => (Ok tt, b ++ s).
Definition put_u8 (x : N) : W unit := put_slice [x].
Definition put_u16 (x : N) : W unit := put_slice [x / 256; x mod 256].
Definition put_u32 (x : N) : W unit :=
  put_slice [x / 16777216; (x / 65536) mod 256; (x / 256) mod 256; x mod 256].
(** `buffer[i] = v` on BytesMut: panics when out of range. *)
Definition set_index (i v : N) : W unit := fun b =>
  if i <? blen b
  then (Ok tt, firstn (N.to_nat i) b ++ v :: skipn (S (N.to_nat i)) b)
  else (Panic, b).

(** `for x in &list { body }` with `?` inside. *)
Fixpoint wfor {A} (l : list A) (f : A -> W unit) : W unit :=
  match l with
  | [] => wret tt
  | x :: l => do_ f x; wfor l f
  end.
(** `if let Some(x) = &o { body }`. *)
Definition wopt {A} (o : option A) (f : A -> W unit) : W unit :=
  match o with Some x => f x | None => wret tt end.

(** /repo/src/lib.rs:521-530 fn write_mqtt_bytes. *)
Definition write_mqtt_bytes (s : bytes) : W unit :=
  if blen s <=? 65535
  then do_ put_u16 (blen s); put_slice s
  else wfail BinaryDataTooLong.

(** /repo/src/lib.rs:532-542 fn write_mqtt_string (both features write the bytes). *)
Definition write_mqtt_string (s : bytes) : W unit := write_mqtt_bytes s.

(** /repo/src/lib.rs:554-567 the `while !done` loop of write_remaining_length. *)
Fixpoint write_rl_loop (fuel : nat) (x count : N) : W N :=
  match fuel with
  | O => fun b => (Diverge, b)
  | S fuel =>
      let byte := x mod 128 in
      let x := x / 128 in
      let byte := if 0 <? x then N.lor byte 128 else byte in
      do_ put_u8 byte;
      let count := count + 1 in
      if x =? 0 then wret count else write_rl_loop fuel x count
  end.

(** /repo/src/lib.rs:545-568 fn write_remaining_length. *)
Definition write_remaining_length (len : N) : W N :=
  if 268435455 <? len then wfail PayloadTooLong
  else write_rl_loop 10 len 0.

(** /repo/src/lib.rs:572-582 fn len_len. *)
Definition len_len (len : N) : N :=
  if 2097152 <=? len then 4
  else if 16384 <=? len then 3
  else if 128 <=? len then 2
  else 1.

(** ---------- The property loop ---------- *)

(** The `while cursor < properties_len { let prop = read_u8(bytes)?; cursor += 1;
    match property(prop)? {...} }` loop, textually the same in all *Properties::read
    (e.g. /repo/src/connect.rs:191-239).  [step] is the body of the `match`: it
    gets the property byte, the variables assigned so far and the remaining bytes,
    and returns the new variables, the amount added to the cursor and the rest. *)
Fixpoint props_loop {S : Type} (step : N -> S -> bytes -> res (S * N * bytes))
    (fuel : nat) (cursor properties_len : N) (st : S) (b : bytes) : res (S * bytes) :=
  if cursor <? properties_len then
    match fuel with
    | O => Diverge
    | Datatypes.S fuel =>
        let? (prop, b) := read_u8 b in
        let? cursor := usize_add cursor 1 in
        let? (st, n, b) := step prop st b in
        let? cursor := usize_add cursor n in
        props_loop step fuel cursor properties_len st b
    end
  else Ok (st, b).

(** The common frame of every *Properties::read (e.g. /repo/src/connect.rs:174-252):
    read the property length, return None when it is 0, otherwise run the loop from
    the all-None variables and build the struct. *)
Definition props_read {S : Type} (step : N -> S -> bytes -> res (S * N * bytes)) (init : S)
    (b : bytes) : res (option S * bytes) :=
  let? (properties_len_len, properties_len) := length_ b in
  let? b := advance b properties_len_len in
  if properties_len =? 0 then Ok (None, b)
  else
    let? (st, b) := props_loop step (Datatypes.S (length b)) 0 properties_len init b in
    Ok (Some st, b).

(** Total of `1 + 2 + key.len() + 2 + value.len()` over the user properties: the
    `for (key, value) in &self.user_properties` loop of every *Properties::len. *)
Definition user_props_len (l : user_props) : N :=
  fold_left (fun len '(k, v) => len + (1 + 2 + blen k + 2 + blen v)) l 0.

(** The `for (key, value) in &self.user_properties` loop of every *Properties::write. *)
Definition write_user_props (l : user_props) : W unit :=
  wfor l (fun '(k, v) =>
    do_ put_u8 (prop_code UserProperty);
    do_ write_mqtt_string k;
    write_mqtt_string v).
