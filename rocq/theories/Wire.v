(** Independent description of the wire language Packet::read accepts, as a relation between
    frames and packets.  It is deliberately more lenient than MQTT 5 where the crate is
    (overlong variable byte integers, ignored trailing bytes, ignored reserved flags,
    repeated properties, the property length rule).  Imports no model file. *)
From Verif Require Import Types Spec.

(** Variable byte integers: 1 to 4 bytes, the high bit set on all but the last; not
    necessarily minimal. *)
Fixpoint varint_value (l : bytes) : N :=
  match l with [] => 0 | b :: r => b mod 128 + 128 * varint_value r end.
Fixpoint varint_shape (l : bytes) : Prop :=
  match l with
  | [] => False
  | b :: r => match r with [] => b < 128 | _ => 128 <= b /\ b < 256 /\ varint_shape r end
  end.
Definition varint_wire (n : N) (l : bytes) : Prop :=
  (length l <= 4)%nat /\ varint_shape l /\ n = varint_value l.

(** Length-prefixed data and text. *)
Definition bin_wire (s l : bytes) : Prop :=
  bytes_ok s /\ blen s < 65536 /\ l = u16be (blen s) ++ s.
Definition str_wire (ft : feature) (s l : bytes) : Prop := text ft s /\ bin_wire s l.
Definition u16_wire (n : N) (l : bytes) : Prop := n < 65536 /\ l = u16be n.

Definition value_wire (ft : feature) (v : pvalue) (l : bytes) : Prop :=
  match v with
  | VByte n => n < 256 /\ l = [n]
  | VTwo n => u16_wire n l
  | VFour n => n < 4294967296 /\ l = u32be n
  | VVar n => varint_wire n l
  | VStr s => str_wire ft s l
  | VBin s => bin_wire s l
  | VPair k v => exists l1 l2, l = l1 ++ l2 /\ str_wire ft k l1 /\ str_wire ft v l2
  end.

(** A property together with the bytes that spell it. *)
Definition spelled : Type := (item * bytes)%type.
Definition spelled_wire (ft : feature) (allowed : list N) (s : spelled) : Prop :=
  let '((id, v), l) := s in
  In id allowed /\ property_kind id = Some (value_kind v)
  /\ exists vl, l = id :: vl /\ value_wire ft v vl.

(** What a property adds to the reader's byte count: its size, but one more than its size
    for a subscription identifier. *)
Definition counted (s : spelled) : N :=
  blen (snd s) + match snd (fst s) with VVar _ => 1 | _ => 0 end.
Fixpoint total (l : list spelled) : N :=
  match l with [] => 0 | s :: l => counted s + total l end.

(** The declared length decides how many properties are read: up to and including the first
    one with which the count reaches the declared length. *)
Definition covers (declared : N) (l : list spelled) : Prop :=
  total (removelast l) < declared /\ declared <= total l.

(** A property section: declared length, then properties. *)
Definition section_wire (ft : feature) (allowed : list N) (o : option (list item)) (l : bytes)
  : Prop :=
  exists declared lb, varint_wire declared lb /\
  match o with
  | None => declared = 0 /\ l = lb
  | Some items =>
      0 < declared /\ exists sp,
        items = map fst sp /\ l = lb ++ concat (map snd sp)
        /\ Forall (spelled_wire ft allowed) sp /\ covers declared sp
  end.

(** ---------- Property structures from item lists ---------- *)

(** The last value given for an identifier. *)
Definition num_value (v : pvalue) : option N :=
  match v with VByte n | VTwo n | VFour n | VVar n => Some n | _ => None end.
Definition str_value (v : pvalue) : option bytes :=
  match v with VStr s | VBin s => Some s | _ => None end.
Definition last_of {A} (get : pvalue -> option A) (id : N) (l : list item) : option A :=
  fold_left (fun acc i => if fst i =? id then get (snd i) else acc) l None.
Definition last_num := last_of num_value.
Definition last_str := last_of str_value.
(** All values, in order. *)
Definition user_pairs (l : list item) : user_props :=
  flat_map (fun i => if fst i =? 38 then match snd i with VPair k v => [(k, v)] | _ => [] end else []) l.
Definition all_ids (l : list item) : list N :=
  flat_map (fun i => if fst i =? 11 then match snd i with VVar n => [n] | _ => [] end else []) l.

Definition ConnectProperties_of (l : list item) : ConnectProperties :=
  mkConnectProperties (last_num 17 l) (last_num 33 l) (last_num 39 l) (last_num 34 l)
    (last_num 25 l) (last_num 23 l) (user_pairs l) (last_str 21 l) (last_str 22 l).
Definition LastWillProperties_of (l : list item) : LastWillProperties :=
  mkLastWillProperties (last_num 24 l) (last_num 1 l) (last_num 2 l) (last_str 3 l)
    (last_str 8 l) (last_str 9 l) (user_pairs l).
Definition ConnAckProperties_of (l : list item) : ConnAckProperties :=
  mkConnAckProperties (last_num 17 l) (last_num 33 l) (last_num 36 l) (last_num 37 l)
    (last_num 39 l) (last_str 18 l) (last_num 34 l) (last_str 31 l) (user_pairs l)
    (last_num 40 l) (last_num 41 l) (last_num 42 l) (last_num 19 l) (last_str 26 l)
    (last_str 28 l) (last_str 21 l) (last_str 22 l).
Definition PublishProperties_of (l : list item) : PublishProperties :=
  mkPublishProperties (last_num 1 l) (last_num 2 l) (last_num 35 l) (last_str 8 l)
    (last_str 9 l) (user_pairs l) (all_ids l) (last_str 3 l).
Definition PubAckProperties_of (l : list item) : PubAckProperties :=
  mkPubAckProperties (last_str 31 l) (user_pairs l).
Definition PubRecProperties_of (l : list item) : PubRecProperties :=
  mkPubRecProperties (last_str 31 l) (user_pairs l).
Definition PubRelProperties_of (l : list item) : PubRelProperties :=
  mkPubRelProperties (last_str 31 l) (user_pairs l).
Definition PubCompProperties_of (l : list item) : PubCompProperties :=
  mkPubCompProperties (last_str 31 l) (user_pairs l).
Definition SubAckProperties_of (l : list item) : SubAckProperties :=
  mkSubAckProperties (last_str 31 l) (user_pairs l).
Definition UnsubAckProperties_of (l : list item) : UnsubAckProperties :=
  mkUnsubAckProperties (last_str 31 l) (user_pairs l).
Definition SubscribeProperties_of (l : list item) : SubscribeProperties :=
  mkSubscribeProperties (last_num 11 l) (user_pairs l).
Definition UnsubscribeProperties_of (l : list item) : UnsubscribeProperties :=
  mkUnsubscribeProperties (user_pairs l).
Definition DisconnectProperties_of (l : list item) : DisconnectProperties :=
  mkDisconnectProperties (last_num 17 l) (last_str 31 l) (user_pairs l) (last_str 28 l).

(** An optional property structure spelled by a section. *)
Definition props_wire {A} (ft : feature) (allowed : list N) (of : list item -> A)
    (o : option A) (l : bytes) : Prop :=
  exists items, section_wire ft allowed items l /\ o = option_map of items.

(** ---------- Bodies ---------- *)

(** Last will: present iff bit 2 of the flags is set; without it bits 3-5 must be 0. *)
Definition will_wire (ft : feature) (flags : N) (w : option LastWill) (l : bytes) : Prop :=
  match w with
  | None => N.testbit flags 2 = false /\ (flags / 8) mod 8 = 0 /\ l = []
  | Some w =>
      N.testbit flags 2 = true
      /\ qos_num (lw_qos w) = (flags / 8) mod 4
      /\ lw_retain w = N.testbit flags 5
      /\ exists ls lt lm,
           l = ls ++ lt ++ lm
           /\ props_wire ft will_allowed LastWillProperties_of (lw_properties w) ls
           /\ bin_wire (lw_topic w) lt /\ bin_wire (lw_message w) lm
  end.

(** A string that is there iff the flag is set; the empty string stands for absence. *)
Definition optional_str_wire (ft : feature) (present : bool) (s l : bytes) : Prop :=
  if present then str_wire ft s l else s = [] /\ l = [].

Definition login_wire (ft : feature) (flags : N) (o : option Login) (l : bytes) : Prop :=
  exists u p lu lp,
    l = lu ++ lp
    /\ optional_str_wire ft (N.testbit flags 7) u lu
    /\ optional_str_wire ft (N.testbit flags 6) p lp
    /\ o = if nonempty u || nonempty p then Some (mkLogin u p) else None.

(** Bytes after the login are ignored. *)
Definition connect_wire (ft : feature) (c : Connect) (w : option LastWill) (o : option Login)
    (body : bytes) : Prop :=
  exists flags lk ls lc lw ll junk,
    body = (u16be 4 ++ mqtt) ++ [5; flags] ++ lk ++ ls ++ lc ++ lw ++ ll ++ junk
    /\ flags < 256 /\ bytes_ok junk
    /\ co_clean_start c = N.testbit flags 1
    /\ u16_wire (co_keep_alive c) lk
    /\ props_wire ft connect_allowed ConnectProperties_of (co_properties c) ls
    /\ str_wire ft (co_client_id c) lc
    /\ will_wire ft flags w lw
    /\ login_wire ft flags o ll.

Definition connack_wire (ft : feature) (a : ConnAck) (body : bytes) : Prop :=
  exists flags ls junk,
    body = [flags; connack_code (ck_code a)] ++ ls ++ junk
    /\ flags < 256 /\ bytes_ok junk /\ legacy_code (ck_code a) = false
    /\ ck_session_present a = N.testbit flags 0
    /\ props_wire ft connack_allowed ConnAckProperties_of (ck_properties a) ls.

(** The payload is everything after the property section. *)
Definition publish_wire (ft : feature) (byte1 : N) (p : Publish) (body : bytes) : Prop :=
  pu_dup p = N.testbit byte1 3
  /\ pu_retain p = N.testbit byte1 0
  /\ qos_num (pu_qos p) = (byte1 / 2) mod 4
  /\ bytes_ok (pu_payload p)
  /\ exists lt li ls,
       body = lt ++ li ++ ls ++ pu_payload p
       /\ str_wire ft (pu_topic p) lt
       /\ (match pu_qos p with
           | AtMostOnce => pu_pkid p = 0 /\ li = []
           | _ => pu_pkid p <> 0 /\ u16_wire (pu_pkid p) li
           end)
       /\ props_wire ft publish_allowed PublishProperties_of (pu_properties p) ls.

(** PUBACK, PUBREC, PUBREL, PUBCOMP: 2 bytes (success), 3 bytes (reason), or reason and
    properties followed by ignored bytes. *)
Definition ack_wire {A} (ft : feature) (of : list item -> A) (pkid code : N) (o : option A)
    (body : bytes) : Prop :=
  exists lk, u16_wire pkid lk /\
  ((body = lk /\ code = 0 /\ o = None)
   \/ (body = lk ++ [code] /\ o = None)
   \/ (exists ls junk, body = lk ++ [code] ++ ls ++ junk /\ bytes_ok junk
         /\ props_wire ft ack_allowed of o ls)).

Definition filter_wire (ft : feature) (f : Filter) (l : bytes) : Prop :=
  exists lp options,
    l = lp ++ [options] /\ options < 256
    /\ str_wire ft (fi_path f) lp
    /\ qos_num (fi_qos f) = options mod 4
    /\ fi_nolocal f = N.testbit options 2
    /\ fi_preserve_retain f = N.testbit options 3
    /\ (options / 16) mod 4 = match fi_retain_forward_rule f with
                              | OnEverySubscribe => 0 | OnNewSubscribe => 1 | Never => 2 end.

(** A concatenation of elements. *)
Inductive list_wire {A} (R : A -> bytes -> Prop) : list A -> bytes -> Prop :=
| list_wire_nil : list_wire R [] []
| list_wire_cons a l la ll : R a la -> list_wire R l ll -> list_wire R (a :: l) (la ++ ll).

Definition subscribe_wire (ft : feature) (s : Subscribe) (body : bytes) : Prop :=
  exists lk ls lf,
    body = lk ++ ls ++ lf /\ u16_wire (su_pkid s) lk
    /\ props_wire ft subscribe_allowed SubscribeProperties_of (su_properties s) ls
    /\ list_wire (filter_wire ft) (su_filters s) lf /\ su_filters s <> [].

Definition unsubscribe_wire (ft : feature) (u : Unsubscribe) (body : bytes) : Prop :=
  exists lk ls lf,
    body = lk ++ ls ++ lf /\ u16_wire (un_pkid u) lk
    /\ props_wire ft unsubscribe_allowed UnsubscribeProperties_of (un_properties u) ls
    /\ list_wire (str_wire ft) (un_filters u) lf.

Definition suback_wire (ft : feature) (a : SubAck) (body : bytes) : Prop :=
  exists lk ls,
    body = lk ++ ls ++ map suback_code (sa_return_codes a) /\ u16_wire (sa_pkid a) lk
    /\ props_wire ft ack_allowed SubAckProperties_of (sa_properties a) ls
    /\ sa_return_codes a <> [].

Definition unsuback_wire (ft : feature) (a : UnsubAck) (body : bytes) : Prop :=
  exists lk ls,
    body = lk ++ ls ++ map unsuback_code (ua_reasons a) /\ u16_wire (ua_pkid a) lk
    /\ props_wire ft ack_allowed UnsubAckProperties_of (ua_properties a) ls
    /\ ua_reasons a <> [].

Definition disconnect_wire (ft : feature) (byte1 : N) (d : Disconnect) (body : bytes) : Prop :=
  byte1 = 224
  /\ ((body = [] /\ d = mkDisconnect DRC_NormalDisconnection None)
      \/ exists ls junk,
           body = [disconnect_code (di_reason_code d)] ++ ls ++ junk /\ bytes_ok junk
           /\ props_wire ft disconnect_allowed DisconnectProperties_of (di_properties d) ls).

(** A body (everything after the fixed header) with the first byte of its frame.  Except for
    PUBLISH and DISCONNECT the low four bits of the first byte are ignored. *)
Definition body_wire (ft : feature) (byte1 : N) (p : Packet) (body : bytes) : Prop :=
  let type := byte1 / 16 in
  match p with
  | P_Connect c w l => type = 1 /\ connect_wire ft c w l body
  | P_ConnAck a => type = 2 /\ connack_wire ft a body
  | P_Publish p => type = 3 /\ publish_wire ft byte1 p body
  | P_PubAck a => type = 4
      /\ ack_wire ft PubAckProperties_of (pa_pkid a) (puback_code (pa_reason a)) (pa_properties a) body
  | P_PubRec a => type = 5
      /\ ack_wire ft PubRecProperties_of (pr_pkid a) (pubrec_code (pr_reason a)) (pr_properties a) body
  | P_PubRel a => type = 6
      /\ ack_wire ft PubRelProperties_of (pl_pkid a) (pubrel_code (pl_reason a)) (pl_properties a) body
  | P_PubComp a => type = 7
      /\ ack_wire ft PubCompProperties_of (pc_pkid a) (pubcomp_code (pc_reason a)) (pc_properties a) body
  | P_Subscribe s => type = 8 /\ subscribe_wire ft s body
  | P_SubAck a => type = 9 /\ suback_wire ft a body
  | P_Unsubscribe u => type = 10 /\ unsubscribe_wire ft u body
  | P_UnsubAck a => type = 11 /\ unsuback_wire ft a body
  | P_PingReq => type = 12 /\ bytes_ok body
  | P_PingResp => type = 13 /\ bytes_ok body
  | P_Disconnect d => disconnect_wire ft byte1 d body
  end.

(** A frame: first byte, remaining length, body. *)
Definition frame_wire (ft : feature) (p : Packet) (frame : bytes) : Prop :=
  exists byte1 lb body,
    frame = byte1 :: lb ++ body /\ byte1 < 256
    /\ varint_wire (blen body) lb /\ body_wire ft byte1 p body.

(** The size limit given by the caller concerns the body. *)
Definition within (max : option N) (n : N) : Prop :=
  match max with Some m => n <= m | None => True end.

(** ---------- Frames regardless of their contents ---------- *)

(** One frame: first byte, remaining length, and that many bytes of body. *)
Definition framed (byte1 : N) (body f : bytes) : Prop :=
  exists lb, f = byte1 :: lb ++ body /\ varint_wire (blen body) lb.
Definition is_frame (f : bytes) : Prop := exists byte1 body, framed byte1 body f.

(** The stream begins with a complete fixed header announcing n bytes of body. *)
Definition announces (n : N) (s : bytes) : Prop :=
  exists byte1 lb t, s = byte1 :: lb ++ t /\ varint_wire n lb.
