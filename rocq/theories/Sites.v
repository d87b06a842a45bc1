(** Where the property sections of a packet are (specification for C06 and C22-C27).
    Imports no model file. *)
From Verif Require Import Types Spec Wire.

(** A packet has one property section of its own; CONNECT has a second one in its will. *)
Inductive place : Type := Main | Will.

(** The properties the standard allows there, by the packet type in the first byte. *)
Definition allowed_at (byte1 : N) (pl : place) : list N :=
  match pl with
  | Will => will_allowed
  | Main =>
      match byte1 / 16 with
      | 1 => connect_allowed
      | 2 => connack_allowed
      | 3 => publish_allowed
      | 4 | 5 | 6 | 7 | 9 | 11 => ack_allowed
      | 8 => subscribe_allowed
      | 10 => unsubscribe_allowed
      | 14 => disconnect_allowed
      | _ => []
      end
  end.

(** CONNECT up to its property section: protocol name and level, flags, keep alive. *)
Definition connect_head (flags : N) (pre : bytes) : Prop :=
  exists k, pre = (u16be 4 ++ mqtt) ++ [5; flags] ++ u16be k /\ flags < 256 /\ k < 65536.

(** The bytes of a body that precede the property section. *)
Definition before_section (ft : feature) (byte1 : N) (pl : place) (pre : bytes) : Prop :=
  match pl with
  | Main =>
      match byte1 / 16 with
      | 1 => exists flags, connect_head flags pre
      | 2 => exists flags code, pre = [flags; code]
      | 3 => exists topic lt li, pre = lt ++ li /\ str_wire ft topic lt
               /\ ((byte1 / 2) mod 4 = 0 /\ li = []
                   \/ ((byte1 / 2) mod 4 = 1 \/ (byte1 / 2) mod 4 = 2)
                      /\ exists pkid, pkid <> 0 /\ u16_wire pkid li)
      | 4 | 5 | 6 | 7 => exists pkid reason, pkid < 65536 /\ pre = u16be pkid ++ [reason]
      | 8 | 9 | 10 | 11 => exists pkid, u16_wire pkid pre
      | 14 => byte1 mod 16 = 0 /\ exists r, pre = [disconnect_code r]
      | _ => False
      end
  | Will =>
      byte1 / 16 = 1 /\ exists flags head o ls c lc,
        pre = head ++ ls ++ lc /\ connect_head flags head /\ N.testbit flags 2 = true
        /\ section_wire ft connect_allowed o ls /\ str_wire ft c lc
  end.

(** PUBACK, PUBREC, PUBREL and PUBCOMP have a section only if anything follows the reason. *)
Definition has_section (byte1 : N) (rest : bytes) : Prop :=
  4 <= byte1 / 16 <= 7 -> rest <> [].

(** The properties a decoded packet reports. *)
Definition packet_items (pl : place) (p : Packet) : list item :=
  match pl with
  | Main =>
      match p with
      | P_Connect c _ _ => opt_items ConnectProperties_items (co_properties c)
      | P_ConnAck a => opt_items ConnAckProperties_items (ck_properties a)
      | P_Publish p => opt_items PublishProperties_items (pu_properties p)
      | P_PubAck a => opt_items PubAckProperties_items (pa_properties a)
      | P_PubRec a => opt_items PubRecProperties_items (pr_properties a)
      | P_PubRel a => opt_items PubRelProperties_items (pl_properties a)
      | P_PubComp a => opt_items PubCompProperties_items (pc_properties a)
      | P_Subscribe s => opt_items SubscribeProperties_items (su_properties s)
      | P_SubAck a => opt_items SubAckProperties_items (sa_properties a)
      | P_Unsubscribe u => opt_items UnsubscribeProperties_items (un_properties u)
      | P_UnsubAck a => opt_items UnsubAckProperties_items (ua_properties a)
      | P_PingReq => []
      | P_PingResp => []
      | P_Disconnect d => opt_items DisconnectProperties_items (di_properties d)
      end
  | Will =>
      match p with
      | P_Connect _ (Some w) _ => opt_items LastWillProperties_items (lw_properties w)
      | _ => []
      end
  end.

(** The packet without the properties of that place. *)
Definition without_properties (pl : place) (p : Packet) : Packet :=
  match pl with
  | Main =>
      match p with
      | P_Connect c w l => P_Connect (mkConnect (co_keep_alive c) (co_client_id c) (co_clean_start c) None) w l
      | P_ConnAck a => P_ConnAck (mkConnAck (ck_session_present a) (ck_code a) None)
      | P_Publish p => P_Publish (mkPublish (pu_dup p) (pu_qos p) (pu_retain p) (pu_topic p) (pu_pkid p) (pu_payload p) None)
      | P_PubAck a => P_PubAck (mkPubAck (pa_pkid a) (pa_reason a) None)
      | P_PubRec a => P_PubRec (mkPubRec (pr_pkid a) (pr_reason a) None)
      | P_PubRel a => P_PubRel (mkPubRel (pl_pkid a) (pl_reason a) None)
      | P_PubComp a => P_PubComp (mkPubComp (pc_pkid a) (pc_reason a) None)
      | P_Subscribe s => P_Subscribe (mkSubscribe (su_pkid s) (su_filters s) None)
      | P_SubAck a => P_SubAck (mkSubAck (sa_pkid a) (sa_return_codes a) None)
      | P_Unsubscribe u => P_Unsubscribe (mkUnsubscribe (un_pkid u) (un_filters u) None)
      | P_UnsubAck a => P_UnsubAck (mkUnsubAck (ua_pkid a) (ua_reasons a) None)
      | P_PingReq => P_PingReq
      | P_PingResp => P_PingResp
      | P_Disconnect d => P_Disconnect (mkDisconnect (di_reason_code d) None)
      end
  | Will =>
      match p with
      | P_Connect c (Some w) l =>
          P_Connect c (Some (mkLastWill (lw_topic w) (lw_message w) (lw_qos w) (lw_retain w) None)) l
      | p => p
      end
  end.

(** The properties with a given identifier, in order. *)
Definition with_id (id : N) (l : list item) : list item := filter (fun i => fst i =? id) l.
(** Two lists with the same properties up to the order among different identifiers. *)
Definition same_up_to_order (l1 l2 : list item) : Prop := forall id, with_id id l1 = with_id id l2.
(** Properties that may occur several times: user properties, and the subscription identifiers
    of PUBLISH. *)
Definition repeatable (byte1 id : N) : bool := (id =? 38) || ((byte1 / 16 =? 3) && (id =? 11)).
Definition last_only {A} (l : list A) : list A := match rev l with [] => [] | x :: _ => [x] end.
(** What is reported of an identifier: all occurrences, or only the last. *)
Definition resolved (byte1 id : N) (l : list item) : list item :=
  if repeatable byte1 id then with_id id l else last_only (with_id id l).

(** A variable byte integer broken off by the end of the input: up to three bytes, all with
    the continuation bit. *)
Definition broken_varint (l : bytes) : Prop := blen l < 4 /\ Forall (fun b => 128 <= b) l.

(** The properties of a section; a section of length 0 has none. *)
Definition section_items (o : option (list item)) : list item := match o with Some l => l | None => [] end.

(** Properties none of which is a subscription identifier. *)
Definition no_identifiers (sp : list spelled) : Prop := Forall (fun s => fst (fst s) <> 11) sp.
(** How many are, and that there are fewer of them before the last property than that property
    has bytes.  (A property has at least two bytes, so one is never too many.) *)
Definition identifiers (sp : list spelled) : N := N.of_nat (length (filter (fun s => fst (fst s) =? 11) sp)).
Definition identifiers_fit (sp : list spelled) : Prop :=
  forall before s, sp = before ++ [s] -> identifiers before < blen (snd s).
(** A section spelled the way the standard says: the length of the properties, then the
    properties. *)
Definition exact_section (sp : list spelled) (ls : bytes) : Prop :=
  exists lb, varint_wire (blen (concat (map snd sp))) lb /\ ls = lb ++ concat (map snd sp).
