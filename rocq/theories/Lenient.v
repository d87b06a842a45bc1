(** What Packet::read lets pass although no frame of the standard looks like that: the list of
    its leniences (C71).  The pieces of a frame are those of Wire; Standard is not used. *)
From Verif Require Import Types Spec Wire Content.

(** A property section with its pieces: the declared length and its spelling, and the properties
    with their spellings. *)
Definition section_parts (ft : feature) (allowed : list N) (declared : N) (lb : bytes) (sp : list spelled)
    (ls : bytes) : Prop :=
  varint_wire declared lb /\ ls = lb ++ concat (map snd sp) /\ Forall (spelled_wire ft allowed) sp
  /\ (declared = 0 /\ sp = [] \/ 0 < declared /\ covers declared sp).

(** How often a property occurs. *)
Definition occurrences (id : N) (sp : list spelled) : nat := length (filter (fun s => fst (fst s) =? id) sp).

Inductive section_lenience (many : list N) (declared : N) (lb : bytes) (sp : list spelled) : Prop :=
| length_not_shortest : lb <> varint declared -> section_lenience many declared lb sp
| length_wrong : declared <> blen (concat (map snd sp)) -> section_lenience many declared lb sp
| identifier_not_shortest id n l :
    In ((id, VVar n), l) sp -> l <> id :: varint n -> section_lenience many declared lb sp
| property_repeated id : ~ In id many -> (2 <= occurrences id sp)%nat -> section_lenience many declared lb sp
| property_not_utf8 s : In s (items_texts (map fst sp)) -> ~ utf8 s -> section_lenience many declared lb sp.

Definition lenient_section (ft : feature) (allowed many : list N) (ls : bytes) : Prop :=
  exists declared lb sp, section_parts ft allowed declared lb sp ls /\ section_lenience many declared lb sp.

(** The will of a CONNECT. *)
Definition lenient_will (ft : feature) (w : option LastWill) (l : bytes) : Prop :=
  exists will ls lt lm, w = Some will /\ l = ls ++ lt ++ lm
    /\ bin_wire (lw_topic will) lt /\ bin_wire (lw_message will) lm
    /\ (lenient_section ft will_allowed [38] ls \/ ~ utf8 (lw_topic will)).

(** One of the filters of a SUBSCRIBE. *)
Definition lenient_filters (ft : feature) (fs : list Filter) (l : bytes) : Prop :=
  exists fs1 f fs2 l1 lp options l2,
    fs = fs1 ++ f :: fs2 /\ l = l1 ++ (lp ++ [options]) ++ l2
    /\ list_wire (filter_wire ft) fs1 l1 /\ str_wire ft (fi_path f) lp /\ list_wire (filter_wire ft) fs2 l2
    /\ (64 <= options \/ ~ utf8 (fi_path f)).

(** The three kinds of a lenience that acknowledgements and DISCONNECT have in common: something
    behind the properties, or in them. *)
Definition lenient_end (ft : feature) (allowed : list N) (ls junk : bytes) : Prop :=
  junk <> [] \/ lenient_section ft allowed [38] ls.
Definition lenient_ack (ft : feature) (pkid code : N) (body : bytes) : Prop :=
  exists ls junk, body = u16be pkid ++ [code] ++ ls ++ junk
    /\ (exists o, section_wire ft ack_allowed o ls) /\ lenient_end ft ack_allowed ls junk.

Definition lenient_body (ft : feature) (p : Packet) (body : bytes) : Prop :=
  match p with
  | P_Connect c w l =>
      exists flags ls lc lw ll junk,
        body = (u16be 4 ++ mqtt) ++ [5; flags] ++ u16be (co_keep_alive c) ++ ls ++ lc ++ lw ++ ll ++ junk
        /\ (exists o, section_wire ft connect_allowed o ls) /\ str_wire ft (co_client_id c) lc
        /\ will_wire ft flags w lw /\ login_wire ft flags l ll
        /\ (N.testbit flags 0 = true                                     (* reserved *)
            \/ lenient_section ft connect_allowed [38] ls
            \/ ~ utf8 (co_client_id c)
            \/ lenient_will ft w lw
            \/ (exists lo, l = Some lo /\ ~ utf8 (lo_username lo))
            \/ junk <> [])
  | P_ConnAck a =>
      exists flags ls junk,
        body = [flags; connack_code (ck_code a)] ++ ls ++ junk
        /\ (exists o, section_wire ft connack_allowed o ls)
        /\ (2 <= flags \/ lenient_end ft connack_allowed ls junk)
  | P_Publish p =>
      exists lt li ls,
        body = lt ++ li ++ ls ++ pu_payload p
        /\ str_wire ft (pu_topic p) lt
        /\ li = match pu_qos p with AtMostOnce => [] | _ => u16be (pu_pkid p) end
        /\ (lenient_section ft publish_allowed [11; 38] ls \/ ~ utf8 (pu_topic p))
  | P_PubAck a => lenient_ack ft (pa_pkid a) (puback_code (pa_reason a)) body
  | P_PubRec a => lenient_ack ft (pr_pkid a) (pubrec_code (pr_reason a)) body
  | P_PubRel a => lenient_ack ft (pl_pkid a) (pubrel_code (pl_reason a)) body
  | P_PubComp a => lenient_ack ft (pc_pkid a) (pubcomp_code (pc_reason a)) body
  | P_Subscribe s =>
      exists ls lf, body = u16be (su_pkid s) ++ ls ++ lf
        /\ (exists o, section_wire ft subscribe_allowed o ls)
        /\ (lenient_section ft subscribe_allowed [38] ls \/ lenient_filters ft (su_filters s) lf)
  | P_SubAck a =>
      exists ls, body = u16be (sa_pkid a) ++ ls ++ map suback_code (sa_return_codes a)
        /\ lenient_section ft ack_allowed [38] ls
  | P_Unsubscribe u =>
      exists ls lf, body = u16be (un_pkid u) ++ ls ++ lf
        /\ (exists o, section_wire ft unsubscribe_allowed o ls)
        /\ (lenient_section ft unsubscribe_allowed [38] ls \/ un_filters u = [] \/ Exists (fun f => ~ utf8 f) (un_filters u))
  | P_UnsubAck a =>
      exists ls, body = u16be (ua_pkid a) ++ ls ++ map unsuback_code (ua_reasons a)
        /\ lenient_section ft ack_allowed [38] ls
  | P_PingReq | P_PingResp => body <> []
  | P_Disconnect d =>
      exists ls junk, body = [disconnect_code (di_reason_code d)] ++ ls ++ junk
        /\ (exists o, section_wire ft disconnect_allowed o ls) /\ lenient_end ft disconnect_allowed ls junk
  end.

(** A frame read as p. *)
Definition lenient (ft : feature) (p : Packet) (f : bytes) : Prop :=
  exists byte1 lb body, f = byte1 :: lb ++ body /\ varint_wire (blen body) lb
    /\ (byte1 <> first_byte p              (* reserved bits *)
        \/ lb <> varint (blen body)        (* not the shortest form *)
        \/ lenient_body ft p body).
