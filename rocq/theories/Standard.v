(** MQTT 5.0 control packets as the standard (OASIS, 7 March 2019) describes them: plain numbers,
    byte strings and property lists, independent of the crate's data types.  Of the rules of the
    standard only those on the form of a packet are stated (layout, lengths, UTF-8, which
    properties may occur and how often, which reason codes exist).  Rules on single values
    (Receive Maximum not 0, no wildcard in a topic name, ...) and on the exchange of packets are
    left out, so that [well_formed] covers more than what the standard allows.  Only the layout
    vocabulary (fields, properties) of Spec is used. *)
From Verif Require Import Types Spec.

(** 1.5.4: UTF-8 encoded string; 1.5.6: binary data. *)
Definition mqtt_string (s : bytes) : Prop := utf8 s /\ blen s <= 65535.
Definition mqtt_binary (s : bytes) : Prop := bytes_ok s /\ blen s <= 65535.

(** 2.2.2: properties.  [many] are those that may occur more than once. *)
Definition well_formed_value (v : pvalue) : Prop :=
  match v with
  | VByte n => n < 256
  | VTwo n => n < 65536
  | VFour n => n < 4294967296
  | VVar n => n <= max_varint
  | VStr s => mqtt_string s
  | VBin s => mqtt_binary s
  | VPair k v => mqtt_string k /\ mqtt_string v
  end.
Definition has_id (id : N) (i : item) : bool := fst i =? id.
Definition well_formed_props (allowed many : list N) (l : list item) : Prop :=
  Forall (fun i => In (fst i) allowed /\ property_kind (fst i) = Some (value_kind (snd i))
                   /\ well_formed_value (snd i)) l
  /\ (forall id, ~ In id many -> (length (filter (has_id id) l) <= 1)%nat)
  /\ blen (fields_bytes (items_fields l)) <= max_varint.

(** 3.1.3.2 - 3.1.3.4: the will message. *)
Record will := mkWill {
  wi_qos : N; wi_retain : bool; wi_props : list item; wi_topic : bytes; wi_payload : bytes }.
(** 3.8.3.1: a topic filter and its subscription options. *)
Record subscription := mkSubscription {
  sb_filter : bytes; sb_qos : N; sb_no_local : bool; sb_retain_as_published : bool; sb_retain_handling : N }.
(** 3.4 - 3.7. *)
Inductive ack_type : Type := TPubAck | TPubRec | TPubRel | TPubComp.

Inductive message : Type :=
| MConnect (clean : bool) (keep_alive : N) (props : list item) (client_id : bytes)
    (w : option will) (user password : option bytes)
| MConnAck (session_present : bool) (code : N) (props : list item)
| MPublish (dup : bool) (qos : N) (retain : bool) (topic : bytes) (id : option N)
    (props : list item) (payload : bytes)
| MAck (t : ack_type) (id code : N) (props : list item)
| MSubscribe (id : N) (props : list item) (subs : list subscription)
| MSubAck (id : N) (props : list item) (codes : list N)
| MUnsubscribe (id : N) (props : list item) (filters : list bytes)
| MUnsubAck (id : N) (props : list item) (codes : list N)
| MPingReq
| MPingResp
| MDisconnect (code : N) (props : list item)
| MAuth (code : N) (props : list item).

(** ---------- Reason codes (tables in section 3) ---------- *)

Definition connack_codes : list N :=
  [0; 128; 129; 130; 131; 132; 133; 134; 135; 136; 137; 138; 140; 144; 149; 151; 153; 154; 155; 156; 157; 159].
Definition puback_codes : list N := [0; 16; 128; 131; 135; 144; 145; 151; 153].   (* PUBACK, PUBREC *)
Definition pubrel_codes : list N := [0; 146].                                      (* PUBREL, PUBCOMP *)
Definition suback_codes : list N := [0; 1; 2; 128; 131; 135; 143; 145; 151; 158; 161; 162].
Definition unsuback_codes : list N := [0; 17; 128; 131; 135; 143; 145].
Definition disconnect_codes : list N :=
  [0; 4; 128; 129; 130; 131; 135; 137; 139; 141; 142; 143; 144; 147; 148; 149; 150; 151; 152; 153; 154; 155;
   156; 157; 158; 159; 160; 161; 162].
Definition auth_codes : list N := [0; 24; 25].
Definition ack_codes (t : ack_type) : list N :=
  match t with TPubAck | TPubRec => puback_codes | TPubRel | TPubComp => pubrel_codes end.

(** ---------- Well-formedness ---------- *)

Definition if_some {A} (P : A -> Prop) (o : option A) : Prop :=
  match o with Some a => P a | None => True end.
Definition well_formed_will (w : will) : Prop :=
  wi_qos w <= 2 /\ well_formed_props will_allowed [38] (wi_props w)
  /\ mqtt_string (wi_topic w) /\ mqtt_binary (wi_payload w).
Definition well_formed_subscription (s : subscription) : Prop :=
  mqtt_string (sb_filter s) /\ sb_qos s <= 2 /\ sb_retain_handling s <= 2.

Definition well_formed (m : message) : Prop :=
  match m with
  | MConnect clean keep_alive props client_id w user password =>
      keep_alive < 65536 /\ well_formed_props connect_allowed [38] props /\ mqtt_string client_id
      /\ if_some well_formed_will w /\ if_some mqtt_string user /\ if_some mqtt_binary password
  | MConnAck _ code props => In code connack_codes /\ well_formed_props connack_allowed [38] props
  | MPublish dup qos retain topic id props payload =>
      qos <= 2 /\ mqtt_string topic
      /\ (match id with None => qos = 0 | Some n => qos <> 0 /\ n <> 0 /\ n < 65536 end)
      /\ well_formed_props publish_allowed [11; 38] props /\ bytes_ok payload
  | MAck t id code props => id < 65536 /\ In code (ack_codes t) /\ well_formed_props ack_allowed [38] props
  | MSubscribe id props subs =>
      id < 65536 /\ well_formed_props subscribe_allowed [38] props
      /\ Forall well_formed_subscription subs /\ subs <> []
  | MSubAck id props codes =>
      id < 65536 /\ well_formed_props ack_allowed [38] props
      /\ Forall (fun c => In c suback_codes) codes /\ codes <> []
  | MUnsubscribe id props filters =>
      id < 65536 /\ well_formed_props unsubscribe_allowed [38] props
      /\ Forall mqtt_string filters /\ filters <> []
  | MUnsubAck id props codes =>
      id < 65536 /\ well_formed_props ack_allowed [38] props
      /\ Forall (fun c => In c unsuback_codes) codes /\ codes <> []
  | MPingReq | MPingResp => True
  | MDisconnect code props => In code disconnect_codes /\ well_formed_props disconnect_allowed [38] props
  | MAuth code props => In code auth_codes /\ well_formed_props [21; 22; 31; 38] [38] props
  end.

(** ---------- Layout ---------- *)

(** 2.1.2, 2.1.3, 3.3.1: first byte. *)
Definition type_and_flags (m : message) : N :=
  match m with
  | MConnect _ _ _ _ _ _ _ => 16
  | MConnAck _ _ _ => 32
  | MPublish dup qos retain _ _ _ _ => 48 + bit dup 8 + 2 * qos + bit retain 1
  | MAck TPubAck _ _ _ => 64
  | MAck TPubRec _ _ _ => 80
  | MAck TPubRel _ _ _ => 98
  | MAck TPubComp _ _ _ => 112
  | MSubscribe _ _ _ => 130
  | MSubAck _ _ _ => 144
  | MUnsubscribe _ _ _ => 162
  | MUnsubAck _ _ _ => 176
  | MPingReq => 192
  | MPingResp => 208
  | MDisconnect _ _ => 224
  | MAuth _ _ => 240
  end.

(** 3.1.2.3: connect flags. *)
Definition is_some {A} (o : option A) : bool := match o with Some _ => true | None => false end.
Definition flags_byte (clean : bool) (w : option will) (user password : option bytes) : N :=
  bit clean 2
  + match w with Some w => 4 + 8 * wi_qos w + bit (wi_retain w) 32 | None => 0 end
  + bit (is_some password) 64 + bit (is_some user) 128.
Definition options_byte (s : subscription) : N :=
  sb_qos s + bit (sb_no_local s) 4 + bit (sb_retain_as_published s) 8 + 16 * sb_retain_handling s.

Definition opt_bin (o : option bytes) : list field := match o with Some s => [FBin s] | None => [] end.

(** Variable header and payload.  In PUBACK, PUBREC, PUBREL and PUBCOMP (3.4.2 - 3.7.2), in
    DISCONNECT (3.14.2) and AUTH (3.15.2) the property length may be left out if there are no
    properties, and then the reason code too if it is 0. *)
Inductive layout : message -> list field -> Prop :=
| lay_connect clean keep_alive props client_id w user password :
    layout (MConnect clean keep_alive props client_id w user password)
      ([FBin mqtt; FByte 5; FByte (flags_byte clean w user password); FTwo keep_alive]
       ++ section_fields props ++ [FBin client_id]
       ++ match w with
          | Some w => section_fields (wi_props w) ++ [FBin (wi_topic w); FBin (wi_payload w)]
          | None => []
          end
       ++ opt_bin user ++ opt_bin password)
| lay_connack present code props :
    layout (MConnAck present code props) ([FByte (bit present 1); FByte code] ++ section_fields props)
| lay_publish dup qos retain topic id props payload :
    layout (MPublish dup qos retain topic id props payload)
      ([FBin topic] ++ match id with Some n => [FTwo n] | None => [] end
       ++ section_fields props ++ [FRaw payload])
| lay_ack t id code props :
    layout (MAck t id code props) ([FTwo id; FByte code] ++ section_fields props)
| lay_ack_reason t id code : layout (MAck t id code []) [FTwo id; FByte code]
| lay_ack_success t id : layout (MAck t id 0 []) [FTwo id]
| lay_subscribe id props subs :
    layout (MSubscribe id props subs)
      ([FTwo id] ++ section_fields props
       ++ flat_map (fun s => [FBin (sb_filter s); FByte (options_byte s)]) subs)
| lay_suback id props codes : layout (MSubAck id props codes) ([FTwo id] ++ section_fields props ++ map FByte codes)
| lay_unsubscribe id props filters :
    layout (MUnsubscribe id props filters) ([FTwo id] ++ section_fields props ++ map FBin filters)
| lay_unsuback id props codes : layout (MUnsubAck id props codes) ([FTwo id] ++ section_fields props ++ map FByte codes)
| lay_pingreq : layout MPingReq []
| lay_pingresp : layout MPingResp []
| lay_disconnect code props : layout (MDisconnect code props) ([FByte code] ++ section_fields props)
| lay_disconnect_reason code : layout (MDisconnect code []) [FByte code]
| lay_disconnect_normal : layout (MDisconnect 0 []) []
| lay_auth code props : layout (MAuth code props) ([FByte code] ++ section_fields props)
| lay_auth_reason code : layout (MAuth code []) [FByte code]
| lay_auth_success : layout (MAuth 0 []) [].

(** A frame of the standard that says m. *)
Definition standard_frame (m : message) (f : bytes) : Prop :=
  well_formed m /\ exists l,
    layout m l /\ blen (fields_bytes l) <= max_varint
    /\ f = [type_and_flags m] ++ varint (blen (fields_bytes l)) ++ fields_bytes l.

(** ---------- What a packet of the crate says ---------- *)

(** The same properties up to their order, the order among those with the same identifier kept. *)
Definition same_props (l l' : list item) : Prop :=
  forall id, filter (has_id id) l = filter (has_id id) l'.

Definition says_will (o : option LastWill) (o' : option will) : Prop :=
  match o, o' with
  | None, None => True
  | Some w, Some w' =>
      qos_num (lw_qos w) = wi_qos w' /\ lw_retain w = wi_retain w'
      /\ same_props (opt_items LastWillProperties_items (lw_properties w)) (wi_props w')
      /\ lw_topic w = wi_topic w' /\ lw_message w = wi_payload w'
  | _, _ => False
  end.
(** The crate does not tell an absent user name or password from an empty one. *)
Definition or_empty (o : option bytes) : bytes := match o with Some s => s | None => [] end.
Definition says_login (o : option Login) (user password : option bytes) : Prop :=
  match o with
  | Some l => lo_username l = or_empty user /\ lo_password l = or_empty password
  | None => or_empty user = [] /\ or_empty password = []
  end.
Definition says_filter (f : Filter) (s : subscription) : Prop :=
  fi_path f = sb_filter s /\ qos_num (fi_qos f) = sb_qos s /\ fi_nolocal f = sb_no_local s
  /\ fi_preserve_retain f = sb_retain_as_published s
  /\ match fi_retain_forward_rule f with OnEverySubscribe => 0 | OnNewSubscribe => 1 | Never => 2 end
     = sb_retain_handling s.

Definition says (p : Packet) (m : message) : Prop :=
  match p, m with
  | P_Connect c w l, MConnect clean keep_alive props client_id w' user password =>
      co_clean_start c = clean /\ co_keep_alive c = keep_alive /\ co_client_id c = client_id
      /\ same_props (opt_items ConnectProperties_items (co_properties c)) props
      /\ says_will w w' /\ says_login l user password
  | P_ConnAck a, MConnAck present code props =>
      ck_session_present a = present /\ connack_code (ck_code a) = code /\ legacy_code (ck_code a) = false
      /\ same_props (opt_items ConnAckProperties_items (ck_properties a)) props
  | P_Publish p, MPublish dup qos retain topic id props payload =>
      pu_dup p = dup /\ qos_num (pu_qos p) = qos /\ pu_retain p = retain /\ pu_topic p = topic
      /\ pu_pkid p = match id with Some n => n | None => 0 end
      /\ same_props (opt_items PublishProperties_items (pu_properties p)) props /\ pu_payload p = payload
  | P_PubAck a, MAck TPubAck id code props =>
      pa_pkid a = id /\ puback_code (pa_reason a) = code
      /\ same_props (opt_items PubAckProperties_items (pa_properties a)) props
  | P_PubRec a, MAck TPubRec id code props =>
      pr_pkid a = id /\ pubrec_code (pr_reason a) = code
      /\ same_props (opt_items PubRecProperties_items (pr_properties a)) props
  | P_PubRel a, MAck TPubRel id code props =>
      pl_pkid a = id /\ pubrel_code (pl_reason a) = code
      /\ same_props (opt_items PubRelProperties_items (pl_properties a)) props
  | P_PubComp a, MAck TPubComp id code props =>
      pc_pkid a = id /\ pubcomp_code (pc_reason a) = code
      /\ same_props (opt_items PubCompProperties_items (pc_properties a)) props
  | P_Subscribe s, MSubscribe id props subs =>
      su_pkid s = id /\ same_props (opt_items SubscribeProperties_items (su_properties s)) props
      /\ Forall2 says_filter (su_filters s) subs
  | P_SubAck a, MSubAck id props codes =>
      sa_pkid a = id /\ same_props (opt_items SubAckProperties_items (sa_properties a)) props
      /\ map suback_code (sa_return_codes a) = codes
  | P_Unsubscribe u, MUnsubscribe id props filters =>
      un_pkid u = id /\ same_props (opt_items UnsubscribeProperties_items (un_properties u)) props
      /\ un_filters u = filters
  | P_UnsubAck a, MUnsubAck id props codes =>
      ua_pkid a = id /\ same_props (opt_items UnsubAckProperties_items (ua_properties a)) props
      /\ map unsuback_code (ua_reasons a) = codes
  | P_PingReq, MPingReq => True
  | P_PingResp, MPingResp => True
  | P_Disconnect d, MDisconnect code props =>
      disconnect_code (di_reason_code d) = code
      /\ same_props (opt_items DisconnectProperties_items (di_properties d)) props
  | _, _ => False
  end.

(** ---------- Frames the crate does not understand ---------- *)

(** Subscription identifiers are counted one byte too long: the last property must have more
    bytes than there are identifiers before it.  (At most one is always fine.) *)
Definition identifiers_fit_in (l : list item) : Prop :=
  forall before last, l = before ++ [last] ->
    N.of_nat (length (filter (has_id 11) before)) < blen (fields_bytes (item_fields last)).

(** The password, binary data in the standard, is text for the crate; multiple subscription
    identifiers in PUBLISH must fit; the DISCONNECT of 3 bytes (reason code without property
    length) and AUTH are not understood. *)
Definition supported (ft : feature) (m : message) (f : bytes) : Prop :=
  match m with
  | MConnect _ _ _ _ _ _ password => if_some (text ft) password
  | MPublish _ _ _ _ _ props _ => identifiers_fit_in props
  | MDisconnect _ _ => blen f <> 3
  | MAuth _ _ => False
  | _ => True
  end.

(** ---------- Packets that say something ---------- *)

(** The crate's types allow a will topic that is not text and empty lists, which the standard
    does not. *)
Definition expressible (p : Packet) : Prop :=
  match p with
  | P_Connect _ (Some w) _ => utf8 (lw_topic w)
  | P_Subscribe s => su_filters s <> []
  | P_SubAck a => sa_return_codes a <> []
  | P_Unsubscribe u => un_filters u <> []
  | P_UnsubAck a => ua_reasons a <> []
  | _ => True
  end.
