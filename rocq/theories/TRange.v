(** What Packet::read can return (C72): which values of the type Packet are read from some bytes.
    Everything that is not excluded here is left to the caller to check. *)
From Verif Require Import Types Model Spec Wire Content PBase PVarint PUtf8 PRead PItems PProps PFrame PWire PTotal
  PWrite PRound PBack TFraming TWrite TRound TBack TProps Samples.

(** Excluded: what has no encoding (a string or binary field over 65535 bytes, a subscription
    identifier over 268435455, the packet identifier 0 at QoS 1 or 2); a property structure
    without a property, a login of two empty strings and a packet identifier at QoS 0 (the
    packets that [normalize] changes); three CONNACK codes; empty SUBSCRIBE, SUBACK and UNSUBACK. *)
Definition readable (p : Packet) : Prop :=
  encodable p /\ normalize p = p /\ legacy_connack p = false /\ list_safe p = true.

Definition is_read (ft : feature) (p : Packet) : Prop :=
  exists s max rest, bytes_ok s /\ Packet_read ft s max = (Ok p, rest).

(** A packet of moderate size (128 MB). *)
Definition moderate (p : Packet) : Prop := blen (fields_bytes (body_fields p)) <= 134217727.

Lemma nvars_isize l : nvars l <= isize l.
Proof.
  induction l as [|i l IH]; [vm_compute; discriminate|]. rewrite nvars_cons, isize_cons. pose proof (isize_pos i). destruct (is_var i); lia.
Qed.
Lemma framed_is_read ft byte1 body p : byte1 < 256 -> bytes_ok body -> blen body <= max_varint -> body_wire ft byte1 p body -> is_read ft p.
Proof.
  intros H1 Hb Hl B. exists (byte1 :: varint (blen body) ++ body), None, [].
  assert (Ok1 : bytes_ok (byte1 :: varint (blen body) ++ body)).
  { constructor; [exact H1|]. apply Forall_app. split; [apply varint_byte_ok; exact Hl|exact Hb]. }
  split; [exact Ok1|]. apply C37_read_is_the_wire_language; [exact Ok1|]. exists byte1, body, (byte1 :: varint (blen body) ++ body).
  split; [rewrite app_nil_r; reflexivity|]. split; [exists (varint (blen body)); split; [reflexivity|apply varint_is_wire; exact Hl]|].
  split; [exact B|exact I].
Qed.

(** A PUBLISH whatever its subscription identifiers: with a declared length that makes up for
    the miscount. *)
Lemma total_items_covers l : l <> [] -> covers (isize l + nvars l) (spell l).
Proof.
  intros Hne. unfold covers. rewrite total_spell. split; [|lia]. destruct (exists_last Hne) as (a & x & ->).
  rewrite spell_app. cbn [spell map]. rewrite removelast_snoc. fold (spell a). rewrite total_spell, isize_app, nvars_app. pose proof (isize_pos x). lia.
Qed.
Lemma publish_is_read ft p : rust_packet ft (P_Publish p) -> readable (P_Publish p) -> moderate (P_Publish p) -> is_read ft (P_Publish p).
Proof.
  intros Hr (He & Hn & _ & _) Hm. destruct (encodable_body _ He) as [Heb _]. pose proof (body_bytes_ok ft _ Hr Heb) as Hok.
  destruct (publish_first_byte p) as (B0 & Bt & B1 & B2 & B3). pose proof Hr as (Ht & Hk & Hpl & Hi). unfold moderate in Hm. cbn [body_fields] in Hm, Heb, Hok.
  set (l := opt_items PublishProperties_items (pu_properties p)) in *.
  set (li := fields_bytes match pu_qos p with AtMostOnce => [] | _ => [FId (pu_pkid p)] end).
  set (declared := isize l + nvars l).
  set (ls := varint declared ++ fields_bytes (items_fields l)).
  pose proof (nvars_isize l) as Hv. rewrite !fields_bytes_app, !fields_bytes_one, section_bytes in Hm, Hok. fold li in Hm, Hok. cbn [field_bytes] in Hm, Hok.
  rewrite !blen_app in Hm. fold (isize l) in Hm. unfold bytes_ok in Hok. rewrite !Forall_app in Hok. destruct Hok as (O1 & O2 & (_ & O3) & O4).
  assert (Hd : declared <= max_varint) by (unfold declared, max_varint; lia).
  pose proof (varint_len_le declared) as Hl.
  unfold enc in Heb. rewrite !Forall_app in Heb. destruct Heb as (E1 & E2 & E3 & E4). apply Forall_inv in E1.
  unfold section_fields in E3. apply Forall_cons_iff in E3. destruct E3 as [_ E3].
  apply (framed_is_read ft (first_byte (P_Publish p)) (field_bytes (FBin (pu_topic p)) ++ li ++ ls ++ pu_payload p)).
  - exact B0.
  - unfold bytes_ok, ls. rewrite !Forall_app. cbn [field_bytes]. pose proof (varint_byte_ok _ Hd). rewrite ?Forall_app in *. tauto.
  - unfold ls. cbn [field_bytes]. rewrite !blen_app. fold (isize l). unfold max_varint. lia.
  - split; [exact Bt|]. split; [exact B1|]. split; [exact B2|]. split; [exact B3|]. split; [exact Hpl|].
    exists (field_bytes (FBin (pu_topic p))), li, ls. split; [reflexivity|]. split; [apply str_enc_wire; assumption|]. split.
    + unfold li. cbn [normalize] in Hn. injection Hn as Hn. apply (f_equal pu_pkid) in Hn. clear - Hn E2 Hk. destruct p as [d q r t id pl pr]. cbn [pu_qos pu_pkid] in *.
      destruct q.
      * subst id. auto.
      * apply Forall_inv in E2. cbn [field_error] in E2. rewrite fields_bytes_one. cbn [field_bytes]. destruct (N.eqb_spec id 0); [discriminate|]. split; [assumption|split; [assumption|reflexivity]].
      * apply Forall_inv in E2. cbn [field_error] in E2. rewrite fields_bytes_one. cbn [field_bytes]. destruct (N.eqb_spec id 0); [discriminate|]. split; [assumption|split; [assumption|reflexivity]].
    + assert (Np : drop_empty PublishProperties_items (pu_properties p) = pu_properties p).
      { cbn [normalize] in Hn. injection Hn as Hn. apply (f_equal pu_properties) in Hn. exact Hn. }
      destruct (pu_properties p) as [q|]; subst ls declared; cbn [opt_items] in l.
      * assert (Ne : l <> []) by (subst l; cbn [drop_empty] in Np; destruct (PublishProperties_items q); discriminate).
        exists (Some l). split; [|cbn [option_map]; subst l; cbn [opt_items]; rewrite PublishProperties_of_items; reflexivity].
        exists (isize l + nvars l), (varint (isize l + nvars l)). split; [apply varint_is_wire; exact Hd|]. split.
        { destruct l as [|i r]; [congruence|]. rewrite isize_cons. pose proof (isize_pos i). lia. }
        exists (spell l). rewrite spell_items, spell_bytes. split; [reflexivity|]. split; [reflexivity|]. split; [|apply total_items_covers; exact Ne].
        apply spell_wire; [apply PublishProperties_items_wk|exact Hi|exact E3].
      * exists None. split; [|reflexivity]. exists 0, [0]. split; [apply (varint_is_wire 0); vm_compute; discriminate|]. split; reflexivity.
Qed.

(** ** The packets that are read *)

Theorem C72_what_can_be_read ft p : moderate p ->
  is_read ft p <-> rust_packet ft p /\ readable p.
Proof.
  intros Hm. split.
  - intros (s & max & rest & Hs & E). destruct (decoded_sound _ _ _ _ _ Hs E) as (n & [Hr Hn Hl Hli He _ _] & Hx & _).
    split; [exact Hr|]. split; [|auto]. unfold encodable, packet_fields, frame_fields.
    constructor; [reflexivity|]. constructor; [|apply He; exact Hx]. cbn [field_error]. unfold moderate in Hm.
    rewrite (proj2 (N.leb_le _ _)); [reflexivity|]. unfold max_varint. lia.
  - intros [Hr R]. pose proof R as (He & Hn & Hl & Hli). destruct (roundtrip_safe p) eqn:S.
    { destruct (encodable_body _ He) as [Heb Hb]. rewrite <- Hn. apply (framed_is_read ft (first_byte p) (fields_bytes (body_fields p))).
      - apply first_byte_ok.
      - eapply body_bytes_ok; eassumption.
      - exact Hb.
      - apply body_enc_wire; assumption. }
    unfold roundtrip_safe in S. rewrite Hl, Hli, andb_true_r, andb_true_r in S.
    destruct p as [c w l|a|p|a| | |s|a|a|a|a|u|a|d]; try discriminate S; [apply publish_is_read; assumption|].
    cbn [publish_safe] in S. rewrite andb_true_r in S. apply negb_false_iff in S.
    apply bad_disconnect_cases in S. destruct S as (d' & E & _ & S). injection E as <-.
    assert (Np : di_properties d = None).
    { destruct S as [S|(q & Eq & Iq)]; [exact S|]. cbn [normalize] in Hn. injection Hn as Hn. destruct d as [r o]. cbn [di_properties di_reason_code] in *. subst o.
      cbn [drop_empty] in Hn. rewrite Iq in Hn. discriminate Hn. }
    apply (framed_is_read ft 224 [disconnect_code (di_reason_code d); 0]).
    + reflexivity.
    + constructor; [destruct (di_reason_code d); reflexivity|repeat constructor].
    + vm_compute. discriminate.
    + split; [reflexivity|]. right. exists [0], []. split; [reflexivity|]. split; [constructor|]. exists None. split; [|rewrite Np; reflexivity].
      exists 0, [0]. split; [apply (varint_is_wire 0); vm_compute; discriminate|]. split; reflexivity.
Qed.

(** ** Values that are not checked *)

Lemma moderate_is_read ft p : rust_packet ft p -> readable p -> moderate p -> is_read ft p.
Proof. intros Hr R Hm. apply C72_what_can_be_read; auto. Qed.

(** Any topic name (wildcards, U+0000, empty without an alias), DUP at QoS 0, any payload. *)
Theorem C72_any_topic_and_payload ft dup qos retain topic id payload :
  text ft topic -> blen topic <= 65535 -> bytes_ok payload -> blen payload <= 134000000 -> id < 65536 -> (qos = AtMostOnce <-> id = 0) ->
  is_read ft (P_Publish (mkPublish dup qos retain topic id payload None)).
Proof.
  intros Ht Hl Hp Hpl Hi Hq.
  assert (En : Forall (fun f => field_error f = None) (body_fields (P_Publish (mkPublish dup qos retain topic id payload None)))).
  { cbn [body_fields pu_topic pu_qos pu_pkid pu_properties opt_items pu_payload]. constructor.
    - cbn [field_error]. rewrite (proj2 (N.leb_le _ _) Hl). reflexivity.
    - apply Forall_app. split; [|repeat constructor]. destruct qos; [constructor|constructor; [|constructor]..];
        cbn [field_error]; (destruct (N.eqb_spec id 0) as [->|]; [|reflexivity]); exfalso; assert (X := proj2 Hq eq_refl); discriminate X. }
  assert (M : moderate (P_Publish (mkPublish dup qos retain topic id payload None))).
  { unfold moderate. cbn [body_fields pu_topic pu_qos pu_pkid pu_properties opt_items pu_payload].
    rewrite !fields_bytes_app, !fields_bytes_one, !blen_app. cbn [field_bytes]. rewrite blen_app.
    assert (blen (fields_bytes match qos with AtMostOnce => [] | _ => [FId id] end) <= 2).
    { destruct qos; [vm_compute; discriminate|rewrite fields_bytes_one; cbn [field_bytes]; destruct (id =? 0); vm_compute; discriminate..]. }
    change (blen (u16be (blen topic))) with 2. change (blen (fields_bytes (section_fields []))) with 1. lia. }
  apply moderate_is_read; [| |exact M].
  - cbn. split; [exact Ht|]. split; [exact Hi|]. split; [exact Hp|constructor].
  - split; [|split; [|split; reflexivity]].
    + unfold encodable, packet_fields, frame_fields. constructor; [reflexivity|]. constructor; [|exact En]. cbn [field_error]. unfold moderate in M.
      rewrite (proj2 (N.leb_le _ _)); [reflexivity|]. unfold max_varint. lia.
    + cbn. destruct qos; [|reflexivity..]. rewrite (proj1 Hq eq_refl). reflexivity.
Qed.

Lemma empty_text ft : text ft [].
Proof. apply ascii_text. reflexivity. Qed.
Lemma small_is_read ft p : rust_packet ft p -> Forall (fun f => field_error f = None) (body_fields p) -> normalize p = p ->
  legacy_connack p = false -> list_safe p = true -> moderate p -> is_read ft p.
Proof.
  intros Hr He Hn Hl Hli M. apply moderate_is_read; [exact Hr| |exact M]. split; [|auto].
  unfold encodable, packet_fields, frame_fields. constructor; [reflexivity|]. constructor; [|exact He]. cbn [field_error]. unfold moderate in M.
  rewrite (proj2 (N.leb_le _ _)); [reflexivity|]. unfold max_varint. lia.
Qed.

(** Any numbers in CONNECT (Receive Maximum 0, Maximum Packet Size 0, request bytes over 1). *)
Theorem C72_any_numbers_in_connect ft keep_alive clean expiry receive size alias response problem :
  keep_alive < 65536 -> expiry < 4294967296 -> receive < 65536 -> size < 4294967296 -> alias < 65536 -> response < 256 -> problem < 256 ->
  is_read ft (P_Connect (mkConnect keep_alive [] clean
    (Some (mkConnectProperties (Some expiry) (Some receive) (Some size) (Some alias) (Some response) (Some problem) [] None None))) None None).
Proof.
  intros. apply small_is_read; [| |reflexivity|reflexivity|reflexivity|vm_compute; discriminate].
  - cbn [rust_packet co_keep_alive co_client_id co_properties]. split; [assumption|]. split; [apply empty_text|]. unfold items_ok. cbn.
    split; [repeat (constructor; [assumption|]); constructor|]. split; intros ? X; discriminate X.
  - repeat constructor.
Qed.
(** Any numbers in CONNACK (booleans over 1, Maximum QoS over 1). *)
Theorem C72_any_numbers_in_connack ft present receive qos retain size alias wildcard ids shared keep_alive :
  receive < 65536 -> qos < 256 -> retain < 256 -> size < 4294967296 -> alias < 65536 -> wildcard < 256 -> ids < 256 -> shared < 256 -> keep_alive < 65536 ->
  is_read ft (P_ConnAck (mkConnAck present CRC_Success
    (Some (mkConnAckProperties None (Some receive) (Some qos) (Some retain) (Some size) None (Some alias) None [] (Some wildcard) (Some ids)
       (Some shared) (Some keep_alive) None None None None)))).
Proof.
  intros. apply small_is_read; [| |reflexivity|reflexivity|reflexivity|vm_compute; discriminate].
  - cbn. repeat (constructor; [assumption|]); constructor.
  - repeat constructor.
Qed.
(** Any identifier, also 0, in the packets that acknowledge, subscribe and unsubscribe. *)
Theorem C72_any_identifier ft id q : id < 65536 ->
  is_read ft (P_PubAck (mkPubAck id PAR_Success None)) /\ is_read ft (P_PubRec (mkPubRec id PRR_Success None))
  /\ is_read ft (P_PubRel (mkPubRel id PLR_Success None)) /\ is_read ft (P_PubComp (mkPubComp id PCR_Success None))
  /\ is_read ft (P_Subscribe (mkSubscribe id [mkFilter [] q true true Never] None)) /\ is_read ft (P_SubAck (mkSubAck id [SRC_Success q] None))
  /\ is_read ft (P_Unsubscribe (mkUnsubscribe id [] None)) /\ is_read ft (P_UnsubAck (mkUnsubAck id [UAR_Success] None)).
Proof.
  intros H. pose proof (empty_text ft) as T.
  repeat apply conj; (apply small_is_read;
    [cbn [rust_packet pa_pkid pr_pkid pl_pkid pc_pkid su_pkid sa_pkid un_pkid ua_pkid pa_properties pr_properties pl_properties pc_properties
          su_properties sa_properties un_properties ua_properties opt_items su_filters un_filters fi_path];
     split; [exact H|]; try split; try exact (Forall_nil _); try (constructor; [exact T|exact (Forall_nil _)])
    |idtac|reflexivity|reflexivity|reflexivity|vm_compute; discriminate]).
  all: cbn; repeat apply Forall_cons; try reflexivity; try apply Forall_nil.
Qed.

(** ** Instances *)

(** A PUBLISH that cannot be written and read back (C21) but is read, and three packets that are not. *)
Definition many_ids : Packet :=
  P_Publish (mkPublish false AtMostOnce false [116] 0 [] (Some (mkPublishProperties None None None None None [] [1; 2; 3; 4; 5; 6] None))).
Example C72_instances :
  is_read F_default many_ids /\ publish_safe many_ids = false
  /\ is_read F_default (P_Disconnect (mkDisconnect DRC_UnspecifiedError None))
  /\ ~ is_read F_default (P_Publish (mkPublish false AtLeastOnce false [116] 0 [] None))
  /\ ~ is_read F_default (P_SubAck (mkSubAck 1 [] None))
  /\ ~ is_read F_default (P_PubAck (mkPubAck 1 PAR_Success (Some (mkPubAckProperties None [])))).
Proof.
  split.
  { apply small_is_read; [|repeat constructor|reflexivity|reflexivity|reflexivity|vm_compute; discriminate]. cbn. split; [apply ascii_text; reflexivity|].
    split; [reflexivity|]. split; repeat constructor. }
  split; [reflexivity|]. split.
  { apply small_is_read; [constructor|repeat constructor|reflexivity|reflexivity|reflexivity|vm_compute; discriminate]. }
  split; [|split]; (intros X; apply C72_what_can_be_read in X; [destruct X as (_ & He & Hn & _ & Hl)|vm_compute; discriminate]).
  - apply first_error_forall in He. discriminate He.
  - discriminate Hl.
  - discriminate Hn.
Qed.
