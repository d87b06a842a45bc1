(** Changing a packet in the bytes, as proxies do for packet identifiers and resending clients for
    the DUP flag (C70). *)
From Verif Require Import Types Model Spec Wire Sites Faults Driver PBase PVarint PUtf8 PRead PItems PProps PFrame PWire PTotal
  PWrite PRound PBack PFaults TFraming TWrite TRound TPackets Samples.
Import Faults.

(** ** The changes, on packets *)

(** The packet identifier, for the kinds that carry one (MQTT 5.0 section 2.2.1). *)
Definition identifier (p : Packet) : option N :=
  match p with
  | P_Publish p => match pu_qos p with AtMostOnce => None | _ => Some (pu_pkid p) end
  | P_PubAck a => Some (pa_pkid a)
  | P_PubRec a => Some (pr_pkid a)
  | P_PubRel a => Some (pl_pkid a)
  | P_PubComp a => Some (pc_pkid a)
  | P_Subscribe s => Some (su_pkid s)
  | P_SubAck a => Some (sa_pkid a)
  | P_Unsubscribe u => Some (un_pkid u)
  | P_UnsubAck a => Some (ua_pkid a)
  | P_Connect _ _ _ | P_ConnAck _ | P_PingReq | P_PingResp | P_Disconnect _ => None
  end.
Definition set_identifier (k : N) (p : Packet) : Packet :=
  match p with
  | P_Publish p => P_Publish (mkPublish (pu_dup p) (pu_qos p) (pu_retain p) (pu_topic p) k (pu_payload p) (pu_properties p))
  | P_PubAck a => P_PubAck (mkPubAck k (pa_reason a) (pa_properties a))
  | P_PubRec a => P_PubRec (mkPubRec k (pr_reason a) (pr_properties a))
  | P_PubRel a => P_PubRel (mkPubRel k (pl_reason a) (pl_properties a))
  | P_PubComp a => P_PubComp (mkPubComp k (pc_reason a) (pc_properties a))
  | P_Subscribe s => P_Subscribe (mkSubscribe k (su_filters s) (su_properties s))
  | P_SubAck a => P_SubAck (mkSubAck k (sa_return_codes a) (sa_properties a))
  | P_Unsubscribe u => P_Unsubscribe (mkUnsubscribe k (un_filters u) (un_properties u))
  | P_UnsubAck a => P_UnsubAck (mkUnsubAck k (ua_reasons a) (ua_properties a))
  | _ => p
  end.
(** How many bytes of the body stand before the identifier. *)
Definition before_identifier (p : Packet) : N :=
  match p with P_Publish p => 2 + blen (pu_topic p) | _ => 0 end.
Definition is_publish (p : Packet) : bool := match p with P_Publish _ => true | _ => false end.

(** The first byte of a PUBLISH (MQTT 5.0 section 3.3.1). *)
Definition publish_byte (dup : bool) (q : QoS) (retain : bool) : N :=
  48 + bit dup 8 + 2 * qos_num q + bit retain 1.
Definition set_flags (dup : bool) (q : QoS) (retain : bool) (p : Publish) : Publish :=
  mkPublish dup q retain (pu_topic p) (pu_pkid p) (pu_payload p) (pu_properties p).
Definition set_payload (payload : bytes) (p : Publish) : Publish :=
  mkPublish (pu_dup p) (pu_qos p) (pu_retain p) (pu_topic p) (pu_pkid p) payload (pu_properties p).
(** Both have an identifier or neither has. *)
Definition same_layout (q q' : QoS) : Prop := q = AtMostOnce <-> q' = AtMostOnce.

(** ** Reading *)

Lemma ack_patch {A} ft (of : list item -> A) pkid code o body :
  ack_wire ft of pkid code o body ->
  exists after, body = u16be pkid ++ after /\ pkid < 65536
    /\ forall k, k < 65536 -> ack_wire ft of k code o (u16be k ++ after).
Proof.
  intros (lk & [Hk ->] & [(-> & -> & ->)|[(-> & ->)|(ls & junk & -> & J & P)]]).
  - exists []. rewrite app_nil_r. repeat split; auto. intros k Hk'. exists (u16be k). rewrite app_nil_r.
    split; [split; auto|]. left. auto.
  - exists [code]. repeat split; auto. intros k Hk'. exists (u16be k). split; [split; auto|]. right; left. auto.
  - exists ([code] ++ ls ++ junk). repeat split; auto. intros k Hk'. exists (u16be k). split; [split; auto|].
    right; right. exists ls, junk. auto.
Qed.
Lemma blen_u16 k : blen (u16be k) = 2.
Proof. reflexivity. Qed.
Lemma identifier_body ft b1 p body id : body_wire ft b1 p body -> identifier p = Some id ->
  exists before after, body = before ++ u16be id ++ after /\ blen before = before_identifier p /\ id < 65536
    /\ (is_publish p = true -> exists topic, str_wire ft topic before)
    /\ forall k, k < 65536 -> k <> 0 \/ is_publish p = false ->
         body_wire ft b1 (set_identifier k p) (before ++ u16be k ++ after).
Proof.
  intros B Hi.
  assert (Acks : forall (after : bytes) (P : Prop), (body = u16be id ++ after /\ id < 65536 /\ is_publish p = false
      /\ before_identifier p = 0 /\ forall k, k < 65536 -> body_wire ft b1 (set_identifier k p) (u16be k ++ after)) ->
    exists before after, body = before ++ u16be id ++ after /\ blen before = before_identifier p /\ id < 65536
    /\ (is_publish p = true -> exists topic, str_wire ft topic before)
    /\ forall k, k < 65536 -> k <> 0 \/ is_publish p = false ->
         body_wire ft b1 (set_identifier k p) (before ++ u16be k ++ after)).
  { intros after _ (E & Hk & Hp & Hb & H). exists [], after. rewrite Hb, Hp. split; [exact E|]. split; [reflexivity|]. split; [exact Hk|].
    split; [discriminate|]. intros k Hk' _. exact (H k Hk'). }
  destruct p as [| |p|a| | |s|a|a|a|a|u|a|]; cbn [identifier] in Hi; try discriminate;
    cbn [body_wire] in B.
  - destruct B as (T & D & R & Q & Y & lt & li & ls & -> & St & I & P).
    assert (X : pu_pkid p <> 0 /\ u16_wire (pu_pkid p) li /\ pu_pkid p = id).
    { destruct (pu_qos p); [discriminate|injection Hi as <-; tauto..]. }
    destruct X as (_ & [Hk ->] & <-). exists lt, (ls ++ pu_payload p). cbn [before_identifier is_publish].
    assert (L : blen lt = 2 + blen (pu_topic p)).
    { destruct St as (_ & _ & _ & X). rewrite X, blen_app. reflexivity. }
    split; [reflexivity|]. split; [exact L|]. split; [exact Hk|]. split; [intros _; eauto|].
    intros k Hk' [H0|]; [|discriminate]. cbn [set_identifier body_wire]. split; [exact T|].
    repeat (split; [assumption|]). exists lt, (u16be k), ls. cbn [pu_payload pu_qos pu_pkid pu_topic pu_properties].
    split; [reflexivity|]. split; [exact St|]. split; [|exact P].
    destruct (pu_qos p); [discriminate|split; [exact H0|split; auto]..].
  - injection Hi as <-. destruct B as [T B]. destruct (ack_patch _ _ _ _ _ _ B) as (after & E & Hk & H).
    apply (Acks after True). repeat split; auto.
  - injection Hi as <-. destruct B as [T (lk & ls & lf & -> & [Hk ->] & P & F)].
    apply (Acks (ls ++ lf) True). repeat split; auto. exists (u16be k), ls, lf. repeat split; tauto.
  - injection Hi as <-. destruct B as [T (lk & ls & -> & [Hk ->] & P & F)].
    apply (Acks (ls ++ map suback_code (sa_return_codes a)) True). repeat split; auto. exists (u16be k), ls. repeat split; tauto.
  - injection Hi as <-. destruct B as [T B]. destruct (ack_patch _ _ _ _ _ _ B) as (after & E & Hk & H).
    apply (Acks after True). repeat split; auto.
  - injection Hi as <-. destruct B as [T B]. destruct (ack_patch _ _ _ _ _ _ B) as (after & E & Hk & H).
    apply (Acks after True). repeat split; auto.
  - injection Hi as <-. destruct B as [T B]. destruct (ack_patch _ _ _ _ _ _ B) as (after & E & Hk & H).
    apply (Acks after True). repeat split; auto.
  - injection Hi as <-. destruct B as [T (lk & ls & lf & -> & [Hk ->] & P & F)].
    apply (Acks (ls ++ lf) True). repeat split; auto. exists (u16be k), ls, lf. repeat split; tauto.
  - injection Hi as <-. destruct B as [T (lk & ls & -> & [Hk ->] & P & F)].
    apply (Acks (ls ++ map unsuback_code (ua_reasons a)) True). repeat split; auto. exists (u16be k), ls. repeat split; tauto.
Qed.
Lemma framed_patch b1 lb body body' : blen body' = blen body -> varint_wire (blen body) lb ->
  framed b1 body' (b1 :: lb ++ body').
Proof. intros E H. exists lb. rewrite E. auto. Qed.
Lemma u16_ok k : k < 65536 -> bytes_ok (u16be k).
Proof. intros H. unfold u16be. repeat constructor; lia. Qed.

(** A packet with an identifier was read.  Its two identifier bytes are at a place that the topic
    (PUBLISH) or nothing (the others) determines; any other identifier written there is read as
    the same packet with that identifier, and 0 in a PUBLISH is refused. *)
Theorem C70_identifier_in_place ft max s p rest id :
  bytes_ok s -> Packet_read ft s max = (Ok p, rest) -> identifier p = Some id ->
  exists byte1 lb before after,
    s = (byte1 :: lb ++ before ++ u16be id ++ after) ++ rest
    /\ varint_wire (blen (before ++ u16be id ++ after)) lb
    /\ blen before = before_identifier p
    /\ (forall k, k < 65536 -> k <> 0 \/ is_publish p = false ->
          Packet_read ft ((byte1 :: lb ++ before ++ u16be k ++ after) ++ rest) max = (Ok (set_identifier k p), rest))
    /\ (is_publish p = true ->
          Packet_read ft ((byte1 :: lb ++ before ++ u16be 0 ++ after) ++ rest) max = (Err PacketIdZero, rest)).
Proof.
  intros Hs E Hi. apply C37_read_is_the_wire_language in E; [|exact Hs].
  destruct E as (b1 & body & f & -> & (lb & -> & V) & B & W).
  destruct (identifier_body ft b1 p body id B Hi) as (before & after & -> & Hb & Hid & Ht & H).
  exists b1, lb, before, after. split; [reflexivity|]. split; [exact V|]. split; [exact Hb|].
  assert (L : forall k, blen (before ++ u16be k ++ after) = blen (before ++ u16be id ++ after)).
  { intros k. rewrite !blen_app, !blen_u16. reflexivity. }
  assert (O : forall k, k < 65536 -> bytes_ok ((b1 :: lb ++ before ++ u16be k ++ after) ++ rest)).
  { intros k Hk. revert Hs. rewrite !bytes_ok_app. cbn [app]. unfold bytes_ok. rewrite !Forall_cons_iff, !Forall_app.
    pose proof (u16_ok k Hk). tauto. }
  split.
  - intros k Hk Hz. apply C37_read_is_the_wire_language; [auto|]. exists b1, (before ++ u16be k ++ after), (b1 :: lb ++ before ++ u16be k ++ after).
    split; [reflexivity|]. split; [apply (framed_patch b1 lb _ _ (L k) V)|]. split; [auto|]. rewrite L. exact W.
  - intros Hp. destruct p as [| |p| | | | | | | | | | | ]; try discriminate. cbn [body_wire] in B. destruct B as (T & _ & _ & Q & _).
    apply (C19_zero_id_rejected ft max b1 (before ++ u16be 0 ++ after)); [|exact T| | |split].
    + apply (framed_patch b1 lb _ _ (L 0) V).
    + apply O. lia.
    + rewrite L. exact W.
    + rewrite <- Q. cbn [identifier] in Hi. destruct (pu_qos p); [discriminate|cbn; auto..].
    + destruct (Ht eq_refl) as (topic & St). exists topic, before, after. split; [reflexivity|exact St].
Qed.

(** The flags of a PUBLISH are read from its first byte and nowhere else: any other DUP and RETAIN
    bits, and QoS 1 for 2 or the other way round, are read as the same packet with these. *)
Theorem C70_flags_in_place ft max s p rest :
  bytes_ok s -> Packet_read ft s max = (Ok (P_Publish p), rest) ->
  exists tail, s = publish_byte (pu_dup p) (pu_qos p) (pu_retain p) :: tail
    /\ forall dup q retain, same_layout (pu_qos p) q ->
         Packet_read ft (publish_byte dup q retain :: tail) max = (Ok (P_Publish (set_flags dup q retain p)), rest).
Proof.
  intros Hs E. apply C37_read_is_the_wire_language in E; [|exact Hs].
  destruct E as (b1 & body & f & -> & (lb & -> & V) & B & W).
  cbn [body_wire] in B. destruct B as (T & D & R & Q & Y & lt & li & ls & -> & St & I & P).
  assert (B1 : b1 = publish_byte (pu_dup p) (pu_qos p) (pu_retain p)).
  { unfold publish_byte. rewrite D, Q, R. apply N.bits_inj_iff. clear - T.
    assert (X : b1 = 48 + b1 mod 16) by (pose proof (N.div_mod b1 16); lia).
    assert (L : b1 mod 16 < 16) by (apply N.mod_lt; lia). clear T. revert X L. generalize (b1 mod 16) as r. intros r -> L.
    assert (C : r = 0 \/ r = 1 \/ r = 2 \/ r = 3 \/ r = 4 \/ r = 5 \/ r = 6 \/ r = 7 \/ r = 8 \/ r = 9 \/ r = 10 \/ r = 11
      \/ r = 12 \/ r = 13 \/ r = 14 \/ r = 15) by lia.
    repeat destruct C as [->|C]; try subst r; intros n; reflexivity. }
  exists ((lb ++ lt ++ li ++ ls ++ pu_payload p) ++ rest). split; [cbn [app]; congruence|].
  intros dup q retain L. apply C37_read_is_the_wire_language.
  { unfold bytes_ok in *. cbn [app] in Hs. apply Forall_cons_iff in Hs. apply Forall_cons_iff. split; [|apply Hs].
    unfold publish_byte. destruct dup, q, retain; cbn; lia. }
  eexists _, _, (publish_byte dup q retain :: lb ++ lt ++ li ++ ls ++ pu_payload p). split; [reflexivity|].
  split; [exists lb; split; [reflexivity|exact V]|]. split; [|exact W].
  cbn [body_wire set_flags]. split; [destruct dup, q, retain; reflexivity|].
  unfold publish_wire. cbn [pu_dup pu_retain pu_qos pu_payload].
  split; [destruct dup, q, retain; reflexivity|]. split; [destruct dup, q, retain; reflexivity|].
  split; [destruct dup, q, retain; reflexivity|]. split; [exact Y|].
  exists lt, li, ls. split; [reflexivity|]. split; [exact St|]. split; [|exact P]. cbn [pu_pkid].
  unfold same_layout in L. destruct (pu_qos p), q; try exact I; exfalso; intuition discriminate.
Qed.

(** The payload of a PUBLISH is the end of its frame and is not looked at: other bytes of the same
    number there are read as the same packet with that payload. *)
Theorem C70_payload_in_place ft max s p rest :
  bytes_ok s -> Packet_read ft s max = (Ok (P_Publish p), rest) ->
  exists head, s = head ++ pu_payload p ++ rest
    /\ forall payload, bytes_ok payload -> blen payload = blen (pu_payload p) ->
         Packet_read ft (head ++ payload ++ rest) max = (Ok (P_Publish (set_payload payload p)), rest).
Proof.
  intros Hs E. apply C37_read_is_the_wire_language in E; [|exact Hs].
  destruct E as (b1 & body & f & -> & (lb & -> & V) & B & W).
  cbn [body_wire] in B. destruct B as (T & D & R & Q & Y & lt & li & ls & -> & St & I & P).
  exists (b1 :: lb ++ lt ++ li ++ ls). split; [cbn [app]; rewrite <- !app_assoc; reflexivity|].
  intros payload Hp L. apply C37_read_is_the_wire_language.
  { revert Hs. unfold bytes_ok. cbn [app]. rewrite !Forall_cons_iff, !Forall_app. tauto. }
  assert (X : blen (lt ++ li ++ ls ++ payload) = blen (lt ++ li ++ ls ++ pu_payload p)) by (rewrite !blen_app, L; reflexivity).
  exists b1, (lt ++ li ++ ls ++ payload), (b1 :: lb ++ lt ++ li ++ ls ++ payload).
  split; [cbn [app]; rewrite <- !app_assoc; reflexivity|].
  split; [apply (framed_patch b1 lb _ _ X V)|]. rewrite X. split; [|exact W].
  cbn [body_wire set_payload]. split; [exact T|]. unfold publish_wire. cbn [pu_dup pu_retain pu_qos pu_payload].
  repeat (split; [assumption|]). exists lt, li, ls. auto.
Qed.

(** The keep alive of a CONNECT is two bytes at a fixed place. *)
Theorem C70_keep_alive_in_place ft max s c w l rest :
  bytes_ok s -> Packet_read ft s max = (Ok (P_Connect c w l), rest) ->
  exists head after, s = head ++ u16be (co_keep_alive c) ++ after
    /\ (exists byte1 lb flags, head = byte1 :: lb ++ [0; 4; 77; 81; 84; 84; 5; flags] /\ 1 <= blen lb <= 4)
    /\ forall k, k < 65536 ->
         Packet_read ft (head ++ u16be k ++ after) max
         = (Ok (P_Connect (mkConnect k (co_client_id c) (co_clean_start c) (co_properties c)) w l), rest).
Proof.
  intros Hs E. apply C37_read_is_the_wire_language in E; [|exact Hs].
  destruct E as (b1 & body & f & -> & (lb & -> & V) & B & W).
  cbn [body_wire] in B. destruct B as (T & flags & lk & ls & lc & lw & ll & junk & -> & Hf & Hj & C & [Hk ->] & P & I & Wi & L).
  assert (HD : [0; 4; 77; 81; 84; 84; 5; flags] = (u16be 4 ++ mqtt) ++ [5; flags]) by reflexivity.
  exists (b1 :: lb ++ [0; 4; 77; 81; 84; 84; 5; flags]), ((ls ++ lc ++ lw ++ ll ++ junk) ++ rest).
  split. { rewrite HD. cbn [app]. rewrite <- !app_assoc. cbn [app]. rewrite <- ?app_assoc. reflexivity. }
  split. { exists b1, lb, flags. split; [reflexivity|]. destruct (varint_wire_bound _ _ V). tauto. }
  intros k Hk'. apply C37_read_is_the_wire_language.
  { pose proof (u16_ok k Hk') as K. rewrite HD. revert Hs K.
    assert (Cons : forall x, b1 :: x = [b1] ++ x) by reflexivity. rewrite !(Cons (_ ++ _)), !bytes_ok_app. tauto. }
  assert (X : blen ((u16be 4 ++ mqtt) ++ [5; flags] ++ u16be k ++ ls ++ lc ++ lw ++ ll ++ junk)
              = blen ((u16be 4 ++ mqtt) ++ [5; flags] ++ u16be (co_keep_alive c) ++ ls ++ lc ++ lw ++ ll ++ junk)).
  { rewrite !blen_app, !blen_u16. reflexivity. }
  exists b1, ((u16be 4 ++ mqtt) ++ [5; flags] ++ u16be k ++ ls ++ lc ++ lw ++ ll ++ junk).
  eexists. split; [|split; [apply (framed_patch b1 lb _ _ X V)|]].
  - rewrite HD. cbn [app]. rewrite <- !app_assoc. cbn [app]. rewrite <- ?app_assoc. reflexivity.
  - rewrite X. split; [|exact W]. cbn [body_wire]. split; [exact T|].
    exists flags, (u16be k), ls, lc, lw, ll, junk. split; [reflexivity|]. repeat (split; [assumption|]).
    split; [split; auto|]. repeat (split; [assumption|]). exact L.
Qed.

(** ** Writing *)

(** The fields of the body around the identifier; the others do not depend on it. *)
Lemma identifier_fields p id : identifier p = Some id ->
  exists F before after, (F = FTwo \/ F = FId /\ is_publish p = true) /\ body_fields p = before ++ F id :: after
    /\ blen (fields_bytes before) = before_identifier p
    /\ forall k, body_fields (set_identifier k p) = before ++ F k :: after.
Proof.
  intros Hi.
  assert (Ack : forall pkid code none items, exists after, forall k, ack_fields k code none items = FTwo k :: after
            /\ ack_fields pkid code none items = FTwo pkid :: after).
  { intros. unfold ack_fields. destruct (_ && _); eexists; split; reflexivity. }
  destruct p as [| |p|a| | |s|a|a|a|a|u|a|]; cbn [identifier] in Hi; try discriminate.
  - exists FId, [FBin (pu_topic p)],
      (section_fields (opt_items PublishProperties_items (pu_properties p)) ++ [FRaw (pu_payload p)]).
    split; [right; auto|]. cbn [body_fields set_identifier pu_topic pu_qos pu_pkid pu_properties pu_payload].
    destruct (pu_qos p); [discriminate|injection Hi as <-; repeat split..];
      rewrite fields_bytes_one; cbn [field_bytes]; rewrite blen_app; reflexivity.
  - injection Hi as <-. destruct (Ack (pa_pkid a) (puback_code (pa_reason a)) (is_none (pa_properties a)) (opt_items PubAckProperties_items (pa_properties a))) as (after & H).
    exists FTwo, [], after. split; [auto|]. split; [apply (H 0)|]. split; [reflexivity|]. intros k. apply (H k).
  - injection Hi as <-. exists FTwo, []. eexists. split; [auto|]. repeat split.
  - injection Hi as <-. exists FTwo, []. eexists. split; [auto|]. repeat split.
  - injection Hi as <-. destruct (Ack (pr_pkid a) (pubrec_code (pr_reason a)) (is_none (pr_properties a)) (opt_items PubRecProperties_items (pr_properties a))) as (after & H).
    exists FTwo, [], after. split; [auto|]. split; [apply (H 0)|]. split; [reflexivity|]. intros k. apply (H k).
  - injection Hi as <-. destruct (Ack (pl_pkid a) (pubrel_code (pl_reason a)) (is_none (pl_properties a)) (opt_items PubRelProperties_items (pl_properties a))) as (after & H).
    exists FTwo, [], after. split; [auto|]. split; [apply (H 0)|]. split; [reflexivity|]. intros k. apply (H k).
  - injection Hi as <-. destruct (Ack (pc_pkid a) (pubcomp_code (pc_reason a)) (is_none (pc_properties a)) (opt_items PubCompProperties_items (pc_properties a))) as (after & H).
    exists FTwo, [], after. split; [auto|]. split; [apply (H 0)|]. split; [reflexivity|]. intros k. apply (H k).
  - injection Hi as <-. exists FTwo, []. eexists. split; [auto|]. repeat split.
  - injection Hi as <-. exists FTwo, []. eexists. split; [auto|]. repeat split.
Qed.
Lemma encodable_iff p : encodable p <-> blen (fields_bytes (body_fields p)) <= max_varint /\ first_error (body_fields p) = None.
Proof.
  unfold encodable, packet_fields, frame_fields. rewrite !Forall_cons_iff, (first_error_forall (body_fields p)). cbn [field_error].
  destruct (N.leb_spec (blen (fields_bytes (body_fields p))) max_varint); split; intros X; try tauto.
  - destruct X as (_ & X & _). discriminate.
  - lia.
Qed.
Lemma first_error_mid before f g after : field_error g = None ->
  first_error (before ++ f :: after) = None -> first_error (before ++ g :: after) = None.
Proof.
  intros Hg H. apply first_error_forall in H. apply first_error_forall. rewrite Forall_app, Forall_cons_iff in *. tauto.
Qed.
Lemma set_identifier_kind k p : first_byte (set_identifier k p) = first_byte p /\ is_connect (set_identifier k p) = is_connect p
  /\ (forall id, identifier p = Some id -> bad_disconnect p = false /\ bad_disconnect (set_identifier k p) = false
        /\ legacy_connack (set_identifier k p) = false).
Proof. destruct p; repeat split; cbn in *; congruence. Qed.

(** Written with another identifier, a packet with an identifier differs in these two bytes. *)
Theorem C70_identifier_when_written p buf n buf' id k :
  Packet_write p buf = (Ok n, buf') -> identifier p = Some id -> k <> 0 \/ is_publish p = false ->
  exists byte1 lb before after, let frame i := byte1 :: lb ++ before ++ u16be i ++ after in
    buf' = buf ++ frame id
    /\ blen before = before_identifier p
    /\ varint_wire (blen (before ++ u16be id ++ after)) lb
    /\ Packet_write (set_identifier k p) buf = (Ok n, buf ++ frame k).
Proof.
  intros E Hi Hz. destruct (identifier_fields p id Hi) as (F & before & after & HF & Bf & Hb & Hk).
  destruct (set_identifier_kind k p) as (K1 & K2 & K3). destruct (K3 id Hi) as (D & D' & L).
  assert (C : is_connect p = false) by (destruct p; try reflexivity; discriminate).
  destruct (C13_success_means_encoding p buf n buf' E) as (He & -> & ->); [congruence|exact D|].
  pose proof (proj1 (encodable_iff p) He) as [Hl Hf].
  assert (FN : forall i, field_error (F i) = None -> field_bytes (F i) = u16be i).
  { intros i. destruct HF as [->|[-> _]]; [reflexivity|]. cbn [field_error field_bytes]. destruct (i =? 0); [discriminate|reflexivity]. }
  assert (FE : field_error (F k) = None).
  { destruct HF as [->|[-> X]]; [reflexivity|]. cbn [field_error]. destruct Hz as [Hz|]; [|congruence].
    apply N.eqb_neq in Hz. rewrite Hz. reflexivity. }
  assert (FI : field_error (F id) = None).
  { rewrite Bf in Hf. apply first_error_forall, Forall_app in Hf. destruct Hf as [_ Hf]. apply Forall_cons_iff in Hf. apply Hf. }
  assert (S : forall i, field_error (F i) = None -> fields_bytes (before ++ F i :: after) = fields_bytes before ++ u16be i ++ fields_bytes after).
  { intros i Hn. rewrite fields_bytes_app, fields_bytes_cons, (FN i Hn). reflexivity. }
  assert (SL : blen (fields_bytes (body_fields (set_identifier k p))) = blen (fields_bytes (body_fields p))).
  { rewrite Hk, Bf, !S, !blen_app, !blen_u16 by assumption. reflexivity. }
  assert (He' : encodable (set_identifier k p)).
  { apply encodable_iff. rewrite SL. split; [exact Hl|]. rewrite Hk. rewrite Bf in Hf. eapply first_error_mid; eauto. }
  exists (first_byte p), (varint (blen (fields_bytes (body_fields p)))), (fields_bytes before), (fields_bytes after). cbv zeta.
  split. { rewrite encode_split, Bf, S by assumption. reflexivity. }
  split; [exact Hb|]. split.
  { rewrite <- S, <- Bf by assumption. apply varint_is_wire. exact Hl. }
  rewrite C13_write_is_the_encoding; auto; [|rewrite K2, C; discriminate].
  rewrite !encode_split, K1, SL, Hk, S by assumption. f_equal. f_equal. rewrite Bf, S by assumption. cbn [app]. rewrite !blen_cons, !blen_app, !blen_u16. reflexivity.
Qed.

(** Written with other flags, a PUBLISH differs in its first byte. *)
Theorem C70_flags_when_written p buf n buf' dup q retain :
  Packet_write (P_Publish p) buf = (Ok n, buf') -> same_layout (pu_qos p) q ->
  exists tail, buf' = buf ++ publish_byte (pu_dup p) (pu_qos p) (pu_retain p) :: tail
    /\ Packet_write (P_Publish (set_flags dup q retain p)) buf = (Ok n, buf ++ publish_byte dup q retain :: tail).
Proof.
  intros E Hq. destruct (C13_success_means_encoding _ buf n buf' E) as (He & -> & ->); [discriminate|reflexivity|].
  assert (B : body_fields (P_Publish (set_flags dup q retain p)) = body_fields (P_Publish p)).
  { cbn [body_fields set_flags pu_topic pu_qos pu_pkid pu_properties pu_payload]. unfold same_layout in Hq.
    destruct (pu_qos p), q; try reflexivity; exfalso; intuition discriminate. }
  assert (He' : encodable (P_Publish (set_flags dup q retain p))).
  { apply encodable_iff. rewrite B. apply encodable_iff. exact He. }
  exists (varint (blen (fields_bytes (body_fields (P_Publish p)))) ++ fields_bytes (body_fields (P_Publish p))).
  split. { rewrite encode_split. reflexivity. }
  rewrite C13_write_is_the_encoding; auto; [|discriminate].
  rewrite !encode_split, B. cbn [app]. rewrite !blen_cons. reflexivity.
Qed.

(** Written with another payload of the same length, a PUBLISH differs in its last bytes. *)
Theorem C70_payload_when_written p buf n buf' payload :
  Packet_write (P_Publish p) buf = (Ok n, buf') -> blen payload = blen (pu_payload p) ->
  exists head, buf' = buf ++ head ++ pu_payload p
    /\ Packet_write (P_Publish (set_payload payload p)) buf = (Ok n, buf ++ head ++ payload).
Proof.
  intros E Hl. destruct (C13_success_means_encoding _ buf n buf' E) as (He & -> & ->); [discriminate|reflexivity|].
  pose (pre := [FBin (pu_topic p)] ++ (match pu_qos p with AtMostOnce => [] | _ => [FId (pu_pkid p)] end)
      ++ section_fields (opt_items PublishProperties_items (pu_properties p))).
  assert (B : forall x, body_fields (P_Publish (set_payload x p)) = pre ++ [FRaw x]).
  { intros x. unfold pre. rewrite <- !app_assoc. reflexivity. }
  assert (S : forall x, fields_bytes (pre ++ [FRaw x]) = fields_bytes pre ++ x).
  { intros x. rewrite fields_bytes_app, fields_bytes_one. reflexivity. }
  assert (P : set_payload (pu_payload p) p = p) by (destruct p; reflexivity).
  pose proof (B (pu_payload p)) as Bp. rewrite P in Bp.
  assert (SL : blen (fields_bytes (body_fields (P_Publish (set_payload payload p)))) = blen (fields_bytes (body_fields (P_Publish p)))).
  { rewrite B, Bp, !S, !blen_app, Hl. reflexivity. }
  assert (He' : encodable (P_Publish (set_payload payload p))).
  { apply encodable_iff in He. apply encodable_iff. rewrite SL. split; [apply He|]. rewrite B. rewrite Bp in He.
    eapply first_error_mid; [reflexivity|apply He]. }
  exists (first_byte (P_Publish p) :: varint (blen (fields_bytes (body_fields (P_Publish p)))) ++ fields_bytes pre).
  split. { rewrite encode_split, Bp, S. cbn [app]. rewrite <- !app_assoc. reflexivity. }
  rewrite C13_write_is_the_encoding; auto; [|discriminate].
  rewrite !encode_split, SL, B, S. f_equal.
  - f_equal. rewrite Bp, S. cbn [app]. rewrite !blen_cons, !blen_app, Hl. reflexivity.
  - cbn [app]. rewrite <- !app_assoc. reflexivity.
Qed.

(** A PUBLISH with identifier 7 and payload 1 2, behind it a PINGREQ: its identifier, flags and
    payload; and the keep alive of a CONNECT. *)
Example C70_instance ft :
  let p i d r q y := mkPublish d q r [97] i y None in
  Packet_read ft [50; 8; 0; 1; 97; 0; 7; 0; 1; 2; 192; 0] None = (Ok (P_Publish (p 7 false false AtLeastOnce [1; 2])), [192; 0])
  /\ identifier (P_Publish (p 7 false false AtLeastOnce [1; 2])) = Some 7
  /\ before_identifier (P_Publish (p 7 false false AtLeastOnce [1; 2])) = 3
  /\ Packet_read ft [50; 8; 0; 1; 97; 1; 2; 0; 1; 2; 192; 0] None = (Ok (P_Publish (p 258 false false AtLeastOnce [1; 2])), [192; 0])
  /\ Packet_read ft [50; 8; 0; 1; 97; 0; 0; 0; 1; 2; 192; 0] None = (Err PacketIdZero, [192; 0])
  /\ Packet_read ft [61; 8; 0; 1; 97; 0; 7; 0; 1; 2; 192; 0] None = (Ok (P_Publish (p 7 true true ExactlyOnce [1; 2])), [192; 0])
  /\ publish_byte true ExactlyOnce true = 61
  /\ Packet_read ft [50; 8; 0; 1; 97; 0; 7; 0; 8; 9; 192; 0] None = (Ok (P_Publish (p 7 false false AtLeastOnce [8; 9])), [192; 0])
  /\ Packet_write (P_Publish (p 7 false false AtLeastOnce [1; 2])) [192; 0] = (Ok 10, [192; 0; 50; 8; 0; 1; 97; 0; 7; 0; 1; 2])
  /\ Packet_write (P_Publish (p 258 true true ExactlyOnce [8; 9])) [192; 0] = (Ok 10, [192; 0; 61; 8; 0; 1; 97; 1; 2; 0; 8; 9]).
Proof. destruct ft; repeat split; vm_compute; reflexivity. Qed.
Example C70_keep_alive_instance ft :
  Packet_read ft [16; 14; 0; 4; 77; 81; 84; 84; 5; 2; 0; 60; 0; 0; 1; 99] None
  = (Ok (P_Connect (mkConnect 60 [99] true None) None None), []).
Proof. destruct ft; vm_compute; reflexivity. Qed.
