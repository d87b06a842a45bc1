(** What this crate writes, in the eyes of an MQTT 3.1.1 receiver (C73). *)
From Verif Require Import Types Model Spec Wire Sites Faults Content Older PBase PVarint PUtf8 PRead PItems PProps PFrame PWire PTotal
  PWrite PRound PBack TFraming TFaults TWrite TRound TBack TStandard Samples TOlder.

Lemma written_frame p n m : Packet_write p [] = (Ok n, frame3 m) -> good3 m -> bad_disconnect p = false ->
  first3 m = first_byte p /\ body3 m = fields_bytes (body_fields p).
Proof.
  intros E G B. destruct (C13_success_means_encoding p [] n _ E (fun _ => eq_refl) B) as (He & _ & X). cbn [app] in X.
  unfold encode, packet_fields, frame_fields, frame3 in X. unfold fields_bytes in X. cbn [flat_map field_bytes app] in X. fold (fields_bytes (body_fields p)) in X.
  injection X as X1 X2. split; [exact X1|].
  assert (L : blen (fields_bytes (body_fields p)) <= max_varint).
  { unfold encodable, packet_fields, frame_fields in He. apply Forall_inv_tail, Forall_inv in He. cbn [field_error] in He.
    destruct (N.leb_spec (blen (fields_bytes (body_fields p))) max_varint); [assumption|discriminate]. }
  destruct (varint_prefix _ _ _ _ _ _ (varint_is_wire _ (proj1 G)) (varint_is_wire _ L) X2) as (_ & _ & X3). exact X3.
Qed.
Lemma section_min l : 1 <= blen (fields_bytes (section_fields l)).
Proof.
  unfold section_fields, fields_bytes. cbn [flat_map field_bytes]. rewrite blen_app.
  pose proof (varint_len_le (blen (flat_map field_bytes (items_fields l)))). set (x := blen (flat_map field_bytes (items_fields l))) in *.
  assert (varint x <> []) by (unfold varint; destruct (_ <? _); [discriminate|destruct (_ <? _); [discriminate|destruct (_ <? _); discriminate]]).
  destruct (varint x); [congruence|]. rewrite blen_cons. lia.
Qed.
Lemma codes_length {A} (f : A -> N) l : blen (fields_bytes (map (fun r => FByte (f r)) l)) = N.of_nat (length l).
Proof.
  induction l as [|a l IH]; [reflexivity|]. unfold fields_bytes in *. cbn [map flat_map field_bytes]. rewrite blen_app, IH.
  change (blen [f a]) with 1. cbn [length]. lia.
Qed.
Lemma filter_fields_length l : blen (fields_bytes (flat_map filter_fields l))
  = blen (flat_map (fun f => string3 (fst f) ++ [snd f]) (map (fun f => (fi_path f, qos_num (fi_qos f))) l)).
Proof.
  induction l as [|f l IH]; [reflexivity|]. unfold fields_bytes in *. cbn [map flat_map fst snd]. rewrite flat_map_app, !blen_app, IH.
  unfold filter_fields. cbn [flat_map field_bytes]. unfold string3. rewrite app_nil_r, !blen_app. reflexivity.
Qed.
Lemma bin_fields_length l : fields_bytes (map FBin l) = flat_map string3 l.
Proof. induction l as [|f l IH]; [reflexivity|]. unfold fields_bytes in *. cbn [map flat_map field_bytes]. rewrite IH. reflexivity. Qed.
Lemma blen2 n : blen (u16be n) = 2.
Proof. reflexivity. Qed.

(** Bytes written for a packet are a 3.1.1 message of the same meaning only for the common ones. *)
Theorem C73_written_means_the_same_only_for_common ft p n m :
  rust_packet ft p -> Packet_write p [] = (Ok n, frame3 m) -> good3 m -> means3 p m -> common3 m.
Proof.
  intros R E G M.
  destruct m as [clean ka cid w user password|sp code|dup qos retain topic id payload|t id|id filters|id codes|id filters|id| | |];
    cbn [common3]; try exact I; exfalso; destruct p as [c0 w0 l0|ca|pb|a| | |s|sa|a|a|a|u|ua|d]; try contradiction M;
    (destruct (written_frame _ _ _ E G eq_refl) as [_ X]); cbn [body3 body_fields] in X; rewrite ?fields_bytes_app in X.
  - unfold connect_fields in X. rewrite fields_bytes_app in X. unfold string3, fields_bytes in X. cbn in X. discriminate.
  - apply (f_equal blen) in X. rewrite blen_app in X. pose proof (section_min (opt_items ConnAckProperties_items (ck_properties ca))).
    change (blen [flag sp 1; code]) with 2 in X. change (blen (fields_bytes [FByte (bit (ck_session_present ca) 1); FByte (connack_code (ck_code ca))])) with 2 in X. lia.
  - destruct M as (_ & Mq & _ & Mt & Mi & Mp). apply (f_equal blen) in X. rewrite !blen_app in X.
    pose proof (section_min (opt_items PublishProperties_items (pu_properties pb))).
    assert (L1 : blen (fields_bytes [FBin (pu_topic pb)]) = blen (string3 topic)) by (rewrite Mt; unfold fields_bytes, string3; cbn [flat_map field_bytes]; rewrite app_nil_r; reflexivity).
    assert (L2 : blen (fields_bytes [FRaw (pu_payload pb)]) = blen payload) by (rewrite Mp; unfold fields_bytes; cbn [flat_map field_bytes]; rewrite app_nil_r; reflexivity).
    assert (L3 : blen (if qos =? 0 then [] else u16be id) = blen (fields_bytes match pu_qos pb with AtMostOnce => [] | _ => [FId (pu_pkid pb)] end)).
    { destruct G as (_ & _ & _ & _ & Hi). subst qos. destruct (pu_qos pb); cbn [qos_num N.eqb] in *; [reflexivity| |]; unfold fields_bytes; cbn [flat_map field_bytes]; rewrite Mi, app_nil_r;
        (replace (id =? 0) with false by (symmetry; apply N.eqb_neq; destruct Hi; lia)); reflexivity. }
    unfold bytes in *. lia.
  - destruct M as (_ & Mf). apply (f_equal blen) in X. rewrite !blen_app in X. rewrite filter_fields_length, Mf in X. pose proof (section_min (opt_items SubscribeProperties_items (su_properties s))).
    change (blen (fields_bytes [FTwo (su_pkid s)])) with 2 in X. rewrite blen2 in X. lia.
  - destruct M as (_ & Mf). apply (f_equal blen) in X. rewrite !blen_app, codes_length in X. pose proof (section_min (opt_items SubAckProperties_items (sa_properties sa))).
    apply (f_equal (@length _)) in Mf. rewrite !map_length in Mf. rewrite Mf in X. change (blen (fields_bytes [FTwo (sa_pkid sa)])) with 2 in X. rewrite blen2 in X. unfold blen in X, H. lia.
  - destruct M as (_ & Mf). apply (f_equal blen) in X. rewrite !blen_app, bin_fields_length, Mf in X. pose proof (section_min (opt_items UnsubscribeProperties_items (un_properties u))).
    change (blen (fields_bytes [FTwo (un_pkid u)])) with 2 in X. rewrite blen2 in X. lia.
  - apply (f_equal blen) in X. rewrite !blen_app in X. pose proof (section_min (opt_items UnsubAckProperties_items (ua_properties ua))).
    change (blen (fields_bytes [FTwo (ua_pkid ua)])) with 2 in X. rewrite blen2 in X. lia.
Qed.

(** Bytes no older receiver can take for anything. *)
Definition foreign (p : Packet) : Prop :=
  match p with
  | P_Connect _ _ _ | P_ConnAck _ | P_UnsubAck _ => True
  | P_PubAck a => pa_reason a <> PAR_Success \/ pa_properties a <> None
  | P_PubRec a => pr_reason a <> PRR_Success \/ pr_properties a <> None
  | P_PubRel a => pl_reason a <> PLR_Success \/ pl_properties a <> None
  | P_PubComp a => pc_reason a <> PCR_Success \/ pc_properties a <> None
  | P_Disconnect d => (di_reason_code d <> DRC_NormalDisconnection /\ di_properties d = None)
                      \/ opt_items DisconnectProperties_items (di_properties d) <> []
  | P_Subscribe s => su_properties s = None /\ exists f l, su_filters s = f :: l /\ blen (fi_path f) < 256
  | P_Unsubscribe u => un_properties u = None /\ exists f l, un_filters u = f :: l /\ blen f < 256
  | P_PingReq | P_PingResp | P_Publish _ | P_SubAck _ => False
  end.

Lemma ack_foreign code none items pkid id : (code =? 0) && none = false ->
  u16be id = fields_bytes (ack_fields pkid code none items) -> False.
Proof.
  intros H X. unfold ack_fields in X. rewrite H in X. apply (f_equal blen) in X. rewrite fields_bytes_app, blen_app in X.
  pose proof (section_min items). rewrite blen2 in X. change (blen (fields_bytes [FTwo pkid; FByte code])) with 3 in X. lia.
Qed.
Lemma first_acks m : first3 m = 64 \/ first3 m = 80 \/ first3 m = 98 \/ first3 m = 112 -> good3 m -> exists t id, m = M3_Ack t id.
Proof.
  intros H [_ G]. destruct m as [| |dup qos retain t i p|t id|?|?|?|?| | |]; cbn [first3] in H; try lia; [|eauto].
  destruct G as (Q & _). pose proof (flag_le dup 8). pose proof (flag_le retain 1). lia.
Qed.
Theorem C73_foreign_to_older_receivers p n out m :
  Packet_write p [] = (Ok n, out) -> foreign p -> good3 m -> out <> frame3 m.
Proof.
  intros E F G ->. assert (K : bad_disconnect p = true \/ bad_disconnect p = false) by (destruct (bad_disconnect p); auto). destruct K as [B|B].
  { apply bad_disconnect_cases in B. destruct B as (d & -> & Hr & Hc). cbn [foreign] in F.
    assert (Hp : di_properties d = None).
    { destruct Hc as [Hp|(q & Hq & Hi)]; [exact Hp|]. exfalso. rewrite Hq in F. destruct F as [[_ F]|F]; [discriminate|]. apply F. exact Hi. }
    rewrite bad_disconnect_none in E by assumption. apply (f_equal snd) in E. cbn [snd app] in E. unfold frame3 in E. injection E as E1 E2.
    destruct G as [_ G]. destruct m as [| |dup qos retain t i q|[]|?|?|?|?| | |]; cbn [first3] in E1; try discriminate E1.
    - destruct G as (Q & _). pose proof (flag_le dup 8). pose proof (flag_le retain 1). lia.
    - cbn in E2. discriminate. }
  destruct (written_frame _ _ _ E G B) as [X1 X2].
  assert (U : forall k, first3 m = k -> k < 48 \/ 63 < k -> match m with M3_Publish _ _ _ _ _ _ => False | _ => True end).
  { intros k Hk Hr. destruct m as [| |dup qos retain t i q|t ?|?|?|?|?| | |]; try exact I. cbn [first3] in Hk. destruct G as (_ & Q & _). pose proof (flag_le dup 8). pose proof (flag_le retain 1). lia. }
  destruct p as [c w l|ca|pb|a| | |s|sa|a|a|a|u|ua|d]; try contradiction F; cbn [first_byte body_fields foreign] in *.
  - specialize (U 16 X1 ltac:(lia)). destruct m as [| |?|[]|?|?|?|?| | |]; try contradiction U; try discriminate X1.
    cbn [body3] in X2. unfold connect_fields in X2. rewrite fields_bytes_app in X2. unfold string3, fields_bytes in X2. cbn in X2. discriminate.
  - specialize (U 32 X1 ltac:(lia)). destruct m as [|sp code|?|[]|?|?|?|?| | |]; try contradiction U; try discriminate X1.
    cbn [body3] in X2. apply (f_equal blen) in X2. rewrite fields_bytes_app, blen_app in X2. pose proof (section_min (opt_items ConnAckProperties_items (ck_properties ca))).
    change (blen [flag sp 1; code]) with 2 in X2. change (blen (fields_bytes [FByte (bit (ck_session_present ca) 1); FByte (connack_code (ck_code ca))])) with 2 in X2. lia.
  - destruct (first_acks m ltac:(auto) G) as (t & id & ->). eapply ack_foreign; [|exact X2].
    destruct (pa_properties a); [apply andb_false_r|]. destruct F as [F|F]; [|congruence]. destruct (pa_reason a); try reflexivity. congruence.
  - specialize (U 130 X1 ltac:(lia)). destruct m as [| |?|[]|id fs|?|?|?| | |]; try contradiction U; try discriminate X1.
    destruct F as (Fp & f & l & Fl & Fs). rewrite Fp, Fl in X2. cbn [body3] in X2. destruct G as (_ & _ & Hne & G). destruct fs as [|[t q] fs]; [congruence|].
    apply Forall_inv in G. destruct G as ((_ & Gt) & _). cbn [fst] in Gt. cbn [flat_map fst snd] in X2. unfold string3, u16be in X2. unfold fields_bytes, filter_fields in X2.
    cbn [flat_map field_bytes app opt_items section_fields items_fields u16be] in X2. change (varint (blen (fields_bytes []))) with [0] in X2.
    cbn [app] in X2. rewrite (N.div_small _ _ Fs) in X2. injection X2 as _ _ X3 X4 _.
    assert (Z : blen t = 0) by (rewrite (N.div_mod (blen t) 256) by discriminate; unfold bytes in *; rewrite X3, X4; reflexivity).
    destruct t; [congruence|]. rewrite blen_cons in Z. lia.
  - destruct (first_acks m ltac:(auto) G) as (t & id & ->). eapply ack_foreign; [|exact X2].
    destruct (pr_properties a); [apply andb_false_r|]. destruct F as [F|F]; [|congruence]. destruct (pr_reason a); try reflexivity. congruence.
  - destruct (first_acks m ltac:(auto) G) as (t & id & ->). eapply ack_foreign; [|exact X2].
    destruct (pl_properties a); [apply andb_false_r|]. destruct F as [F|F]; [|congruence]. destruct (pl_reason a); try reflexivity. congruence.
  - destruct (first_acks m ltac:(auto) G) as (t & id & ->). eapply ack_foreign; [|exact X2].
    destruct (pc_properties a); [apply andb_false_r|]. destruct F as [F|F]; [|congruence]. destruct (pc_reason a); try reflexivity. congruence.
  - specialize (U 162 X1 ltac:(lia)). destruct m as [| |?|[]|?|?|id fs|?| | |]; try contradiction U; try discriminate X1.
    destruct F as (Fp & f & l & Fl & Fs). rewrite Fp, Fl in X2. cbn [body3] in X2. destruct G as (_ & _ & Hne & G). destruct fs as [|t fs]; [congruence|].
    apply Forall_inv in G. destruct G as (_ & Gt). cbn [flat_map] in X2. unfold string3, u16be in X2. unfold fields_bytes in X2.
    cbn [map flat_map field_bytes app opt_items section_fields items_fields u16be] in X2. change (varint (blen (fields_bytes []))) with [0] in X2.
    cbn [app] in X2. rewrite (N.div_small _ _ Fs) in X2. injection X2 as _ _ X3 X4 _.
    assert (Z : blen t = 0) by (rewrite (N.div_mod (blen t) 256) by discriminate; unfold bytes in *; rewrite X3, X4; reflexivity).
    destruct t; [congruence|]. rewrite blen_cons in Z. lia.
  - specialize (U 176 X1 ltac:(lia)). destruct m as [| |?|[]|?|?|?|id| | |]; try contradiction U; try discriminate X1.
    cbn [body3] in X2. apply (f_equal blen) in X2. rewrite !fields_bytes_app, !blen_app in X2. pose proof (section_min (opt_items UnsubAckProperties_items (ua_properties ua))).
    rewrite blen2 in X2. change (blen (fields_bytes [FTwo (ua_pkid ua)])) with 2 in X2. lia.
  - specialize (U 224 X1 ltac:(lia)). destruct m as [| |?|[]|?|?|?|?| | |]; try contradiction U; try discriminate X1.
    cbn [body3] in X2. cbn [bad_disconnect] in B. destruct F as [[F1 F2]|F].
    + rewrite F2 in B. cbn [opt_items nonempty negb] in B. rewrite andb_true_r in B. destruct (di_reason_code d); try discriminate B. congruence.
    + destruct (opt_items DisconnectProperties_items (di_properties d)) as [|i l]; [congruence|]. cbn [nonempty negb] in X2. rewrite andb_false_r in X2.
      unfold fields_bytes in X2. cbn in X2. discriminate.
Qed.

(** What this crate writes for a PUBLISH is taken for another PUBLISH: the property section becomes
    the beginning of the payload, a single zero byte if there are no properties. *)
Lemma fields_one f : fields_bytes [f] = field_bytes f.
Proof. unfold fields_bytes. cbn [flat_map]. apply app_nil_r. Qed.
Lemma written_body p n out : Packet_write p [] = (Ok n, out) -> bad_disconnect p = false ->
  out = first_byte p :: varint (blen (fields_bytes (body_fields p))) ++ fields_bytes (body_fields p)
  /\ blen (fields_bytes (body_fields p)) <= max_varint /\ Forall (fun f => field_error f = None) (body_fields p).
Proof.
  intros E B. destruct (C13_success_means_encoding p [] n _ E (fun _ => eq_refl) B) as (He & _ & X). cbn [app] in X. subst out.
  unfold encodable, packet_fields, frame_fields in He. apply Forall_inv_tail in He. pose proof (Forall_inv He) as H1. apply Forall_inv_tail in He. cbn [field_error] in H1.
  split; [reflexivity|]. split; [|exact He]. destruct (N.leb_spec (blen (fields_bytes (body_fields p))) max_varint); [assumption|discriminate].
Qed.
Theorem C73_written_publish_changes_its_payload p n out :
  rust_packet F_default (P_Publish p) -> Packet_write (P_Publish p) [] = (Ok n, out) ->
  exists section,
    section <> [] /\ (pu_properties p = None -> section = [0])
    /\ let m := M3_Publish (pu_dup p) (qos_num (pu_qos p)) (pu_retain p) (pu_topic p)
                  (match pu_qos p with AtMostOnce => 0 | _ => pu_pkid p end) (section ++ pu_payload p) in
       good3 m /\ out = frame3 m.
Proof.
  intros R E. destruct (written_body _ _ _ E eq_refl) as (-> & L & He). pose proof (body_bytes_ok _ _ R He) as Hok.
  destruct R as ((T1 & T2) & I & P & Hi). set (sec := fields_bytes (section_fields (opt_items PublishProperties_items (pu_properties p)))).
  exists sec. split; [|split].
  - pose proof (section_min (opt_items PublishProperties_items (pu_properties p))) as S. intros Z. unfold sec in Z. rewrite Z in S. unfold blen in S. cbn in S. lia.
  - unfold sec. intros ->. reflexivity.
  - cbv zeta. cbn [body_fields] in He. pose proof (Forall_inv He) as Ht. apply Forall_inv_tail in He. apply Forall_app in He. destruct He as (Hid & _).
    assert (D : qos_num (pu_qos p) <= 2 /\ (if qos_num (pu_qos p) =? 0 then (match pu_qos p with AtMostOnce => 0 | _ => pu_pkid p end) = 0 else good_id3 (match pu_qos p with AtMostOnce => 0 | _ => pu_pkid p end))
      /\ (if qos_num (pu_qos p) =? 0 then [] else u16be (match pu_qos p with AtMostOnce => 0 | _ => pu_pkid p end)) = fields_bytes (match pu_qos p with AtMostOnce => [] | _ => [FId (pu_pkid p)] end)).
    { destruct (pu_qos p); cbn [qos_num N.eqb] in *; [split; [lia|split; reflexivity]| |]; apply Forall_inv in Hid; cbn [field_error] in Hid; rewrite fields_one; cbn [field_bytes];
        (destruct (N.eqb_spec (pu_pkid p) 0); [discriminate|]); (split; [lia|]); (split; [split; [lia|exact I]|reflexivity]). }
    destruct D as (D1 & D2 & D3).
    assert (EB : body3 (M3_Publish (pu_dup p) (qos_num (pu_qos p)) (pu_retain p) (pu_topic p) (match pu_qos p with AtMostOnce => 0 | _ => pu_pkid p end) (sec ++ pu_payload p))
                 = fields_bytes (body_fields (P_Publish p))).
    { cbn [body3 body_fields]. rewrite !fields_bytes_app, !fields_one, D3. cbn [field_bytes]. reflexivity. }
    cbn [body_fields] in Hok. rewrite !fields_bytes_app in Hok. unfold bytes_ok in Hok. rewrite !Forall_app, !fields_one in Hok. destruct Hok as (_ & _ & Hs & Hp).
    split.
    + split; [rewrite EB; exact L|]. split; [exact D1|]. split.
      * split; [exact T1|]. split; [exact T2|]. cbn [field_error] in Ht. destruct (N.leb_spec (blen (pu_topic p)) 65535); [assumption|discriminate].
      * split; [apply Forall_app; split; [exact Hs|exact Hp]|exact D2].
    + unfold frame3. rewrite EB. reflexivity.
Qed.
(** A SUBACK gains a code: the first subscription is granted QoS 0. *)
Theorem C73_written_suback_gains_a_code a n out :
  rust_packet F_default (P_SubAck a) -> Packet_write (P_SubAck a) [] = (Ok n, out) ->
  sa_properties a = None -> 0 < sa_pkid a -> Forall (fun c => suback_code c <= 2 \/ suback_code c = 128) (sa_return_codes a) ->
  let m := M3_SubAck (sa_pkid a) (0 :: map suback_code (sa_return_codes a)) in
  good3 m /\ out = frame3 m.
Proof.
  intros (I & _) E N0 K F. destruct (written_body _ _ _ E eq_refl) as (-> & L & He). cbv zeta.
  assert (EB : body3 (M3_SubAck (sa_pkid a) (0 :: map suback_code (sa_return_codes a))) = fields_bytes (body_fields (P_SubAck a))).
  { cbn [body3 body_fields]. rewrite N0. rewrite !fields_bytes_app, fields_one. cbn [field_bytes opt_items]. f_equal.
    change (fields_bytes (section_fields [])) with [0]. cbn [app]. f_equal. unfold fields_bytes. induction (sa_return_codes a) as [|c l IH]; [reflexivity|].
    cbn [map flat_map field_bytes app]. f_equal. apply IH. apply Forall_inv_tail in F. exact F. }
  split.
  - split; [rewrite EB; exact L|]. split; [split; assumption|]. split; [discriminate|]. constructor; [left; lia|]. apply Forall_map. exact F.
  - unfold frame3. rewrite EB. reflexivity.
Qed.

(** ** Instances *)

Example C73_sent_instances :
  (let p := mkPublish true AtLeastOnce false [97; 47; 98] 10 [7; 8] (Some (mkPublishProperties (Some 1) None None None None [] [] None)) in
   rust_packet F_default (P_Publish p) /\ Packet_write (P_Publish p) [] = (Ok 14, [58; 12; 0; 3; 97; 47; 98; 0; 10; 2; 1; 1; 7; 8])
   /\ frame3 (M3_Publish true 1 false [97; 47; 98] 10 [2; 1; 1; 7; 8]) = [58; 12; 0; 3; 97; 47; 98; 0; 10; 2; 1; 1; 7; 8])
  /\ (let a := mkSubAck 10 [SRC_Success ExactlyOnce; SRC_Unspecified] None in
      rust_packet F_default (P_SubAck a) /\ Packet_write (P_SubAck a) [] = (Ok 7, [144; 5; 0; 10; 0; 2; 128])
      /\ frame3 (M3_SubAck 10 [0; 2; 128]) = [144; 5; 0; 10; 0; 2; 128])
  /\ (let p := P_PubRel (mkPubRel 300 PLR_PacketIdentifierNotFound None) in
      foreign p /\ Packet_write p [] = (Ok 6, [98; 4; 1; 44; 146; 0]))
  /\ (let p := P_Disconnect (mkDisconnect DRC_ServerBusy None) in
      foreign p /\ Packet_write p [] = (Ok 3, [224; 1; 137; 0]))
  /\ (let p := P_Subscribe (mkSubscribe 10 [mkFilter [97] AtLeastOnce false false OnEverySubscribe] None) in
      foreign p /\ Packet_write p [] = (Ok 9, [130; 7; 0; 10; 0; 0; 1; 97; 1])).
Proof.
  assert (T : text F_default [97; 47; 98]) by (split; [repeat constructor|exists [97; 47; 98]; split; [repeat constructor; left; reflexivity|reflexivity]]).
  split; [|split; [|split; [|split]]]; cbv zeta.
  - split; [|split; reflexivity]. split; [exact T|]. split; [reflexivity|]. split; repeat constructor.
  - split; [|split; reflexivity]. split; [reflexivity|constructor].
  - split; [left; discriminate|reflexivity].
  - split; [left; split; [discriminate|reflexivity]|reflexivity].
  - split; [split; [reflexivity|eexists; eexists; split; reflexivity]|reflexivity].
Qed.
(** MQTT 3.1 (which calls itself MQIsdp, level 3), a bridge (level 132), and a PUBACK, PINGREQ and
    DISCONNECT that meet the hypotheses of the theorems on common messages in both directions. *)
Example C73_more_instances ft :
  (good_string3 [77; 81; 73; 115; 100; 112] /\ [77; 81; 73; 115; 100; 112] <> mqtt
   /\ Packet_read ft [16; 9; 0; 6; 77; 81; 73; 115; 100; 112; 3; 192; 255] None = (Err InvalidProtocol, [192; 255]))
  /\ (good_string3 mqtt
      /\ Packet_read ft [16; 9; 0; 4; 77; 81; 84; 84; 132; 2; 0; 192; 0] None = (Err (InvalidProtocolLevel 132), [192; 0]))
  /\ Forall (fun '(m, p) => common3 m /\ good3 m /\ rust_packet ft p /\ means3 p m
       /\ Packet_read ft (frame3 m ++ [32]) (Some 2) = (Ok p, [32])
       /\ Packet_write p [] = (Ok (blen (frame3 m)), frame3 m))
     [(M3_Ack A3_PubAck 258, P_PubAck (mkPubAck 258 PAR_Success None)); (M3_PingReq, P_PingReq);
      (M3_Disconnect, P_Disconnect (mkDisconnect DRC_NormalDisconnection None))].
Proof.
  assert (A : forall s, Forall (fun x => x < 128) s -> blen s <= 65535 -> good_string3 s).
  { intros s H L. split; [eapply Forall_impl; [|exact H]; cbn beta; lia|]. split; [|exact L]. exists s. split.
    - eapply Forall_impl; [|exact H]. cbn beta. intros x Hx. left. lia.
    - clear L. induction H as [|x l Hx _ IH]; [reflexivity|]. cbn [flat_map]. rewrite <- IH. unfold utf8_encode. apply N.ltb_lt in Hx. rewrite Hx. reflexivity. }
  split; [|split].
  - split; [apply A; [repeat constructor|vm_compute; discriminate]|]. split; [discriminate|destruct ft; reflexivity].
  - split; [apply A; [repeat constructor|vm_compute; discriminate]|destruct ft; reflexivity].
  - constructor; [|constructor; [|constructor; [|constructor]]].
    + split; [exact I|]. split; [split; [vm_compute; discriminate|split; reflexivity]|]. split; [split; [reflexivity|constructor]|]. split; [split; reflexivity|].
      split; [destruct ft; reflexivity|reflexivity].
    + split; [exact I|]. split; [split; [vm_compute; discriminate|exact I]|]. split; [exact I|]. split; [exact I|]. split; [destruct ft; reflexivity|reflexivity].
    + split; [exact I|]. split; [split; [vm_compute; discriminate|exact I]|]. split; [constructor|]. split; [reflexivity|]. split; [destruct ft; reflexivity|reflexivity].
Qed.
