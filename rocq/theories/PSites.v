(** Reading a body up to and beyond a property section. *)
From Verif Require Import Types Model Spec Wire Sites PBase PVarint PUtf8 PRead PItems PProps PFrame PWire.
Ltac Zify.zify_post_hook ::= Z.div_mod_to_equations.

(** ---------- Items by identifier ---------- *)

Lemma with_id_app id a b : with_id id (a ++ b) = with_id id a ++ with_id id b.
Proof. apply filter_app. Qed.
Lemma last_only_snoc {A} (l : list A) x : last_only (l ++ [x]) = [x].
Proof. unfold last_only. rewrite rev_app_distr. reflexivity. Qed.
Lemma with_id_snoc id l i : with_id id (l ++ [i]) = with_id id l ++ if fst i =? id then [i] else [].
Proof. rewrite with_id_app. unfold with_id at 2. cbn [filter]. destruct (fst i =? id); reflexivity. Qed.
Lemma last_only_one {A} (x : list A) : (length x <= 1)%nat -> last_only x = x.
Proof. destruct x as [|a [|b x]]; cbn; [reflexivity|reflexivity|lia]. Qed.

Lemma with_num id k K o : with_id id (num k K o) = if k =? id then num k K o else [].
Proof. destruct o; cbn [num with_id filter fst]; destruct (k =? id); reflexivity. Qed.
Lemma with_str id k K o : with_id id (str k K o) = if k =? id then str k K o else [].
Proof. destruct o; cbn [str with_id filter fst]; destruct (k =? id); reflexivity. Qed.
Lemma with_users id l : with_id id (users l) = if 38 =? id then users l else [].
Proof.
  unfold users, with_id. induction l as [|[k v] l IH]; cbn [map filter fst]; [destruct (38 =? id); reflexivity|].
  destruct (38 =? id); [f_equal; exact IH|exact IH].
Qed.
Lemma with_sub_ids id l : with_id id (sub_ids l) = if 11 =? id then sub_ids l else [].
Proof.
  unfold sub_ids, with_id. induction l as [|n l IH]; cbn [map filter fst]; [destruct (11 =? id); reflexivity|].
  destruct (11 =? id); [f_equal; exact IH|exact IH].
Qed.

Lemma last_of_snoc' {A} (get : pvalue -> option A) id l i :
  last_of get id (l ++ [i]) = if fst i =? id then get (snd i) else last_of get id l.
Proof. destruct i. apply last_of_snoc. Qed.

(** Items of the right kind for the constructor. *)
Definition made_by {A} (id : N) (K : A -> pvalue) (l : list item) : Prop :=
  Forall (fun i => fst i = id -> exists n, snd i = K n) l.
Lemma num_last id K l : (forall n, num_value (K n) = Some n) -> made_by id K l ->
  num id K (last_num id l) = last_only (with_id id l).
Proof.
  intros HK. unfold last_num. induction l as [|i l IH] using rev_ind; intros H; [reflexivity|].
  rewrite last_of_snoc', with_id_snoc. unfold made_by in H. rewrite Forall_app in H. destruct H as [H1 H2]. inversion H2; subst.
  destruct (N.eqb_spec (fst i) id) as [E|E].
  - rewrite last_only_snoc. destruct (H3 E) as [n Hn]. destruct i as [a v]; cbn [fst snd] in *. subst. rewrite HK. reflexivity.
  - rewrite app_nil_r. apply IH. exact H1.
Qed.
Lemma str_last id K l : (forall n, str_value (K n) = Some n) -> made_by id K l ->
  str id K (last_str id l) = last_only (with_id id l).
Proof.
  intros HK. unfold last_str. induction l as [|i l IH] using rev_ind; intros H; [reflexivity|].
  rewrite last_of_snoc', with_id_snoc. unfold made_by in H. rewrite Forall_app in H. destruct H as [H1 H2]. inversion H2; subst.
  destruct (N.eqb_spec (fst i) id) as [E|E].
  - rewrite last_only_snoc. destruct (H3 E) as [n Hn]. destruct i as [a v]; cbn [fst snd] in *. subst. rewrite HK. reflexivity.
  - rewrite app_nil_r. apply IH. exact H1.
Qed.
Lemma users_all l : made_by 38 (fun p => VPair (fst p) (snd p)) l -> users (user_pairs l) = with_id 38 l.
Proof.
  intros H. induction H as [|[id v] l Hi _ IH]; [reflexivity|]. unfold user_pairs, with_id. cbn [flat_map filter fst snd].
  fold (user_pairs l). fold (with_id 38 l). destruct (N.eqb_spec id 38) as [E|E]; [|exact IH].
  destruct (Hi E) as [[k w] Hv]. cbn [fst snd] in *. subst. cbn [app users map]. f_equal. exact IH.
Qed.
Lemma ids_all l : made_by 11 VVar l -> sub_ids (all_ids l) = with_id 11 l.
Proof.
  intros H. induction H as [|[id v] l Hi _ IH]; [reflexivity|]. unfold all_ids, with_id. cbn [flat_map filter fst snd].
  fold (all_ids l). fold (with_id 11 l). destruct (N.eqb_spec id 11) as [E|E]; [|exact IH].
  destruct (Hi E) as [n Hv]. cbn [fst snd] in *. subst. cbn [app sub_ids map]. f_equal. exact IH.
Qed.
Lemma with_id_none allowed id l : Forall (wk allowed) l -> ~ In id allowed -> with_id id l = [].
Proof.
  intros H Hn. induction H as [|i l Hi _ IH]; [reflexivity|]. unfold with_id. cbn [filter].
  destruct (N.eqb_spec (fst i) id) as [E|E]; [|exact IH]. destruct Hi as [Hi _]. rewrite E in Hi. contradiction.
Qed.

(** Order does not matter to what is extracted. *)
Lemma last_of_with {A} (get : pvalue -> option A) id l : last_of get id l = last_of get id (with_id id l).
Proof.
  induction l as [|i l IH] using rev_ind; [reflexivity|]. rewrite last_of_snoc', with_id_snoc.
  destruct (fst i =? id) eqn:E; [rewrite last_of_snoc', E; reflexivity|rewrite app_nil_r; exact IH].
Qed.
Lemma user_pairs_with l : user_pairs l = user_pairs (with_id 38 l).
Proof.
  unfold user_pairs, with_id. induction l as [|i l IH]; [reflexivity|]. cbn [filter flat_map].
  destruct (fst i =? 38) eqn:E; [cbn [flat_map]; rewrite E, IH; reflexivity|exact IH].
Qed.
Lemma all_ids_with l : all_ids l = all_ids (with_id 11 l).
Proof.
  unfold all_ids, with_id. induction l as [|i l IH]; [reflexivity|]. cbn [filter flat_map].
  destruct (fst i =? 11) eqn:E; [cbn [flat_map]; rewrite E, IH; reflexivity|exact IH].
Qed.
Section Same.
Variables l1 l2 : list item.
Hypothesis H : same_up_to_order l1 l2.
Lemma same_num id : last_num id l1 = last_num id l2.
Proof. unfold last_num. rewrite (last_of_with _ id l1), (last_of_with _ id l2), H. reflexivity. Qed.
Lemma same_str id : last_str id l1 = last_str id l2.
Proof. unfold last_str. rewrite (last_of_with _ id l1), (last_of_with _ id l2), H. reflexivity. Qed.
Lemma same_users : user_pairs l1 = user_pairs l2.
Proof. rewrite (user_pairs_with l1), (user_pairs_with l2), H. reflexivity. Qed.
Lemma same_ids : all_ids l1 = all_ids l2.
Proof. rewrite (all_ids_with l1), (all_ids_with l2), H. reflexivity. Qed.
End Same.

Ltac same_tac := intros H; cbv beta delta [ConnectProperties_of LastWillProperties_of ConnAckProperties_of PublishProperties_of
  PubAckProperties_of PubRecProperties_of PubRelProperties_of PubCompProperties_of SubAckProperties_of UnsubAckProperties_of
  SubscribeProperties_of UnsubscribeProperties_of DisconnectProperties_of];
  rewrite ?(same_num _ _ H), ?(same_str _ _ H), ?(same_users _ _ H), ?(same_ids _ _ H); reflexivity.
Definition respects {A} (of : list item -> A) : Prop := forall l1 l2, same_up_to_order l1 l2 -> of l1 = of l2.
Lemma Connect_respects : respects ConnectProperties_of. Proof. intros l1 l2. same_tac. Qed.
Lemma LastWill_respects : respects LastWillProperties_of. Proof. intros l1 l2. same_tac. Qed.
Lemma ConnAck_respects : respects ConnAckProperties_of. Proof. intros l1 l2. same_tac. Qed.
Lemma Publish_respects : respects PublishProperties_of. Proof. intros l1 l2. same_tac. Qed.
Lemma PubAck_respects : respects PubAckProperties_of. Proof. intros l1 l2. same_tac. Qed.
Lemma PubRec_respects : respects PubRecProperties_of. Proof. intros l1 l2. same_tac. Qed.
Lemma PubRel_respects : respects PubRelProperties_of. Proof. intros l1 l2. same_tac. Qed.
Lemma PubComp_respects : respects PubCompProperties_of. Proof. intros l1 l2. same_tac. Qed.
Lemma SubAck_respects : respects SubAckProperties_of. Proof. intros l1 l2. same_tac. Qed.
Lemma UnsubAck_respects : respects UnsubAckProperties_of. Proof. intros l1 l2. same_tac. Qed.
Lemma Subscribe_respects : respects SubscribeProperties_of. Proof. intros l1 l2. same_tac. Qed.
Lemma Unsubscribe_respects : respects UnsubscribeProperties_of. Proof. intros l1 l2. same_tac. Qed.
Lemma Disconnect_respects : respects DisconnectProperties_of. Proof. intros l1 l2. same_tac. Qed.

(** What a structure reports of each identifier. *)
Definition reports {A} (allowed : list N) (of : list item -> A) (items : A -> list item) (ids : bool) : Prop :=
  forall l id, Forall (wk allowed) l ->
  with_id id (items (of l)) = if (id =? 38) || (ids && (id =? 11)) then with_id id l else last_only (with_id id l).

Lemma made {A} allowed id (K : A -> pvalue) k l : Forall (wk allowed) l -> property_kind id = Some k ->
  (forall v, value_kind v = k -> exists n, v = K n) -> made_by id K l.
Proof.
  intros H Hk HK. eapply Forall_impl; [|exact H]. intros [i v] [_ W] E. cbn [fst snd] in *. subst.
  apply HK. congruence.
Qed.
Ltac made_tac := eapply made; [eassumption|reflexivity|]; let v := fresh in let Hv := fresh in intros v Hv;
  destruct v; try discriminate; try (eexists; reflexivity);
  match goal with |- exists n, VPair ?k ?v = _ => exists (k, v); reflexivity end.
Ltac reports_tac wk_items :=
  let l := fresh "l" in let id := fresh "id" in let H := fresh "H" in let Hin := fresh "Hin" in
  intros l id H;
  match goal with |- with_id id (?items (?of l)) = _ =>
    match type of H with Forall (wk ?al) l =>
      destruct (in_dec N.eq_dec id al) as [Hin|Hin];
      [|rewrite (with_id_none al id l H Hin), (with_id_none al id (items (of l)) (wk_items _) Hin);
        match goal with |- [] = if ?c then _ else _ => destruct c; reflexivity end] end end;
  cbv beta delta [ConnectProperties_of LastWillProperties_of ConnAckProperties_of PublishProperties_of
    PubAckProperties_of PubRecProperties_of PubRelProperties_of PubCompProperties_of SubAckProperties_of UnsubAckProperties_of
    SubscribeProperties_of UnsubscribeProperties_of DisconnectProperties_of
    ConnectProperties_items LastWillProperties_items ConnAckProperties_items PublishProperties_items
    PubAckProperties_items PubRecProperties_items PubRelProperties_items PubCompProperties_items SubAckProperties_items
    UnsubAckProperties_items SubscribeProperties_items UnsubscribeProperties_items DisconnectProperties_items ack_items];
  cbv beta iota delta [cp_session_expiry_interval cp_receive_maximum cp_max_packet_size cp_topic_alias_max cp_request_response_info
    cp_request_problem_info cp_user_properties cp_authentication_method cp_authentication_data
    wp_delay_interval wp_payload_format_indicator wp_message_expiry_interval wp_content_type wp_response_topic
    wp_correlation_data wp_user_properties
    ca_session_expiry_interval ca_receive_max ca_max_qos ca_retain_available ca_max_packet_size ca_assigned_client_identifier
    ca_topic_alias_max ca_reason_string ca_user_properties ca_wildcard_subscription_available
    ca_subscription_identifiers_available ca_shared_subscription_available ca_server_keep_alive ca_response_information
    ca_server_reference ca_authentication_method ca_authentication_data
    pp_payload_format_indicator pp_message_expiry_interval pp_topic_alias pp_response_topic pp_correlation_data
    pp_user_properties pp_subscription_identifiers pp_content_type
    pap_reason_string pap_user_properties prp_reason_string prp_user_properties plp_reason_string plp_user_properties
    pcp_reason_string pcp_user_properties sap_reason_string sap_user_properties uap_reason_string uap_user_properties
    sp_id sp_user_properties usp_user_properties dp_session_expiry_interval dp_reason_string dp_user_properties dp_server_reference];
  repeat (destruct Hin as [<- |Hin]; [
    rewrite ?with_id_app, ?with_num, ?with_str, ?with_users, ?with_sub_ids;
    cbn [N.eqb Pos.eqb app orb andb]; rewrite ?app_nil_r;
    first [apply num_last; [reflexivity|made_tac] | apply str_last; [reflexivity|made_tac]
          | apply users_all; made_tac | apply ids_all; made_tac] |]);
  destruct Hin.
Lemma Connect_reports : reports connect_allowed ConnectProperties_of ConnectProperties_items false.
Proof. reports_tac ConnectProperties_items_wk. Qed.
Lemma LastWill_reports : reports will_allowed LastWillProperties_of LastWillProperties_items false.
Proof. reports_tac LastWillProperties_items_wk. Qed.
Lemma ConnAck_reports : reports connack_allowed ConnAckProperties_of ConnAckProperties_items false.
Proof. reports_tac ConnAckProperties_items_wk. Qed.
Lemma Publish_reports : reports publish_allowed PublishProperties_of PublishProperties_items true.
Proof. reports_tac PublishProperties_items_wk. Qed.
Lemma PubAck_reports : reports ack_allowed PubAckProperties_of PubAckProperties_items false.
Proof. reports_tac PubAckProperties_items_wk. Qed.
Lemma PubRec_reports : reports ack_allowed PubRecProperties_of PubRecProperties_items false.
Proof. reports_tac PubRecProperties_items_wk. Qed.
Lemma PubRel_reports : reports ack_allowed PubRelProperties_of PubRelProperties_items false.
Proof. reports_tac PubRelProperties_items_wk. Qed.
Lemma PubComp_reports : reports ack_allowed PubCompProperties_of PubCompProperties_items false.
Proof. reports_tac PubCompProperties_items_wk. Qed.
Lemma SubAck_reports : reports ack_allowed SubAckProperties_of SubAckProperties_items false.
Proof. reports_tac SubAckProperties_items_wk. Qed.
Lemma UnsubAck_reports : reports ack_allowed UnsubAckProperties_of UnsubAckProperties_items false.
Proof. reports_tac UnsubAckProperties_items_wk. Qed.
Lemma Subscribe_reports : reports subscribe_allowed SubscribeProperties_of SubscribeProperties_items false.
Proof. reports_tac SubscribeProperties_items_wk. Qed.
Lemma Unsubscribe_reports : reports unsubscribe_allowed UnsubscribeProperties_of UnsubscribeProperties_items false.
Proof. reports_tac UnsubscribeProperties_items_wk. Qed.
Lemma Disconnect_reports : reports disconnect_allowed DisconnectProperties_of DisconnectProperties_items false.
Proof. reports_tac DisconnectProperties_items_wk. Qed.

(** ---------- Sites ---------- *)

Lemma rbind_assoc {A B C} (r : res A) (f : A -> res B) (g : B -> res C) :
  rbind (rbind r f) g = rbind r (fun a => rbind (f a) g).
Proof. destruct r; reflexivity. Qed.


(** A body is read as: the section, then the rest by [H], then the packet is put together. *)
Record site (ft : feature) (byte1 : N) (pl : place) (pre : bytes) (K : option (list item) * bytes -> res Packet) : Prop := {
  site_eq : forall rest, bytes_ok rest -> has_section byte1 rest ->
    body_read ft byte1 (pre ++ rest) = rbind (gread ft (allowed_at byte1 pl) rest) K;
  site_same : forall l1 l2 b, same_up_to_order l1 l2 -> K (Some l1, b) = K (Some l2, b);
  site_items : forall o b p, Forall (wk (allowed_at byte1 pl)) (section_items o) -> K (o, b) = Ok p ->
    forall id, with_id id (packet_items pl p) = resolved byte1 id (section_items o);
  site_free : forall o1 o2 b p, K (o1, b) = Ok p ->
    exists p', K (o2, b) = Ok p' /\ without_properties pl p' = without_properties pl p;
  site_err : forall o1 o2 b e, K (o1, b) = Err e -> K (o2, b) = Err e }.

Lemma site_intro {Y A} ft byte1 pl pre (H : bytes -> res Y) (mk : Y -> option A -> Packet)
    (of : list item -> A) (items : A -> list item) ids :
  (forall rest, bytes_ok rest -> has_section byte1 rest ->
     body_read ft byte1 (pre ++ rest)
     = rbind (gread ft (allowed_at byte1 pl) rest) (fun x => rbind (H (snd x)) (fun y => Ok (mk y (option_map of (fst x)))))) ->
  respects of -> reports (allowed_at byte1 pl) of items ids -> (byte1 / 16 =? 3) = ids ->
  (forall y o, packet_items pl (mk y o) = opt_items items o) ->
  (forall y o1 o2, without_properties pl (mk y o1) = without_properties pl (mk y o2)) ->
  exists K, site ft byte1 pl pre K.
Proof.
  intros E Hr Hrep Hids Hit Hw. eexists. constructor; [exact E| | | |]; cbn [fst snd].
  - intros l1 l2 b Hs. cbn [option_map]. rewrite (Hr l1 l2 Hs). reflexivity.
  - intros o b p Hwk Hk id. destruct (H b) as [y| | |]; try discriminate. cbn [rbind] in Hk. injection Hk as <-.
    rewrite Hit. unfold resolved, repeatable. rewrite Hids. destruct o as [l|]; cbn [option_map opt_items section_items] in *.
    + apply Hrep. exact Hwk.
    + destruct (_ || _); reflexivity.
  - intros o1 o2 b p Hk. destruct (H b) as [y| | |]; try discriminate. cbn [rbind] in *. injection Hk as <-.
    eexists. split; [reflexivity|apply Hw].
  - intros o1 o2 b e Hk. destruct (H b) as [y| | |]; try discriminate. exact Hk.
Qed.

Lemma frame_dispatch ft byte1 body k t : ptype k = Ok t -> byte1 / 16 = k -> body <> [] ->
  body_read ft byte1 body = 
    match t with
    | PT_Connect => let? (c, w, l) := Connect_read ft (mkFixedHeader byte1 0 (blen body)) body in Ok (P_Connect c w l)
    | PT_Publish => let? x := Publish_read ft (mkFixedHeader byte1 0 (blen body)) body in Ok (P_Publish x)
    | PT_Subscribe => let? x := Subscribe_read ft (mkFixedHeader byte1 0 (blen body)) body in Ok (P_Subscribe x)
    | PT_Unsubscribe => let? x := Unsubscribe_read ft (mkFixedHeader byte1 0 (blen body)) body in Ok (P_Unsubscribe x)
    | PT_ConnAck => let? x := ConnAck_read ft (mkFixedHeader byte1 0 (blen body)) body in Ok (P_ConnAck x)
    | PT_PubAck => let? x := PubAck_read ft (mkFixedHeader byte1 0 (blen body)) body in Ok (P_PubAck x)
    | PT_PubRec => let? x := PubRec_read ft (mkFixedHeader byte1 0 (blen body)) body in Ok (P_PubRec x)
    | PT_PubRel => let? x := PubRel_read ft (mkFixedHeader byte1 0 (blen body)) body in Ok (P_PubRel x)
    | PT_PubComp => let? x := PubComp_read ft (mkFixedHeader byte1 0 (blen body)) body in Ok (P_PubComp x)
    | PT_SubAck => let? x := SubAck_read ft (mkFixedHeader byte1 0 (blen body)) body in Ok (P_SubAck x)
    | PT_UnsubAck => let? x := UnsubAck_read ft (mkFixedHeader byte1 0 (blen body)) body in Ok (P_UnsubAck x)
    | PT_PingReq => Ok P_PingReq
    | PT_PingResp => Ok P_PingResp
    | PT_Disconnect => let? x := Disconnect_read ft (mkFixedHeader byte1 0 (blen body)) body in Ok (P_Disconnect x)
    end.
Proof.
  intros Ht Hk Hne. unfold body_read, Packet_read_frame. rewrite packet_type_cases, Hk, Ht. cbn [rbind fh_remaining_len].
  assert (blen body <> 0) by (intros E; apply blen_0 in E; contradiction).
  destruct (N.eqb_spec (blen body) 0); [contradiction|]. cbn [andb]. destruct t; reflexivity.
Qed.

Ltac bind_eq :=
  repeat (match goal with |- context [rbind ?r _] => match r with rbind _ _ => fail 1 | _ =>
            let E := fresh in destruct r as [?| | |] eqn:E; cbn [rbind fst snd option_map]; try reflexivity end end;
          repeat match goal with x : (_ * _)%type |- _ => destruct x end; cbn [rbind fst snd option_map]); try reflexivity.
Ltac after_section rest := destruct (gread _ _ rest) as [[o b]| | |]; cbn [rbind fst snd]; try reflexivity.

Lemma u16_head pkid : pkid < 65536 -> u16_wire pkid (u16be pkid).
Proof. intros H. split; [exact H|reflexivity]. Qed.

Lemma PubAck_site ft byte1 pkid reason : byte1 / 16 = 4 -> pkid < 65536 ->
  exists K, site ft byte1 Main (u16be pkid ++ [reason]) K.
Proof.
  intros Hb Hk. apply (site_intro ft byte1 Main _ (fun _ => PubAck_reason reason) (fun r o => P_PubAck (mkPubAck pkid r o))
    PubAckProperties_of PubAckProperties_items false); try reflexivity.
  - intros rest Hr Hs. specialize (Hs ltac:(lia)). rewrite <- app_assoc.
    rewrite (frame_dispatch ft byte1 _ 4 PT_PubAck) by (try assumption; try reflexivity; discriminate).
    unfold PubAck_read. cbn [fh_fixed_header_len fh_remaining_len]. rewrite advance_0. cbn [rbind].
    rewrite (read_u16_app pkid) by (apply u16_head; exact Hk). cbn [rbind app]. rewrite read_u8_cons. cbn [rbind].
    rewrite blen_app, blen_cons. change (blen (u16be pkid)) with 2.
    assert (blen rest <> 0) by (intros E; apply blen_0 in E; contradiction).
    rewrite (proj2 (N.eqb_neq _ _)) by lia. rewrite (proj2 (N.ltb_ge _ _)) by lia.
    rewrite PubAckProperties_read_eq. unfold allowed_at. rewrite Hb. cbv iota. after_section rest. bind_eq.
  - apply PubAck_respects.
  - unfold allowed_at. rewrite Hb. apply PubAck_reports.
  - rewrite Hb. reflexivity.
Qed.

Lemma PubRec_site ft byte1 pkid reason : byte1 / 16 = 5 -> pkid < 65536 ->
  exists K, site ft byte1 Main (u16be pkid ++ [reason]) K.
Proof.
  intros Hb Hk. apply (site_intro ft byte1 Main _ (fun _ => PubRec_reason reason) (fun r o => P_PubRec (mkPubRec pkid r o))
    PubRecProperties_of PubRecProperties_items false); try reflexivity.
  - intros rest Hr Hs. specialize (Hs ltac:(lia)). rewrite <- app_assoc.
    rewrite (frame_dispatch ft byte1 _ 5 PT_PubRec) by (try assumption; try reflexivity; discriminate).
    unfold PubRec_read. cbn [fh_fixed_header_len fh_remaining_len]. rewrite advance_0. cbn [rbind].
    rewrite (read_u16_app pkid) by (apply u16_head; exact Hk). cbn [rbind app]. rewrite read_u8_cons. cbn [rbind].
    rewrite blen_app, blen_cons. change (blen (u16be pkid)) with 2.
    assert (blen rest <> 0) by (intros E; apply blen_0 in E; contradiction).
    rewrite (proj2 (N.eqb_neq _ _)) by lia. rewrite (proj2 (N.ltb_ge _ _)) by lia.
    rewrite PubRecProperties_read_eq. unfold allowed_at. rewrite Hb. cbv iota. after_section rest. bind_eq.
  - apply PubRec_respects.
  - unfold allowed_at. rewrite Hb. apply PubRec_reports.
  - rewrite Hb. reflexivity.
Qed.

Lemma PubRel_site ft byte1 pkid reason : byte1 / 16 = 6 -> pkid < 65536 ->
  exists K, site ft byte1 Main (u16be pkid ++ [reason]) K.
Proof.
  intros Hb Hk. apply (site_intro ft byte1 Main _ (fun _ => PubRel_reason reason) (fun r o => P_PubRel (mkPubRel pkid r o))
    PubRelProperties_of PubRelProperties_items false); try reflexivity.
  - intros rest Hr Hs. specialize (Hs ltac:(lia)). rewrite <- app_assoc.
    rewrite (frame_dispatch ft byte1 _ 6 PT_PubRel) by (try assumption; try reflexivity; discriminate).
    unfold PubRel_read. cbn [fh_fixed_header_len fh_remaining_len]. rewrite advance_0. cbn [rbind].
    rewrite (read_u16_app pkid) by (apply u16_head; exact Hk). cbn [rbind app]. rewrite read_u8_cons. cbn [rbind].
    rewrite blen_app, blen_cons. change (blen (u16be pkid)) with 2.
    assert (blen rest <> 0) by (intros E; apply blen_0 in E; contradiction).
    rewrite (proj2 (N.eqb_neq _ _)) by lia. rewrite (proj2 (N.ltb_ge _ _)) by lia.
    rewrite PubRelProperties_read_eq. unfold allowed_at. rewrite Hb. cbv iota. after_section rest. bind_eq.
  - apply PubRel_respects.
  - unfold allowed_at. rewrite Hb. apply PubRel_reports.
  - rewrite Hb. reflexivity.
Qed.

Lemma PubComp_site ft byte1 pkid reason : byte1 / 16 = 7 -> pkid < 65536 ->
  exists K, site ft byte1 Main (u16be pkid ++ [reason]) K.
Proof.
  intros Hb Hk. apply (site_intro ft byte1 Main _ (fun _ => PubComp_reason reason) (fun r o => P_PubComp (mkPubComp pkid r o))
    PubCompProperties_of PubCompProperties_items false); try reflexivity.
  - intros rest Hr Hs. specialize (Hs ltac:(lia)). rewrite <- app_assoc.
    rewrite (frame_dispatch ft byte1 _ 7 PT_PubComp) by (try assumption; try reflexivity; discriminate).
    unfold PubComp_read. cbn [fh_fixed_header_len fh_remaining_len]. rewrite advance_0. cbn [rbind].
    rewrite (read_u16_app pkid) by (apply u16_head; exact Hk). cbn [rbind app]. rewrite read_u8_cons. cbn [rbind].
    rewrite blen_app, blen_cons. change (blen (u16be pkid)) with 2.
    assert (blen rest <> 0) by (intros E; apply blen_0 in E; contradiction).
    rewrite (proj2 (N.eqb_neq _ _)) by lia. rewrite (proj2 (N.ltb_ge _ _)) by lia.
    rewrite PubCompProperties_read_eq. unfold allowed_at. rewrite Hb. cbv iota. after_section rest. bind_eq.
  - apply PubComp_respects.
  - unfold allowed_at. rewrite Hb. apply PubComp_reports.
  - rewrite Hb. reflexivity.
Qed.

Lemma ConnAck_site ft byte1 flags code : byte1 / 16 = 2 -> exists K, site ft byte1 Main [flags; code] K.
Proof.
  intros Hb. apply (site_intro ft byte1 Main _ (fun _ => connect_return code)
    (fun r o => P_ConnAck (mkConnAck (N.land flags 1 =? 1) r o)) ConnAckProperties_of ConnAckProperties_items false); try reflexivity.
  - intros rest Hr _. rewrite (frame_dispatch ft byte1 _ 2 PT_ConnAck) by (try assumption; try reflexivity; discriminate).
    unfold ConnAck_read. cbn [fh_fixed_header_len fh_remaining_len]. rewrite advance_0. cbn [rbind app].
    rewrite !read_u8_cons. cbn [rbind]. rewrite read_u8_cons. cbn [rbind]. rewrite ConnAckProperties_read_eq.
    unfold allowed_at. rewrite Hb. cbv iota. after_section rest. bind_eq.
  - apply ConnAck_respects.
  - unfold allowed_at. rewrite Hb. apply ConnAck_reports.
  - rewrite Hb. reflexivity.
Qed.

Lemma Disconnect_site ft byte1 r : byte1 = 224 -> exists K, site ft byte1 Main [disconnect_code r] K.
Proof.
  intros ->. apply (site_intro ft 224 Main _ (fun _ => Ok tt)
    (fun _ o => P_Disconnect (mkDisconnect r o)) DisconnectProperties_of DisconnectProperties_items false); try reflexivity.
  - intros rest Hr _. rewrite (frame_dispatch ft 224 _ 14 PT_Disconnect) by (try assumption; try reflexivity; discriminate).
    unfold Disconnect_read. cbn [fh_fixed_header_len fh_remaining_len fh_byte1]. rewrite advance_0. cbn [rbind app].
    change (negb (N.shiftr 224 4 =? 14)) with false. change (negb (N.land 224 15 =? 0)) with false. cbv iota.
    rewrite blen_cons. rewrite (proj2 (N.eqb_neq _ _)) by lia.
    rewrite read_u8_cons. cbn [rbind]. rewrite DisconnectReasonCode_try_from_code. cbn [rbind].
    rewrite DisconnectProperties_extract_eq. change (allowed_at 224 Main) with disconnect_allowed. after_section rest.
  - apply Disconnect_respects.
  - apply Disconnect_reports.
Qed.

Lemma Publish_site ft byte1 topic lt li : byte1 < 256 -> byte1 / 16 = 3 -> str_wire ft topic lt ->
  ((byte1 / 2) mod 4 = 0 /\ li = []
   \/ ((byte1 / 2) mod 4 = 1 \/ (byte1 / 2) mod 4 = 2) /\ exists pkid, pkid <> 0 /\ u16_wire pkid li) ->
  exists K, site ft byte1 Main (lt ++ li) K.
Proof.
  intros H1 Hb Ht Hi.
  assert (X : exists q pkid, qos ((byte1 / 2) mod 4) = Some q
            /\ (forall b, (match q with AtMostOnce => Ok (0, li ++ b) | AtLeastOnce | ExactlyOnce => read_u16 (li ++ b) end) = Ok (pkid, b))
            /\ negb (QoS_eqb q AtMostOnce) && (pkid =? 0) = false).
  { destruct Hi as [[-> ->]|[Hq (pkid & Hp & Hw)]].
    - exists AtMostOnce, 0. repeat split; reflexivity.
    - destruct Hq as [-> | ->]; [exists AtLeastOnce, pkid|exists ExactlyOnce, pkid]; (split; [reflexivity|]; split;
        [intros b; apply read_u16_app; exact Hw|]; cbn [QoS_eqb negb andb]; apply N.eqb_neq; exact Hp). }
  destruct X as (q & pkid & Eq & Ei & Ep).
  apply (site_intro ft byte1 Main _ (fun b => Ok b)
    (fun b o => P_Publish (mkPublish (negb (N.land byte1 8 =? 0)) q (negb (N.land byte1 1 =? 0)) topic pkid b o))
    PublishProperties_of PublishProperties_items true); try reflexivity.
  - intros rest Hr _. rewrite <- app_assoc.
    rewrite (frame_dispatch ft byte1 _ 3 PT_Publish); [|reflexivity|assumption|].
    2:{ pose proof (str_wire_nonempty _ _ _ Ht) as Hne. intros Z. apply app_eq_nil in Z. tauto. }
    unfold Publish_read. cbn [fh_fixed_header_len fh_remaining_len fh_byte1]. rewrite mask_6, Eq, advance_0 by exact H1. cbn [rbind].
    rewrite (read_mqtt_string_app ft topic) by exact Ht. cbn [rbind]. rewrite Ei. cbn [rbind]. rewrite Ep.
    rewrite PublishProperties_read_eq. unfold allowed_at. rewrite Hb. cbv iota. after_section rest.
  - apply Publish_respects.
  - unfold allowed_at. rewrite Hb. apply Publish_reports.
  - rewrite Hb. reflexivity.
Qed.

Lemma Subscribe_site ft byte1 pkid pre : byte1 / 16 = 8 -> u16_wire pkid pre -> exists K, site ft byte1 Main pre K.
Proof.
  intros Hb Hk. apply (site_intro ft byte1 Main _ (fun b => let? fs := Filter_read ft b in match fs with [] => Err EmptySubscription | _ => Ok fs end)
    (fun fs o => P_Subscribe (mkSubscribe pkid fs o)) SubscribeProperties_of SubscribeProperties_items false); try reflexivity.
  - intros rest Hr _. rewrite (frame_dispatch ft byte1 _ 8 PT_Subscribe); [|reflexivity|assumption|exact (u16_not_nil _ _ _ Hk)].
    unfold Subscribe_read. cbn [fh_fixed_header_len fh_remaining_len fh_byte1]. rewrite advance_0. cbn [rbind].
    rewrite (read_u16_app pkid) by exact Hk. cbn [rbind].
    rewrite SubscribeProperties_read_eq. unfold allowed_at. rewrite Hb. cbv iota. after_section rest. destruct (Filter_read ft b) as [[|f fs]| | |]; reflexivity.
  - apply Subscribe_respects.
  - unfold allowed_at. rewrite Hb. apply Subscribe_reports.
  - rewrite Hb. reflexivity.
Qed.

Lemma SubAck_site ft byte1 pkid pre : byte1 / 16 = 9 -> u16_wire pkid pre -> exists K, site ft byte1 Main pre K.
Proof.
  intros Hb Hk. apply (site_intro ft byte1 Main _ (fun b => match b with [] => Err MalformedPacket | _ => SubAck_read_loop (S (length b)) [] b end)
    (fun fs o => P_SubAck (mkSubAck pkid fs o)) SubAckProperties_of SubAckProperties_items false); try reflexivity.
  - intros rest Hr _. rewrite (frame_dispatch ft byte1 _ 9 PT_SubAck); [|reflexivity|assumption|exact (u16_not_nil _ _ _ Hk)].
    unfold SubAck_read. cbn [fh_fixed_header_len fh_remaining_len fh_byte1]. rewrite advance_0. cbn [rbind].
    rewrite (read_u16_app pkid) by exact Hk. cbn [rbind].
    rewrite SubAckProperties_read_eq. unfold allowed_at. rewrite Hb. cbv iota. after_section rest. destruct b; [reflexivity|]. bind_eq.
  - apply SubAck_respects.
  - unfold allowed_at. rewrite Hb. apply SubAck_reports.
  - rewrite Hb. reflexivity.
Qed.

Lemma Unsubscribe_site ft byte1 pkid pre : byte1 / 16 = 10 -> u16_wire pkid pre -> exists K, site ft byte1 Main pre K.
Proof.
  intros Hb Hk. apply (site_intro ft byte1 Main _ (fun b => Unsubscribe_read_loop ft (S (length b)) [] b)
    (fun fs o => P_Unsubscribe (mkUnsubscribe pkid fs o)) UnsubscribeProperties_of UnsubscribeProperties_items false); try reflexivity.
  - intros rest Hr _. rewrite (frame_dispatch ft byte1 _ 10 PT_Unsubscribe); [|reflexivity|assumption|exact (u16_not_nil _ _ _ Hk)].
    unfold Unsubscribe_read. cbn [fh_fixed_header_len fh_remaining_len fh_byte1]. rewrite advance_0. cbn [rbind].
    rewrite (read_u16_app pkid) by exact Hk. cbn [rbind].
    rewrite UnsubscribeProperties_read_eq. unfold allowed_at. rewrite Hb. cbv iota. after_section rest. bind_eq.
  - apply Unsubscribe_respects.
  - unfold allowed_at. rewrite Hb. apply Unsubscribe_reports.
  - rewrite Hb. reflexivity.
Qed.

Lemma UnsubAck_site ft byte1 pkid pre : byte1 / 16 = 11 -> u16_wire pkid pre -> exists K, site ft byte1 Main pre K.
Proof.
  intros Hb Hk. apply (site_intro ft byte1 Main _ (fun b => match b with [] => Err MalformedPacket | _ => UnsubAck_read_loop (S (length b)) [] b end)
    (fun fs o => P_UnsubAck (mkUnsubAck pkid fs o)) UnsubAckProperties_of UnsubAckProperties_items false); try reflexivity.
  - intros rest Hr _. rewrite (frame_dispatch ft byte1 _ 11 PT_UnsubAck); [|reflexivity|assumption|exact (u16_not_nil _ _ _ Hk)].
    unfold UnsubAck_read. cbn [fh_fixed_header_len fh_remaining_len fh_byte1]. rewrite advance_0. cbn [rbind].
    rewrite (read_u16_app pkid) by exact Hk. cbn [rbind].
    rewrite UnsubAckProperties_read_eq. unfold allowed_at. rewrite Hb. cbv iota. after_section rest. destruct b; [reflexivity|]. bind_eq.
  - apply UnsubAck_respects.
  - unfold allowed_at. rewrite Hb. apply UnsubAck_reports.
  - rewrite Hb. reflexivity.
Qed.

(** CONNECT up to its property section. *)
Lemma connect_prefix ft byte1 flags k rest : byte1 / 16 = 1 -> k < 65536 ->
  body_read ft byte1 (((u16be 4 ++ mqtt) ++ [5; flags] ++ u16be k) ++ rest)
    = let? (o, b) := ConnectProperties_read ft rest in
      let? (client, b) := read_mqtt_string ft b in
      let? (w, b) := LastWill_read ft flags b in
      let? (l, b) := Login_read ft flags b in
      Ok (P_Connect (mkConnect k client (negb (N.land flags 2 =? 0)) o) w l).
Proof.
  intros Hb Hk.
  rewrite (frame_dispatch ft byte1 _ 1 PT_Connect) by (try assumption; try reflexivity; discriminate).
  unfold Connect_read. cbn [fh_fixed_header_len]. rewrite advance_0. cbn [rbind]. rewrite <- app_assoc.
  rewrite (read_mqtt_string_app ft mqtt) by apply mqtt_wire. cbn [rbind app].
  rewrite read_u8_cons. cbn [rbind]. change (negb (mqtt_string_eq mqtt str_MQTT)) with false. cbv iota.
  change (negb (5 =? 5)) with false. cbv iota. rewrite read_u8_cons. cbn [rbind].
  rewrite (read_u16_app k) by (apply u16_head; exact Hk). cbn [rbind].
  destruct (ConnectProperties_read ft rest) as [[o b]| | |]; cbn [rbind]; try reflexivity. bind_eq.
Qed.
Lemma Connect_site ft byte1 flags head : byte1 / 16 = 1 -> connect_head flags head ->
  exists K, site ft byte1 Main head K.
Proof.
  intros Hb (k & -> & Hf & Hk).
  apply (site_intro ft byte1 Main _
    (fun b => let? (client, b) := read_mqtt_string ft b in
              let? (w, b) := LastWill_read ft flags b in
              let? (l, b) := Login_read ft flags b in Ok (client, w, l))
    (fun y o => P_Connect (mkConnect k (fst (fst y)) (negb (N.land flags 2 =? 0)) o) (snd (fst y)) (snd y))
    ConnectProperties_of ConnectProperties_items false); try reflexivity.
  - intros rest Hr _. rewrite connect_prefix by assumption. rewrite ConnectProperties_read_eq.
    unfold allowed_at. rewrite Hb. cbv iota. after_section rest. bind_eq.
  - apply Connect_respects.
  - unfold allowed_at. rewrite Hb. apply Connect_reports.
  - rewrite Hb. reflexivity.
Qed.
Lemma Will_site ft byte1 flags head o ls c lc : byte1 / 16 = 1 -> connect_head flags head -> N.testbit flags 2 = true ->
  section_wire ft connect_allowed o ls -> str_wire ft c lc ->
  exists K, site ft byte1 Will (head ++ ls ++ lc) K.
Proof.
  intros Hb (k & -> & Hf & Hk) Hw Hs Hc.
  apply (site_intro ft byte1 Will _
    (fun b => let? (t, b) := read_mqtt_bytes b in
              let? (m, b) := read_mqtt_bytes b in
              match qos (N.shiftr (N.land flags 24) 3) with
              | None => Err (InvalidQoS (N.shiftr (N.land flags 24) 3))
              | Some q => let? (l, b) := Login_read ft flags b in Ok (t, m, q, l)
              end)
    (fun y w => let '(t, m, q, l) := y in
       P_Connect (mkConnect k c (negb (N.land flags 2 =? 0)) (option_map ConnectProperties_of o))
         (Some (mkLastWill t m q (negb (N.land flags 32 =? 0)) w)) l)
    LastWillProperties_of LastWillProperties_items false).
  - intros rest Hr _. rewrite <- !app_assoc.
    change ((u16be 4 ++ mqtt ++ [5; flags] ++ u16be k ++ ls ++ lc ++ rest)) with (((u16be 4 ++ mqtt) ++ [5; flags] ++ u16be k) ++ ls ++ lc ++ rest).
    rewrite connect_prefix by assumption. rewrite ConnectProperties_read_eq.
    rewrite (gread_app ft connect_allowed o ls); [|assumption|apply bytes_ok_app; split; [eapply str_wire_ok; eassumption|assumption]].
    cbn [rbind]. rewrite (read_mqtt_string_app ft c) by exact Hc. cbn [rbind].
    unfold LastWill_read. rewrite bit_2, Hw. cbn [negb]. rewrite LastWillProperties_read_eq. cbn [allowed_at].
    destruct (gread _ _ rest) as [[o' b]| | |]; cbn [rbind fst snd]; try reflexivity. destruct (read_mqtt_bytes b) as [[t b1]| | |]; cbn [rbind]; try reflexivity.
    destruct (read_mqtt_bytes b1) as [[m b2]| | |]; cbn [rbind]; try reflexivity.
    destruct (qos _); cbn [rbind]; try reflexivity. bind_eq.
  - apply LastWill_respects.
  - apply LastWill_reports.
  - rewrite Hb. reflexivity.
  - intros [[[t m] q] l] w. reflexivity.
  - intros [[[t m] q] l] w1 w2. reflexivity.
Qed.

Lemma site_exists ft byte1 pl pre : byte1 < 256 -> before_section ft byte1 pl pre -> exists K, site ft byte1 pl pre K.
Proof.
  intros H1 H. destruct pl; cbn [before_section] in H.
  - pose proof (nibble_cases byte1 H1) as Hn.
    cbn [In] in Hn. repeat match type of Hn with _ \/ _ => destruct Hn as [En|Hn] | False => destruct Hn end;
      rewrite <- En in H; symmetry in En; cbv iota in H; try contradiction.
    + destruct H as (flags & H). eapply Connect_site; eassumption.
    + destruct H as (flags & code & ->). apply ConnAck_site. exact En.
    + destruct H as (topic & lt & li & -> & Ht & Hi). eapply Publish_site; eassumption.
    + destruct H as (pkid & reason & Hk & ->). apply PubAck_site; assumption.
    + destruct H as (pkid & reason & Hk & ->). apply PubRec_site; assumption.
    + destruct H as (pkid & reason & Hk & ->). apply PubRel_site; assumption.
    + destruct H as (pkid & reason & Hk & ->). apply PubComp_site; assumption.
    + destruct H as (pkid & Hk). eapply Subscribe_site; eassumption.
    + destruct H as (pkid & Hk). eapply SubAck_site; eassumption.
    + destruct H as (pkid & Hk). eapply Unsubscribe_site; eassumption.
    + destruct H as (pkid & Hk). eapply UnsubAck_site; eassumption.
    + destruct H as (Hm & r & ->). apply Disconnect_site. lia.
  - destruct H as (Hb & flags & head & o & ls & c & lc & -> & Hh & Hw & Hs & Hc). eapply Will_site; eassumption.
Qed.
