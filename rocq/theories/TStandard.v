(** Frames of the MQTT 5.0 standard (Standard.v) against the crate: what is understood (C51) and
    what is written (C52). *)
From Verif Require Import Types Model Spec Wire Sites Faults Standard PBase PVarint PUtf8 PRead PItems PProps PFrame PWire PTotal
  PWrite PRound PBack PFaults TFraming TWrite TRound TProps TRules.
Import Faults.
Ltac Zify.zify_post_hook ::= Z.div_mod_to_equations.

(** ---------- Strings ---------- *)

Lemma utf8_bytes s : utf8 s -> bytes_ok s.
Proof.
  intros (cs & Hc & ->). induction Hc as [|c cs Hc Hcs IH]; [constructor|]. cbn [flat_map]. apply bytes_ok_app. split; [|exact IH].
  unfold utf8_encode. assert (c < 1114112) by (destruct Hc; lia).
  destruct (N.ltb_spec c 128); [repeat constructor; lia|]. destruct (N.ltb_spec c 2048); [repeat constructor; lia|].
  destruct (N.ltb_spec c 65536); repeat constructor; lia.
Qed.
Lemma mqtt_text ft s : mqtt_string s -> text ft s.
Proof. intros [H _]. split; [apply utf8_bytes; exact H|]. destruct ft; auto. Qed.
Lemma small_bin s : blen s <= 65535 -> field_error (FBin s) = None.
Proof. intros H. cbn [field_error]. rewrite (proj2 (N.leb_le _ _)) by exact H. reflexivity. Qed.
Lemma string_wire ft s : mqtt_string s -> str_wire ft s (field_bytes (FBin s)).
Proof. intros H. apply str_enc_wire; [apply mqtt_text; exact H|apply small_bin, H]. Qed.
Lemma binary_wire s : mqtt_binary s -> bin_wire s (field_bytes (FBin s)).
Proof. intros [H H']. apply bin_enc_wire; [exact H|apply small_bin; exact H']. Qed.
Lemma string_binary s : mqtt_string s -> mqtt_binary s.
Proof. intros [H H']. split; [apply utf8_bytes; exact H|exact H']. Qed.

(** ---------- Bytes of a layout ---------- *)

Definition field_ok (f : field) : Prop :=
  match f with
  | FByte n => n < 256
  | FTwo n => n < 65536
  | FFour n => n < 4294967296
  | FVar n => n <= max_varint
  | FBin s => mqtt_binary s
  | FRaw s => bytes_ok s
  | FId n => n < 65536
  end.
Lemma fields_ok_bytes l : Forall field_ok l -> bytes_ok (fields_bytes l).
Proof.
  induction 1 as [|f l Hf Hl IH]; [constructor|]. rewrite fields_bytes_cons. apply bytes_ok_app. split; [|exact IH].
  destruct f; cbn [field_ok field_bytes] in *.
  - constructor; [exact Hf|constructor].
  - apply u16be_ok. exact Hf.
  - unfold u32be. repeat constructor; lia.
  - apply varint_byte_ok. exact Hf.
  - destruct Hf as [H1 H2]. apply bytes_ok_app. split; [apply u16be_ok; lia|exact H1].
  - exact Hf.
  - destruct (n =? 0); [constructor|apply u16be_ok; exact Hf].
Qed.
Lemma field_ok_enc f : field_ok f -> (forall n, f <> FId n) -> field_error f = None.
Proof.
  intros H Hn. destruct f; cbn [field_ok field_error] in *; try reflexivity.
  - rewrite (proj2 (N.leb_le _ _)) by exact H. reflexivity.
  - apply small_bin, H.
  - exfalso. eapply Hn. reflexivity.
Qed.
Lemma value_fields_ok v : well_formed_value v -> Forall field_ok (value_fields v).
Proof.
  destruct v; cbn [well_formed_value value_fields]; intros H; repeat constructor; cbn [field_ok]; auto;
    try (destruct H; split; assumption); try (apply string_binary; tauto); try (apply utf8_bytes; apply H); try apply H.
Qed.
Lemma props_fields_ok allowed many l : (forall id, In id allowed -> id < 256) -> well_formed_props allowed many l ->
  Forall field_ok (section_fields l).
Proof.
  intros Ha (H1 & _ & H3). constructor; [exact H3|]. clear H3. induction H1 as [|i l (Hi & _ & Hv) Hl IH]; [constructor|].
  cbn [items_fields flat_map]. apply Forall_app. split; [|exact IH]. constructor; [apply Ha; exact Hi|].
  apply value_fields_ok. exact Hv.
Qed.
Lemma props_items_ok ft allowed many l : well_formed_props allowed many l ->
  Forall (wk allowed) l /\ items_ok ft l /\ enc (section_fields l).
Proof.
  intros (H1 & _ & H3). split; [|split].
  - eapply Forall_impl; [|exact H1]. cbn. intros i (A & B & _). split; assumption.
  - eapply Forall_impl; [|exact H1]. cbn. intros i (_ & _ & V). destruct (snd i); cbn [well_formed_value value_ok] in *; auto.
    + apply mqtt_text; exact V.
    + apply V.
    + split; apply mqtt_text; apply V.
  - apply enc_cons. split; [cbn [field_error]; rewrite (proj2 (N.leb_le _ _)) by exact H3; reflexivity|].
    clear H3. unfold enc. induction H1 as [|i l (_ & _ & V) Hl IH]; [constructor|]. cbn [items_fields flat_map]. apply Forall_app.
    split; [|exact IH]. constructor; [reflexivity|].
    apply value_fields_ok in V. rewrite Forall_forall in *. intros f Hf. apply field_ok_enc; [apply V; exact Hf|].
    intros n ->. destruct (snd i); cbn in Hf; intuition discriminate.
Qed.

(** ---------- Property structures ---------- *)

Lemma has_id_eq id i : has_id id i = true <-> fst i = id.
Proof. unfold has_id. apply N.eqb_eq. Qed.
Lemma fold_filter {A} (get : pvalue -> option A) id l : forall acc,
  fold_left (fun acc i => if fst i =? id then get (snd i) else acc) l acc
  = fold_left (fun acc i => if fst i =? id then get (snd i) else acc) (filter (has_id id) l) acc.
Proof.
  induction l as [|i l IH]; intros acc; [reflexivity|]. cbn [filter fold_left]. destruct (has_id id i) eqn:E.
  - cbn [fold_left]. apply IH.
  - unfold has_id in E. rewrite E. apply IH.
Qed.
Lemma last_filter {A} (get : pvalue -> option A) id l : (length (filter (has_id id) l) <= 1)%nat ->
  last_of get id l = match filter (has_id id) l with [] => None | i :: _ => get (snd i) end.
Proof.
  intros H. unfold last_of. rewrite fold_filter. pose proof (fun i => proj1 (filter_In (has_id id) i l)) as F.
  destruct (filter (has_id id) l) as [|i [|j r]]; cbn [length fold_left] in *; [reflexivity| |lia].
  destruct (F i (or_introl eq_refl)) as [_ E]. unfold has_id in E. rewrite E. reflexivity.
Qed.
Lemma num_filter allowed many l id k kd : well_formed_props allowed many l -> ~ In id many -> property_kind id = Some kd ->
  (forall v, value_kind v = kd -> exists n, v = k n /\ num_value v = Some n) ->
  num id k (last_num id l) = filter (has_id id) l.
Proof.
  intros (H1 & H2 & _) Hm Hk Hv. unfold last_num. rewrite last_filter by (apply H2; exact Hm). specialize (H2 id Hm).
  pose proof (fun i => proj1 (filter_In (has_id id) i l)) as F. rewrite Forall_forall in H1.
  destruct (filter (has_id id) l) as [|[j v] [|? ?]]; cbn [length] in H2; [reflexivity| |lia].
  destruct (F _ (or_introl eq_refl)) as [Hin E]. apply has_id_eq in E. cbn [fst snd] in *. subst j.
  destruct (H1 _ Hin) as (_ & K & _). cbn [fst snd] in K. rewrite Hk in K. injection K as K.
  destruct (Hv v (eq_sym K)) as (n & -> & ->). reflexivity.
Qed.
Lemma str_filter allowed many l id k kd : well_formed_props allowed many l -> ~ In id many -> property_kind id = Some kd ->
  (forall v, value_kind v = kd -> exists n, v = k n /\ str_value v = Some n) ->
  str id k (last_str id l) = filter (has_id id) l.
Proof.
  intros (H1 & H2 & _) Hm Hk Hv. unfold last_str. rewrite last_filter by (apply H2; exact Hm). specialize (H2 id Hm).
  pose proof (fun i => proj1 (filter_In (has_id id) i l)) as F. rewrite Forall_forall in H1.
  destruct (filter (has_id id) l) as [|[j v] [|? ?]]; cbn [length] in H2; [reflexivity| |lia].
  destruct (F _ (or_introl eq_refl)) as [Hin E]. apply has_id_eq in E. cbn [fst snd] in *. subst j.
  destruct (H1 _ Hin) as (_ & K & _). cbn [fst snd] in K. rewrite Hk in K. injection K as K.
  destruct (Hv v (eq_sym K)) as (n & -> & ->). reflexivity.
Qed.
Lemma users_filter allowed many l : well_formed_props allowed many l -> users (user_pairs l) = filter (has_id 38) l.
Proof.
  intros (H1 & _). induction H1 as [|[id v] l (_ & K & _) Hl IH]; [reflexivity|].
  unfold user_pairs. cbn [flat_map filter fst snd]. change (has_id 38 (id, v)) with (id =? 38). cbn [fst snd] in K.
  destruct (N.eqb_spec id 38) as [->|E]; [|exact IH]. cbn in K. destruct v; try discriminate K.
  cbn [app]. unfold users in *. cbn [map]. exact (f_equal (cons _) IH).
Qed.
Lemma ids_filter allowed many l : well_formed_props allowed many l -> sub_ids (all_ids l) = filter (has_id 11) l.
Proof.
  intros (H1 & _). induction H1 as [|[id v] l (_ & K & _) Hl IH]; [reflexivity|].
  unfold all_ids. cbn [flat_map filter fst snd]. change (has_id 11 (id, v)) with (id =? 11). cbn [fst snd] in K.
  destruct (N.eqb_spec id 11) as [->|E]; [|exact IH]. cbn in K. destruct v; try discriminate K.
  cbn [app]. unfold sub_ids in *. cbn [map]. exact (f_equal (cons _) IH).
Qed.

(** Picking the properties by identifier, each identifier once. *)
Definition pick (order : list N) (l : list item) : list item := flat_map (fun id => filter (has_id id) l) order.
Lemma filter_filter_ne id id' l : id <> id' -> filter (has_id id) (filter (has_id id') l) = [].
Proof.
  intros H. induction l as [|i l IH]; [reflexivity|]. cbn [filter]. destruct (has_id id' i) eqn:E; [|exact IH].
  cbn [filter]. rewrite IH. destruct (has_id id i) eqn:E'; [|reflexivity]. apply has_id_eq in E, E'. congruence.
Qed.
Lemma filter_filter_eq id l : filter (has_id id) (filter (has_id id) l) = filter (has_id id) l.
Proof.
  induction l as [|i l IH]; [reflexivity|]. cbn [filter]. destruct (has_id id i) eqn:E; [|exact IH].
  cbn [filter]. rewrite E, IH. reflexivity.
Qed.
Lemma pick_same order l : NoDup order -> (forall i, In i l -> In (fst i) order) -> same_props (pick order l) l.
Proof.
  intros Hnd Hin id. assert (G : filter (has_id id) (pick order l) = if existsb (N.eqb id) order then filter (has_id id) l else []).
  { clear Hin. unfold pick. induction Hnd as [|a order Hna Hnd IH]; [reflexivity|]. cbn [flat_map existsb]. rewrite filter_app, IH.
    destruct (N.eqb_spec id a) as [->|E]; cbn [orb].
    - rewrite filter_filter_eq. destruct (existsb (N.eqb a) order) eqn:X; [|apply app_nil_r]. exfalso.
      apply existsb_exists in X. destruct X as (y & Hy & Ey). apply N.eqb_eq in Ey. subst y. auto.
    - rewrite filter_filter_ne by exact E. reflexivity. }
  rewrite G. destruct (existsb (N.eqb id) order) eqn:X; [reflexivity|]. symmetry.
  destruct (filter (has_id id) l) as [|i r] eqn:F; [reflexivity|]. exfalso.
  assert (Hi : In i (filter (has_id id) l)) by (rewrite F; left; reflexivity). apply filter_In in Hi. destruct Hi as [Hi Ei].
  apply has_id_eq in Ei. subst id. apply Hin in Hi.
  assert (existsb (N.eqb (fst i)) order = true) by (apply existsb_exists; exists (fst i); split; [exact Hi|apply N.eqb_refl]).
  congruence.
Qed.
Ltac nodups := repeat constructor; cbn; intuition discriminate.
Ltac groups H :=
  repeat lazymatch goal with
  | |- context [num ?id ?k (last_num ?id _)] =>
      erewrite (num_filter _ _ _ id k) by (first [exact H|cbn; intuition discriminate|reflexivity
         |intros v Kv; destruct v; try discriminate Kv; eexists; split; reflexivity])
  | |- context [str ?id ?k (last_str ?id _)] =>
      erewrite (str_filter _ _ _ id k) by (first [exact H|cbn; intuition discriminate|reflexivity
         |intros v Kv; destruct v; try discriminate Kv; eexists; split; reflexivity])
  end; rewrite ?(users_filter _ _ _ H), ?(ids_filter _ _ _ H).

Lemma ConnectProperties_same l : well_formed_props connect_allowed [38] l -> same_props (ConnectProperties_items (ConnectProperties_of l)) l.
Proof.
  intros H. assert (E : ConnectProperties_items (ConnectProperties_of l) = pick [17; 33; 39; 34; 25; 23; 38; 21; 22] l).
  { unfold ConnectProperties_items, ConnectProperties_of, pick. cbn [cp_session_expiry_interval cp_receive_maximum cp_max_packet_size cp_topic_alias_max cp_request_response_info cp_request_problem_info cp_user_properties cp_authentication_method cp_authentication_data]. groups H. cbn [flat_map]. rewrite ?app_nil_r. reflexivity. }
  rewrite E. apply pick_same; [nodups|]. destruct H as [H _]. rewrite Forall_forall in H.
  intros i Hi. destruct (H i Hi) as [Ha _]. cbn in Ha |- *. tauto.
Qed.
Lemma LastWillProperties_same l : well_formed_props will_allowed [38] l -> same_props (LastWillProperties_items (LastWillProperties_of l)) l.
Proof.
  intros H. assert (E : LastWillProperties_items (LastWillProperties_of l) = pick [24; 1; 2; 3; 8; 9; 38] l).
  { unfold LastWillProperties_items, LastWillProperties_of, pick. cbn [wp_delay_interval wp_payload_format_indicator wp_message_expiry_interval wp_content_type wp_response_topic wp_correlation_data wp_user_properties]. groups H. cbn [flat_map]. rewrite ?app_nil_r. reflexivity. }
  rewrite E. apply pick_same; [nodups|]. destruct H as [H _]. rewrite Forall_forall in H.
  intros i Hi. destruct (H i Hi) as [Ha _]. cbn in Ha |- *. tauto.
Qed.
Lemma ConnAckProperties_same l : well_formed_props connack_allowed [38] l -> same_props (ConnAckProperties_items (ConnAckProperties_of l)) l.
Proof.
  intros H. assert (E : ConnAckProperties_items (ConnAckProperties_of l) = pick [17; 33; 36; 37; 39; 18; 34; 31; 38; 40; 41; 42; 19; 26; 28; 21; 22] l).
  { unfold ConnAckProperties_items, ConnAckProperties_of, pick. cbn [ca_session_expiry_interval ca_receive_max ca_max_qos ca_retain_available ca_max_packet_size ca_assigned_client_identifier ca_topic_alias_max ca_reason_string ca_user_properties ca_wildcard_subscription_available ca_subscription_identifiers_available ca_shared_subscription_available ca_server_keep_alive ca_response_information ca_server_reference ca_authentication_method ca_authentication_data]. groups H. cbn [flat_map]. rewrite ?app_nil_r. reflexivity. }
  rewrite E. apply pick_same; [nodups|]. destruct H as [H _]. rewrite Forall_forall in H.
  intros i Hi. destruct (H i Hi) as [Ha _]. cbn in Ha |- *. tauto.
Qed.
Lemma PublishProperties_same l : well_formed_props publish_allowed [11; 38] l -> same_props (PublishProperties_items (PublishProperties_of l)) l.
Proof.
  intros H. assert (E : PublishProperties_items (PublishProperties_of l) = pick [1; 2; 35; 8; 9; 38; 11; 3] l).
  { unfold PublishProperties_items, PublishProperties_of, pick. cbn [pp_payload_format_indicator pp_message_expiry_interval pp_topic_alias pp_response_topic pp_correlation_data pp_user_properties pp_subscription_identifiers pp_content_type]. groups H. cbn [flat_map]. rewrite ?app_nil_r. reflexivity. }
  rewrite E. apply pick_same; [nodups|]. destruct H as [H _]. rewrite Forall_forall in H.
  intros i Hi. destruct (H i Hi) as [Ha _]. cbn in Ha |- *. tauto.
Qed.
Lemma SubscribeProperties_same l : well_formed_props subscribe_allowed [38] l -> same_props (SubscribeProperties_items (SubscribeProperties_of l)) l.
Proof.
  intros H. assert (E : SubscribeProperties_items (SubscribeProperties_of l) = pick [11; 38] l).
  { unfold SubscribeProperties_items, SubscribeProperties_of, pick. cbn [sp_id sp_user_properties]. groups H. cbn [flat_map]. rewrite ?app_nil_r. reflexivity. }
  rewrite E. apply pick_same; [nodups|]. destruct H as [H _]. rewrite Forall_forall in H.
  intros i Hi. destruct (H i Hi) as [Ha _]. cbn in Ha |- *. tauto.
Qed.
Lemma UnsubscribeProperties_same l : well_formed_props unsubscribe_allowed [38] l -> same_props (UnsubscribeProperties_items (UnsubscribeProperties_of l)) l.
Proof.
  intros H. assert (E : UnsubscribeProperties_items (UnsubscribeProperties_of l) = pick [38] l).
  { unfold UnsubscribeProperties_items, UnsubscribeProperties_of, pick. cbn [usp_user_properties]. groups H. cbn [flat_map]. rewrite ?app_nil_r. reflexivity. }
  rewrite E. apply pick_same; [nodups|]. destruct H as [H _]. rewrite Forall_forall in H.
  intros i Hi. destruct (H i Hi) as [Ha _]. cbn in Ha |- *. tauto.
Qed.
Lemma DisconnectProperties_same l : well_formed_props disconnect_allowed [38] l -> same_props (DisconnectProperties_items (DisconnectProperties_of l)) l.
Proof.
  intros H. assert (E : DisconnectProperties_items (DisconnectProperties_of l) = pick [17; 31; 38; 28] l).
  { unfold DisconnectProperties_items, DisconnectProperties_of, pick. cbn [dp_session_expiry_interval dp_reason_string dp_user_properties dp_server_reference]. groups H. cbn [flat_map]. rewrite ?app_nil_r. reflexivity. }
  rewrite E. apply pick_same; [nodups|]. destruct H as [H _]. rewrite Forall_forall in H.
  intros i Hi. destruct (H i Hi) as [Ha _]. cbn in Ha |- *. tauto.
Qed.
Lemma PubAckProperties_same l : well_formed_props ack_allowed [38] l -> same_props (PubAckProperties_items (PubAckProperties_of l)) l.
Proof.
  intros H. assert (E : PubAckProperties_items (PubAckProperties_of l) = pick [31; 38] l).
  { unfold PubAckProperties_items, PubAckProperties_of, ack_items, pick. cbn [pap_reason_string pap_user_properties]. groups H. cbn [flat_map]. rewrite ?app_nil_r. reflexivity. }
  rewrite E. apply pick_same; [nodups|]. destruct H as [H _]. rewrite Forall_forall in H.
  intros i Hi. destruct (H i Hi) as [Ha _]. cbn in Ha |- *. tauto.
Qed.
Lemma PubRecProperties_same l : well_formed_props ack_allowed [38] l -> same_props (PubRecProperties_items (PubRecProperties_of l)) l.
Proof.
  intros H. assert (E : PubRecProperties_items (PubRecProperties_of l) = pick [31; 38] l).
  { unfold PubRecProperties_items, PubRecProperties_of, ack_items, pick. cbn [prp_reason_string prp_user_properties]. groups H. cbn [flat_map]. rewrite ?app_nil_r. reflexivity. }
  rewrite E. apply pick_same; [nodups|]. destruct H as [H _]. rewrite Forall_forall in H.
  intros i Hi. destruct (H i Hi) as [Ha _]. cbn in Ha |- *. tauto.
Qed.
Lemma PubRelProperties_same l : well_formed_props ack_allowed [38] l -> same_props (PubRelProperties_items (PubRelProperties_of l)) l.
Proof.
  intros H. assert (E : PubRelProperties_items (PubRelProperties_of l) = pick [31; 38] l).
  { unfold PubRelProperties_items, PubRelProperties_of, ack_items, pick. cbn [plp_reason_string plp_user_properties]. groups H. cbn [flat_map]. rewrite ?app_nil_r. reflexivity. }
  rewrite E. apply pick_same; [nodups|]. destruct H as [H _]. rewrite Forall_forall in H.
  intros i Hi. destruct (H i Hi) as [Ha _]. cbn in Ha |- *. tauto.
Qed.
Lemma PubCompProperties_same l : well_formed_props ack_allowed [38] l -> same_props (PubCompProperties_items (PubCompProperties_of l)) l.
Proof.
  intros H. assert (E : PubCompProperties_items (PubCompProperties_of l) = pick [31; 38] l).
  { unfold PubCompProperties_items, PubCompProperties_of, ack_items, pick. cbn [pcp_reason_string pcp_user_properties]. groups H. cbn [flat_map]. rewrite ?app_nil_r. reflexivity. }
  rewrite E. apply pick_same; [nodups|]. destruct H as [H _]. rewrite Forall_forall in H.
  intros i Hi. destruct (H i Hi) as [Ha _]. cbn in Ha |- *. tauto.
Qed.
Lemma SubAckProperties_same l : well_formed_props ack_allowed [38] l -> same_props (SubAckProperties_items (SubAckProperties_of l)) l.
Proof.
  intros H. assert (E : SubAckProperties_items (SubAckProperties_of l) = pick [31; 38] l).
  { unfold SubAckProperties_items, SubAckProperties_of, ack_items, pick. cbn [sap_reason_string sap_user_properties]. groups H. cbn [flat_map]. rewrite ?app_nil_r. reflexivity. }
  rewrite E. apply pick_same; [nodups|]. destruct H as [H _]. rewrite Forall_forall in H.
  intros i Hi. destruct (H i Hi) as [Ha _]. cbn in Ha |- *. tauto.
Qed.
Lemma UnsubAckProperties_same l : well_formed_props ack_allowed [38] l -> same_props (UnsubAckProperties_items (UnsubAckProperties_of l)) l.
Proof.
  intros H. assert (E : UnsubAckProperties_items (UnsubAckProperties_of l) = pick [31; 38] l).
  { unfold UnsubAckProperties_items, UnsubAckProperties_of, ack_items, pick. cbn [uap_reason_string uap_user_properties]. groups H. cbn [flat_map]. rewrite ?app_nil_r. reflexivity. }
  rewrite E. apply pick_same; [nodups|]. destruct H as [H _]. rewrite Forall_forall in H.
  intros i Hi. destruct (H i Hi) as [Ha _]. cbn in Ha |- *. tauto.
Qed.

Lemma kvar_11 id : property_kind id = Some KVar -> id = 11.
Proof.
  intros H. destruct id as [|q]; [discriminate|]. cbn in H.
  do 6 (try (destruct q as [q|q|]; cbn in H; try discriminate H)). all: reflexivity.
Qed.
(** A section of the standard is read as a structure that says the same. *)
Lemma section_standard {A} ft allowed many (of : list item -> A) (items : A -> list item) l :
  (well_formed_props allowed many l -> same_props (items (of l)) l) ->
  well_formed_props allowed many l -> identifiers_fit_in l ->
  exists o, props_wire ft allowed of o (fields_bytes (section_fields l)) /\ same_props (opt_items items o) l.
Proof.
  intros Hs H Hf. pose proof (props_items_ok ft _ _ _ H) as (Hw & Hi & He).
  exists (option_map of (if nonempty l then Some l else None)). split.
  - exists (if nonempty l then Some l else None). split; [|reflexivity]. apply section_enc_wire; auto.
    intros Hne. destruct (exists_last Hne) as (before & x & ->). apply covers_spell_snoc.
    specialize (Hf before x eq_refl). unfold nvars. unfold isize. cbn [items_fields flat_map]. rewrite app_nil_r.
    erewrite filter_ext_in; [exact Hf|]. intros i Hin. rewrite Forall_forall in Hw.
    destruct (Hw i (in_or_app _ _ _ (or_introl Hin))) as [_ K]. unfold is_var, has_id. destruct i as [id v]. cbn [fst snd] in *.
    destruct (N.eqb_spec id 11) as [->|E].
    + cbn in K. destruct v; try discriminate K. reflexivity.
    + destruct v; try reflexivity. exfalso. apply E. apply kvar_11. exact K.
  - destruct l as [|i l]; [intros id; reflexivity|]. cbn [nonempty option_map opt_items]. auto.
Qed.
Lemma no_identifiers allowed many l : ~ In 11 allowed -> well_formed_props allowed many l -> identifiers_fit_in l.
Proof.
  intros Hn (H & _) before x ->. rewrite Forall_forall in H.
  destruct (filter (has_id 11) before) as [|i r] eqn:E.
  - cbn [length]. pose proof (isize_pos x) as P. unfold isize in P. cbn [items_fields flat_map] in P. rewrite app_nil_r in P. change (N.of_nat 0) with 0. lia.
  - exfalso. assert (Hi : In i (filter (has_id 11) before)) by (rewrite E; left; reflexivity). apply filter_In in Hi. destruct Hi as [Hi Ei].
    apply has_id_eq in Ei. destruct (H i (in_or_app _ _ _ (or_introl Hi))) as [Ha _]. rewrite Ei in Ha. auto.
Qed.
Lemma one_identifier allowed many l : ~ In 11 many -> well_formed_props allowed many l -> identifiers_fit_in l.
Proof.
  intros Hm (H & H2 & _) before x ->. specialize (H2 11 Hm). rewrite filter_app, app_length in H2.
  assert (S2 : 2 <= blen (fields_bytes (item_fields x))).
  { unfold item_fields. rewrite fields_bytes_cons, blen_app. change (blen (field_bytes (FByte (fst x)))) with 1.
    assert (1 <= blen (fields_bytes (value_fields (snd x)))); [|lia].
    destruct (snd x); cbn [value_fields fields_bytes flat_map field_bytes]; rewrite ?app_nil_r, ?blen_app; unfold u16be, u32be; rewrite ?blen_cons; try lia.
    pose proof (varint_len n). unfold len_len in *. rewrite H0. destruct (_ <=? _); [lia|]. destruct (_ <=? _); [lia|]. destruct (_ <=? _); lia. }
  lia.
Qed.

(** ---------- Reason codes ---------- *)

Lemma code_exists {A} (f : A -> N) (ok : A -> bool) (all : list A) (codes : list N) :
  forallb (fun c => existsb (fun a => (f a =? c) && ok a) all) codes = true ->
  forall c, In c codes -> exists a, f a = c /\ ok a = true.
Proof.
  intros H c Hc. rewrite forallb_forall in H. apply H in Hc. apply existsb_exists in Hc. destruct Hc as (a & _ & Ha).
  apply andb_true_iff in Ha. destruct Ha as [H1 H2]. apply N.eqb_eq in H1. eauto.
Qed.
Lemma connack_found c : In c connack_codes -> exists a, connack_code a = c /\ (fun a => negb (legacy_code a)) a = true.
Proof. apply (code_exists connack_code (fun a => negb (legacy_code a)) [CRC_Success; CRC_RefusedProtocolVersion; CRC_BadClientId; CRC_ServiceUnavailable; CRC_UnspecifiedError; CRC_MalformedPacket; CRC_ProtocolError; CRC_ImplementationSpecificError; CRC_UnsupportedProtocolVersion; CRC_ClientIdentifierNotValid; CRC_BadUserNamePassword; CRC_NotAuthorized; CRC_ServerUnavailable; CRC_ServerBusy; CRC_Banned; CRC_BadAuthenticationMethod; CRC_TopicNameInvalid; CRC_PacketTooLarge; CRC_QuotaExceeded; CRC_PayloadFormatInvalid; CRC_RetainNotSupported; CRC_QoSNotSupported; CRC_UseAnotherServer; CRC_ServerMoved; CRC_ConnectionRateExceeded]). reflexivity. Qed.
Lemma puback_found c : In c puback_codes -> exists a, puback_code a = c /\ (fun _ => true) a = true.
Proof. apply (code_exists puback_code (fun _ => true) [PAR_Success; PAR_NoMatchingSubscribers; PAR_UnspecifiedError; PAR_ImplementationSpecificError; PAR_NotAuthorized; PAR_TopicNameInvalid; PAR_PacketIdentifierInUse; PAR_QuotaExceeded; PAR_PayloadFormatInvalid]). reflexivity. Qed.
Lemma pubrec_found c : In c puback_codes -> exists a, pubrec_code a = c /\ (fun _ => true) a = true.
Proof. apply (code_exists pubrec_code (fun _ => true) [PRR_Success; PRR_NoMatchingSubscribers; PRR_UnspecifiedError; PRR_ImplementationSpecificError; PRR_NotAuthorized; PRR_TopicNameInvalid; PRR_PacketIdentifierInUse; PRR_QuotaExceeded; PRR_PayloadFormatInvalid]). reflexivity. Qed.
Lemma pubrel_found c : In c pubrel_codes -> exists a, pubrel_code a = c /\ (fun _ => true) a = true.
Proof. apply (code_exists pubrel_code (fun _ => true) [PLR_Success; PLR_PacketIdentifierNotFound]). reflexivity. Qed.
Lemma pubcomp_found c : In c pubrel_codes -> exists a, pubcomp_code a = c /\ (fun _ => true) a = true.
Proof. apply (code_exists pubcomp_code (fun _ => true) [PCR_Success; PCR_PacketIdentifierNotFound]). reflexivity. Qed.
Lemma suback_found c : In c suback_codes -> exists a, suback_code a = c /\ (fun _ => true) a = true.
Proof. apply (code_exists suback_code (fun _ => true) [SRC_Success AtMostOnce; SRC_Success AtLeastOnce; SRC_Success ExactlyOnce; SRC_Unspecified; SRC_ImplementationSpecific; SRC_NotAuthorized; SRC_TopicFilterInvalid; SRC_PkidInUse; SRC_QuotaExceeded; SRC_SharedSubscriptionsNotSupported; SRC_SubscriptionIdNotSupported; SRC_WildcardSubscriptionsNotSupported]). reflexivity. Qed.
Lemma unsuback_found c : In c unsuback_codes -> exists a, unsuback_code a = c /\ (fun _ => true) a = true.
Proof. apply (code_exists unsuback_code (fun _ => true) [UAR_Success; UAR_NoSubscriptionExisted; UAR_UnspecifiedError; UAR_ImplementationSpecificError; UAR_NotAuthorized; UAR_TopicFilterInvalid; UAR_PacketIdentifierInUse]). reflexivity. Qed.
Lemma disconnect_found c : In c disconnect_codes -> exists a, disconnect_code a = c /\ (fun _ => true) a = true.
Proof. apply (code_exists disconnect_code (fun _ => true) [DRC_NormalDisconnection; DRC_DisconnectWithWillMessage; DRC_UnspecifiedError; DRC_MalformedPacket; DRC_ProtocolError; DRC_ImplementationSpecificError; DRC_NotAuthorized; DRC_ServerBusy; DRC_ServerShuttingDown; DRC_KeepAliveTimeout; DRC_SessionTakenOver; DRC_TopicFilterInvalid; DRC_TopicNameInvalid; DRC_ReceiveMaximumExceeded; DRC_TopicAliasInvalid; DRC_PacketTooLarge; DRC_MessageRateTooHigh; DRC_QuotaExceeded; DRC_AdministrativeAction; DRC_PayloadFormatInvalid; DRC_RetainNotSupported; DRC_QoSNotSupported; DRC_UseAnotherServer; DRC_ServerMoved; DRC_SharedSubscriptionNotSupported; DRC_ConnectionRateExceeded; DRC_MaximumConnectTime; DRC_SubscriptionIdentifiersNotSupported; DRC_WildcardSubscriptionsNotSupported]). reflexivity. Qed.
Lemma codes_found {A} (f : A -> N) codes l : (forall c, In c codes -> exists a, f a = c /\ true = true) ->
  Forall (fun c => In c codes) l -> exists rs, map f rs = l.
Proof.
  intros H. induction 1 as [|c l Hc Hl (rs & <-)]; [exists []; reflexivity|].
  destruct (H c Hc) as (a & <- & _). exists (a :: rs). reflexivity.
Qed.
Lemma bytes_of_codes l : fields_bytes (map FByte l) = l.
Proof. induction l as [|x l IH]; [reflexivity|]. cbn [map]. rewrite fields_bytes_cons, IH. reflexivity. Qed.
Lemma qos_found n : n <= 2 -> exists q, qos_num q = n.
Proof.
  intros H. destruct (N.eqb_spec n 0) as [->|]; [exists AtMostOnce; reflexivity|].
  destruct (N.eqb_spec n 1) as [->|]; [exists AtLeastOnce; reflexivity|]. exists ExactlyOnce. cbn [qos_num]. lia.
Qed.
Lemma retain_found n : n <= 2 -> exists r, match r with OnEverySubscribe => 0 | OnNewSubscribe => 1 | Never => 2 end = n.
Proof.
  intros H. destruct (N.eqb_spec n 0) as [->|]; [exists OnEverySubscribe; reflexivity|].
  destruct (N.eqb_spec n 1) as [->|]; [exists OnNewSubscribe; reflexivity|]. exists Never. lia.
Qed.

(** ---------- Bodies ---------- *)

Lemma filters_standard ft subs : Forall well_formed_subscription subs ->
  exists fs, list_wire (filter_wire ft) fs (fields_bytes (flat_map (fun s => [FBin (sb_filter s); FByte (options_byte s)]) subs))
    /\ Forall2 says_filter fs subs.
Proof.
  induction 1 as [|s subs (Ht & Hq & Hr) Hs (fs & IH1 & IH2)]; [exists []; split; constructor|].
  destruct (qos_found _ Hq) as (q & Eq). destruct (retain_found _ Hr) as (r & Er).
  set (f := mkFilter (sb_filter s) q (sb_no_local s) (sb_retain_as_published s) r).
  assert (Ef : filter_options f = options_byte s).
  { unfold filter_options, options_byte, f. cbn [fi_qos fi_nolocal fi_preserve_retain fi_retain_forward_rule]. rewrite Eq, Er. reflexivity. }
  destruct (filter_options_bits f) as (B1 & B2 & B3 & B4 & B5). rewrite Ef in *.
  exists (f :: fs). split.
  - cbn [flat_map]. rewrite fields_bytes_app. constructor; [|exact IH1].
    exists (field_bytes (FBin (sb_filter s))), (options_byte s). rewrite fields_bytes_cons, fields_bytes_one.
    split; [reflexivity|]. split; [exact B1|]. split; [apply string_wire; exact Ht|]. auto.
  - constructor; [|exact IH2]. unfold says_filter, f. cbn [fi_path fi_qos fi_nolocal fi_preserve_retain fi_retain_forward_rule]. auto.
Qed.
Lemma topics_standard ft l : Forall mqtt_string l -> list_wire (str_wire ft) l (fields_bytes (map FBin l)).
Proof.
  induction 1 as [|s l Hs Hl IH]; [constructor|]. cbn [map]. rewrite fields_bytes_cons. constructor; [|exact IH].
  apply string_wire. exact Hs.
Qed.
Lemma ack_standard {A} ft (of : list item -> A) (items : A -> list item) t id code props l :
  (forall l, well_formed_props ack_allowed [38] l -> same_props (items (of l)) l) ->
  id < 65536 -> well_formed_props ack_allowed [38] props -> layout (MAck t id code props) l ->
  exists o, ack_wire ft of id code o (fields_bytes l) /\ same_props (opt_items items o) props.
Proof.
  intros Hs Hid Hp Hl. assert (U : u16_wire id (u16be id)) by (split; [exact Hid|reflexivity]).
  inversion Hl; subst.
  - destruct (section_standard ft ack_allowed [38] of items props (Hs props) Hp) as (o & Ho1 & Ho2).
    { eapply no_identifiers; [|exact Hp]. not11. }
    exists o. split; [|exact Ho2]. exists (u16be id). split; [exact U|]. right. right.
    exists (fields_bytes (section_fields props)), []. rewrite app_nil_r. split; [reflexivity|]. split; [constructor|exact Ho1].
  - exists None. split; [|intros ?; reflexivity]. exists (u16be id). split; [exact U|]. right. left. split; reflexivity.
  - exists None. split; [|intros ?; reflexivity]. exists (u16be id). split; [exact U|]. left. repeat split.
Qed.
Lemma flags_standard clean w user password q :
  (match w with Some w => qos_num q = wi_qos w | None => True end) ->
  let flags := flags_byte clean w user password in
  flags < 256 /\ clean = N.testbit flags 1
  /\ (match w with
      | None => N.testbit flags 2 = false /\ (flags / 8) mod 8 = 0
      | Some w => N.testbit flags 2 = true /\ qos_num q = (flags / 8) mod 4 /\ wi_retain w = N.testbit flags 5
      end)
  /\ N.testbit flags 7 = is_some user /\ N.testbit flags 6 = is_some password.
Proof.
  intros H. unfold flags_byte. destruct w as [w|]; [rewrite <- H; destruct (wi_retain w), q|];
    destruct clean, (is_some user), (is_some password); repeat split; reflexivity.
Qed.
Lemma will_standard ft flags w q :
  (match w with Some w => qos_num q = wi_qos w | None => True end) -> if_some well_formed_will w ->
  (match w with
   | None => N.testbit flags 2 = false /\ (flags / 8) mod 8 = 0
   | Some w => N.testbit flags 2 = true /\ qos_num q = (flags / 8) mod 4 /\ wi_retain w = N.testbit flags 5
   end) ->
  exists w', will_wire ft flags w'
     (fields_bytes match w with
                   | Some w => section_fields (wi_props w) ++ [FBin (wi_topic w); FBin (wi_payload w)]
                   | None => [] end) /\ says_will w' w.
Proof.
  intros Hq Hw F3. destruct w as [w|].
    - destruct Hw as (_ & Wp & Wt & Wm).
      destruct (section_standard ft will_allowed [38] LastWillProperties_of LastWillProperties_items (wi_props w)
        (LastWillProperties_same (wi_props w)) Wp) as (ow & How1 & How2).
      { eapply no_identifiers; [|exact Wp]. not11. }
      destruct F3 as (F3a & F3b & F3c).
      exists (Some (mkLastWill (wi_topic w) (wi_payload w) q (wi_retain w) ow)). split.
      + cbn [will_wire lw_qos lw_retain lw_properties lw_topic lw_message]. split; [exact F3a|]. split; [exact F3b|]. split; [exact F3c|].
        rewrite fields_bytes_app, fields_bytes_cons, fields_bytes_one.
        do 3 eexists. split; [reflexivity|]. split; [exact How1|]. split; apply binary_wire; [apply string_binary; exact Wt|exact Wm].
      + cbn [says_will lw_qos lw_retain lw_properties lw_topic lw_message]. auto.
    - exists None. split; [|exact I]. cbn [will_wire]. destruct F3. auto.
Qed.
Lemma connect_standard ft clean keep_alive props client_id w user password l :
  well_formed (MConnect clean keep_alive props client_id w user password) -> if_some (text ft) password ->
  layout (MConnect clean keep_alive props client_id w user password) l ->
  exists c w' o, connect_wire ft c w' o (fields_bytes l)
    /\ says (P_Connect c w' o) (MConnect clean keep_alive props client_id w user password).
Proof.
  intros (Hk & Hp & Hc & Hw & Hu & Hpw) Hs Hl. inversion Hl; subst.
  destruct (section_standard ft connect_allowed [38] ConnectProperties_of ConnectProperties_items props
    (ConnectProperties_same props) Hp) as (op & Hop1 & Hop2).
  { eapply no_identifiers; [|exact Hp]. not11. }
  assert (HW : exists q, match w with Some w => qos_num q = wi_qos w | None => True end).
  { destruct w as [w|]; [|exists AtMostOnce; exact I]. apply qos_found. apply Hw. }
  destruct HW as [q Hq].
  destruct (flags_standard clean w user password q Hq) as (F1 & F2 & F3 & F7 & F6).
  set (flags := flags_byte clean w user password) in *.
  destruct (will_standard ft flags w q Hq Hw F3) as (w' & HW1 & HW2).
  set (o := if nonempty (or_empty user) || nonempty (or_empty password) then Some (mkLogin (or_empty user) (or_empty password)) else None).
  assert (HL : login_wire ft flags o (fields_bytes (opt_bin user ++ opt_bin password)) /\ says_login o user password).
  { split.
    - exists (or_empty user), (or_empty password), (fields_bytes (opt_bin user)), (fields_bytes (opt_bin password)).
      split; [apply fields_bytes_app|]. rewrite F7, F6. split; [|split; [|reflexivity]].
      + destruct user as [u|]; cbn [is_some or_empty opt_bin optional_str_wire]; [|auto]. rewrite fields_bytes_one. apply string_wire. exact Hu.
      + destruct password as [u|]; cbn [is_some or_empty opt_bin optional_str_wire]; [|auto]. rewrite fields_bytes_one.
        apply str_enc_wire; [exact Hs|apply small_bin, Hpw].
    - unfold o. destruct (or_empty user) eqn:E1; destruct (or_empty password) eqn:E2; cbn [nonempty orb says_login lo_username lo_password]; auto. }
  destruct HL as [HL1 HL2].
  exists (mkConnect keep_alive client_id clean op), w', o. split.
  - exists flags, (u16be keep_alive), (fields_bytes (section_fields props)), (field_bytes (FBin client_id)). do 2 eexists. exists [].
    split; [|split; [exact F1|split; [constructor|]]].
    2: cbn [co_clean_start co_keep_alive co_properties co_client_id].
    2: split; [exact F2|split; [split; [exact Hk|reflexivity]|split; [exact Hop1|split; [apply string_wire; exact Hc|split; [exact HW1|exact HL1]]]]].
    rewrite (fields_bytes_app [_; _; _; _]), (fields_bytes_app (section_fields props)), (fields_bytes_app [FBin client_id]), fields_bytes_one.
    rewrite (fields_bytes_app match w with Some _ => _ | None => _ end), app_nil_r. fold flags. reflexivity.
  - cbn [says co_clean_start co_keep_alive co_properties co_client_id]. auto 10.
Qed.

Lemma three_bytes code : blen ([224] ++ varint (blen [code]) ++ [code]) = 3.
Proof. reflexivity. Qed.

Lemma body_standard ft m l f : well_formed m -> layout m l -> supported ft m f ->
  f = [type_and_flags m] ++ varint (blen (fields_bytes l)) ++ fields_bytes l ->
  exists p, body_wire ft (type_and_flags m) p (fields_bytes l) /\ says p m.
Proof.
  intros Hw Hl Hs Hf. destruct m as [clean ka props cid w u pw|pres code props|dup qos retain topic id props payload|t id code props
    |id props subs|id props codes|id props fs|id props codes| | |code props|code props]; cbn [supported] in Hs.
  - destruct (connect_standard ft clean ka props cid w u pw l Hw Hs Hl) as (c & w' & o & H1 & H2).
    exists (P_Connect c w' o). split; [|exact H2]. split; [reflexivity|exact H1].
  - destruct Hw as [Hc Hp]. destruct (connack_found _ Hc) as (c & Ec & El). apply negb_true_iff in El.
    destruct (section_standard ft connack_allowed [38] ConnAckProperties_of ConnAckProperties_items props
      (ConnAckProperties_same props) Hp) as (o & Ho1 & Ho2). { eapply no_identifiers; [|exact Hp]. not11. }
    inversion Hl; subst. exists (P_ConnAck (mkConnAck pres c o)). split; [|cbn [says ck_session_present ck_code ck_properties]; auto].
    split; [reflexivity|]. rewrite fields_bytes_app.
    exists (bit pres 1), (fields_bytes (section_fields props)), []. cbn [ck_session_present ck_code ck_properties].
    split; [rewrite app_nil_r; reflexivity|]. split; [destruct pres; reflexivity|]. split; [constructor|].
    split; [exact El|]. split; [destruct pres; reflexivity|exact Ho1].
  - destruct Hw as (Hq & Ht & Hid & Hp & Hb). destruct (qos_found _ Hq) as (q & Eq).
    destruct (section_standard ft publish_allowed [11; 38] PublishProperties_of PublishProperties_items props
      (PublishProperties_same props) Hp Hs) as (o & Ho1 & Ho2).
    inversion Hl; subst.
    set (pk := match id with Some n => n | None => 0 end).
    exists (P_Publish (mkPublish dup q retain topic pk payload o)). split.
    2: { cbn [says pu_dup pu_qos pu_retain pu_topic pu_pkid pu_properties pu_payload]. auto 8. }
    pose proof (publish_first_byte (mkPublish dup q retain topic pk payload o)) as (B1 & B2 & B3 & B4 & B5).
    cbn [first_byte pu_dup pu_qos pu_retain] in *. cbn [type_and_flags].
    split; [exact B2|]. split; [exact B3|]. split; [exact B4|]. split; [exact B5|].
    cbn [pu_payload pu_topic pu_pkid pu_qos pu_properties]. split; [exact Hb|].
    exists (field_bytes (FBin topic)), (fields_bytes match id with Some n => [FTwo n] | None => [] end), (fields_bytes (section_fields props)).
    rewrite !fields_bytes_app, !fields_bytes_one. split; [reflexivity|]. split; [apply string_wire; exact Ht|]. split; [|exact Ho1].
    destruct id as [n|]; unfold pk.
    + destruct Hid as (H1 & H2 & H3). destruct q; [exfalso; apply H1; reflexivity| |]; (split; [exact H2|]; split; [exact H3|reflexivity]).
    + destruct q; try discriminate Hid. split; reflexivity.
  - destruct Hw as (Hid & Hc & Hp). destruct t; cbn [ack_codes] in Hc.
    + destruct (puback_found _ Hc) as (r & <- & _).
      destruct (ack_standard ft PubAckProperties_of PubAckProperties_items _ _ _ _ _ PubAckProperties_same Hid Hp Hl) as (o & H1 & H2).
      exists (P_PubAck (mkPubAck id r o)). split; [split; [reflexivity|exact H1]|cbn [says pa_pkid pa_reason pa_properties]; auto].
    + destruct (pubrec_found _ Hc) as (r & <- & _).
      destruct (ack_standard ft PubRecProperties_of PubRecProperties_items _ _ _ _ _ PubRecProperties_same Hid Hp Hl) as (o & H1 & H2).
      exists (P_PubRec (mkPubRec id r o)). split; [split; [reflexivity|exact H1]|cbn [says pr_pkid pr_reason pr_properties]; auto].
    + destruct (pubrel_found _ Hc) as (r & <- & _).
      destruct (ack_standard ft PubRelProperties_of PubRelProperties_items _ _ _ _ _ PubRelProperties_same Hid Hp Hl) as (o & H1 & H2).
      exists (P_PubRel (mkPubRel id r o)). split; [split; [reflexivity|exact H1]|cbn [says pl_pkid pl_reason pl_properties]; auto].
    + destruct (pubcomp_found _ Hc) as (r & <- & _).
      destruct (ack_standard ft PubCompProperties_of PubCompProperties_items _ _ _ _ _ PubCompProperties_same Hid Hp Hl) as (o & H1 & H2).
      exists (P_PubComp (mkPubComp id r o)). split; [split; [reflexivity|exact H1]|cbn [says pc_pkid pc_reason pc_properties]; auto].
  - destruct Hw as (Hid & Hp & Hsub & Hne).
    destruct (section_standard ft subscribe_allowed [38] SubscribeProperties_of SubscribeProperties_items props
      (SubscribeProperties_same props) Hp) as (o & Ho1 & Ho2). { eapply one_identifier; [|exact Hp]. not11. }
    destruct (filters_standard ft subs Hsub) as (fs & Hf1 & Hf2).
    inversion Hl; subst. exists (P_Subscribe (mkSubscribe id fs o)). split; [|cbn [says su_pkid su_filters su_properties]; auto].
    split; [reflexivity|]. rewrite !fields_bytes_app, fields_bytes_one. do 3 eexists. split; [reflexivity|].
    cbn [su_pkid su_filters su_properties]. split; [split; [exact Hid|reflexivity]|]. split; [exact Ho1|]. split; [exact Hf1|].
    intros ->. inversion Hf2; subst. auto.
  - destruct Hw as (Hid & Hp & Hc & Hne). destruct (codes_found _ _ _ suback_found Hc) as (rs & Er).
    destruct (section_standard ft ack_allowed [38] SubAckProperties_of SubAckProperties_items props
      (SubAckProperties_same props) Hp) as (o & Ho1 & Ho2). { eapply no_identifiers; [|exact Hp]. not11. }
    inversion Hl; subst. exists (P_SubAck (mkSubAck id rs o)). split; [|cbn [says sa_pkid sa_return_codes sa_properties]; auto].
    split; [reflexivity|]. rewrite !fields_bytes_app, fields_bytes_one, bytes_of_codes. do 2 eexists. split; [reflexivity|].
    cbn [sa_pkid sa_return_codes sa_properties]. split; [split; [exact Hid|reflexivity]|]. split; [exact Ho1|].
    intros ->. auto.
  - destruct Hw as (Hid & Hp & Ht & Hne).
    destruct (section_standard ft unsubscribe_allowed [38] UnsubscribeProperties_of UnsubscribeProperties_items props
      (UnsubscribeProperties_same props) Hp) as (o & Ho1 & Ho2). { eapply no_identifiers; [|exact Hp]. not11. }
    inversion Hl; subst. exists (P_Unsubscribe (mkUnsubscribe id fs o)). split; [|cbn [says un_pkid un_filters un_properties]; auto].
    split; [reflexivity|]. rewrite !fields_bytes_app, fields_bytes_one. do 3 eexists. split; [reflexivity|].
    cbn [un_pkid un_filters un_properties]. split; [split; [exact Hid|reflexivity]|]. split; [exact Ho1|apply topics_standard; exact Ht].
  - destruct Hw as (Hid & Hp & Hc & Hne). destruct (codes_found _ _ _ unsuback_found Hc) as (rs & Er).
    destruct (section_standard ft ack_allowed [38] UnsubAckProperties_of UnsubAckProperties_items props
      (UnsubAckProperties_same props) Hp) as (o & Ho1 & Ho2). { eapply no_identifiers; [|exact Hp]. not11. }
    inversion Hl; subst. exists (P_UnsubAck (mkUnsubAck id rs o)). split; [|cbn [says ua_pkid ua_reasons ua_properties]; auto].
    split; [reflexivity|]. rewrite !fields_bytes_app, fields_bytes_one, bytes_of_codes. do 2 eexists. split; [reflexivity|].
    cbn [ua_pkid ua_reasons ua_properties]. split; [split; [exact Hid|reflexivity]|]. split; [exact Ho1|].
    intros ->. auto.
  - inversion Hl; subst. exists P_PingReq. split; [split; [reflexivity|constructor]|exact I].
  - inversion Hl; subst. exists P_PingResp. split; [split; [reflexivity|constructor]|exact I].
  - destruct Hw as [Hc Hp]. destruct (disconnect_found _ Hc) as (r & <- & _). remember (disconnect_code r) as code eqn:Ec.
    inversion Hl; subst l.
    + destruct (section_standard ft disconnect_allowed [38] DisconnectProperties_of DisconnectProperties_items props
        (DisconnectProperties_same props) Hp) as (o & Ho1 & Ho2). { eapply no_identifiers; [|exact Hp]. not11. }
      exists (P_Disconnect (mkDisconnect r o)). split; [|cbn [says di_reason_code di_properties]; auto].
      split; [reflexivity|]. right. rewrite fields_bytes_app, fields_bytes_one.
      exists (fields_bytes (section_fields props)), []. cbn [di_reason_code di_properties].
      split; [rewrite app_nil_r, <- Ec; reflexivity|]. split; [constructor|exact Ho1].
    + exfalso. subst f. apply Hs. apply three_bytes.
    + subst. exists (P_Disconnect (mkDisconnect DRC_NormalDisconnection None)). split; [|split; [reflexivity|intros ?; reflexivity]].
      split; [reflexivity|]. left. split; reflexivity.
  - destruct Hs.
Qed.

(** ---------- C51 ---------- *)

Lemma props_ok allowed many l : Forall (fun id => id < 256) allowed -> well_formed_props allowed many l ->
  Forall field_ok (section_fields l).
Proof. intros Ha. apply props_fields_ok. apply Forall_forall. exact Ha. Qed.
Ltac ids := repeat (apply Forall_cons; [reflexivity|]); apply Forall_nil.
Lemma code_small codes c : Forall (fun x => x < 256) codes -> In c codes -> c < 256.
Proof. intros H. rewrite Forall_forall in H. apply H. Qed.
Lemma layout_ok m l : well_formed m -> layout m l -> Forall field_ok l.
Proof.
  intros Hw Hl. destruct Hl; cbn [well_formed] in Hw.
  - destruct Hw as (Hk & Hp & Hc & Hwi & Hu & Hpw). constructor; [split; [repeat constructor|vm_compute; discriminate]|].
    constructor; [reflexivity|]. constructor.
    { assert (HW : exists q, match w with Some w => qos_num q = wi_qos w | None => True end).
      { destruct w as [w|]; [|exists AtMostOnce; exact I]. apply qos_found. apply Hwi. }
      destruct HW as [q Hq]. apply (flags_standard clean w user password q Hq). }
    constructor; [exact Hk|]. apply Forall_app. split; [eapply props_ok; [|exact Hp]; ids|].
    apply Forall_cons; [apply string_binary; exact Hc|]. apply Forall_app. split; [|apply Forall_app; split].
    + destruct w as [w|]; [|constructor]. destruct Hwi as (_ & Wp & Wt & Wm). apply Forall_app. split; [eapply props_ok; [|exact Wp]; ids|].
      constructor; [apply string_binary; exact Wt|]. constructor; [exact Wm|constructor].
    + destruct user; [|constructor]. constructor; [apply string_binary; exact Hu|constructor].
    + destruct password; [|constructor]. constructor; [exact Hpw|constructor].
  - destruct Hw as [Hc Hp]. constructor; [destruct present; reflexivity|]. constructor; [eapply code_small; [|exact Hc]; ids|].
    eapply props_ok; [|exact Hp]; ids.
  - destruct Hw as (Hq & Ht & Hid & Hp & Hb). constructor; [apply string_binary; exact Ht|]. apply Forall_app. split; [|apply Forall_app; split].
    + destruct id; [|constructor]. constructor; [apply Hid|constructor].
    + eapply props_ok; [|exact Hp]; ids.
    + constructor; [exact Hb|constructor].
  - destruct Hw as (Hid & Hc & Hp). constructor; [exact Hid|]. constructor; [destruct t; (eapply code_small; [|exact Hc]; ids)|].
    eapply props_ok; [|exact Hp]; ids.
  - destruct Hw as (Hid & Hc & Hp). constructor; [exact Hid|]. constructor; [destruct t; (eapply code_small; [|exact Hc]; ids)|constructor].
  - destruct Hw as (Hid & Hc & Hp). constructor; [exact Hid|constructor].
  - destruct Hw as (Hid & Hp & Hs & _). constructor; [exact Hid|]. apply Forall_app. split; [eapply props_ok; [|exact Hp]; ids|].
    induction Hs as [|s subs (Ht & Hq & Hr) Hs IH]; [constructor|]. cbn [flat_map app]. constructor; [apply string_binary; exact Ht|].
    constructor; [|exact IH]. cbn [field_ok]. unfold options_byte, bit. destruct (sb_no_local s), (sb_retain_as_published s); lia.
  - destruct Hw as (Hid & Hp & Hs & _). constructor; [exact Hid|]. apply Forall_app. split; [eapply props_ok; [|exact Hp]; ids|].
    clear - Hs. induction Hs as [|c l Hc Hs IH]; constructor; [eapply code_small; [|exact Hc]; ids|exact IH].
  - destruct Hw as (Hid & Hp & Hs & _). constructor; [exact Hid|]. apply Forall_app. split; [eapply props_ok; [|exact Hp]; ids|].
    clear - Hs. induction Hs as [|c l Hc Hs IH]; constructor; [apply string_binary; exact Hc|exact IH].
  - destruct Hw as (Hid & Hp & Hs & _). constructor; [exact Hid|]. apply Forall_app. split; [eapply props_ok; [|exact Hp]; ids|].
    clear - Hs. induction Hs as [|c l Hc Hs IH]; constructor; [eapply code_small; [|exact Hc]; ids|exact IH].
  - constructor.
  - constructor.
  - destruct Hw as [Hc Hp]. constructor; [eapply code_small; [|exact Hc]; ids|]. eapply props_ok; [|exact Hp]; ids.
  - destruct Hw as [Hc Hp]. constructor; [eapply code_small; [|exact Hc]; ids|constructor].
  - constructor.
  - destruct Hw as [Hc Hp]. constructor; [eapply code_small; [|exact Hc]; ids|]. eapply props_ok; [|exact Hp]; ids.
  - destruct Hw as [Hc Hp]. constructor; [eapply code_small; [|exact Hc]; ids|constructor].
  - constructor.
Qed.
Lemma type_ok m : well_formed m -> type_and_flags m < 256.
Proof.
  destruct m as [clean ka props cid w u pw|pres code props|dup qos retain topic id props payload|[] id code props
    |id props subs|id props codes|id props fs|id props codes| | |code props|code props]; intros H; try reflexivity.
  destruct H as [H _]. cbn [type_and_flags]. destruct dup, retain; cbn [bit]; lia.
Qed.
(** A standard frame, taken apart. *)
Lemma standard_framed m f : standard_frame m f -> well_formed m /\ exists l, layout m l
  /\ framed (type_and_flags m) (fields_bytes l) f /\ bytes_ok (fields_bytes l) /\ type_and_flags m < 256
  /\ f = [type_and_flags m] ++ varint (blen (fields_bytes l)) ++ fields_bytes l.
Proof.
  intros (Hw & l & Hl & Hn & Hf). split; [exact Hw|]. exists l. split; [exact Hl|].
  pose proof (fields_ok_bytes _ (layout_ok _ _ Hw Hl)) as Hb. split; [|split; [exact Hb|split; [apply type_ok; exact Hw|exact Hf]]].
  exists (varint (blen (fields_bytes l))). split; [exact Hf|]. apply varint_is_wire. exact Hn.
Qed.

Lemma within_frame max byte1 body f : framed byte1 body f -> within max (blen f) -> within max (blen body).
Proof.
  intros (lb & -> & _). destruct max as [m|]; [|auto]. cbn [within]. rewrite blen_cons, blen_app. lia.
Qed.

(** Every frame that the standard allows is read as a packet that says what the frame says, and
    exactly that frame is removed from the stream; except the frames of [supported]. *)
Theorem C51_standard_frames_are_understood ft m f rest max :
  standard_frame m f -> supported ft m f -> bytes_ok rest -> within max (blen f) ->
  exists p, Packet_read ft (f ++ rest) max = (Ok p, rest) /\ says p m.
Proof.
  intros Hf Hs Hr Hm. destruct (standard_framed _ _ Hf) as (Hw & l & Hl & F & Hb & Ht & E).
  destruct (body_standard ft m l f Hw Hl Hs E) as (p & Hp & Hsay). exists p. split; [|exact Hsay].
  rewrite (framed_read ft max _ _ _ _ F Hb Hr (within_frame _ _ _ _ F Hm)). f_equal. apply body_wire_ok_read; assumption.
Qed.

(** AUTH is refused. *)
Theorem C51_auth_is_refused ft code props f rest max :
  standard_frame (MAuth code props) f -> bytes_ok rest -> within max (blen f) ->
  Packet_read ft (f ++ rest) max = (Err (InvalidPacketType 15), rest).
Proof.
  intros Hf Hr Hm. destruct (standard_framed _ _ Hf) as (Hw & l & Hl & F & Hb & Ht & E).
  rewrite (framed_read ft max _ _ _ _ F Hb Hr (within_frame _ _ _ _ F Hm)). reflexivity.
Qed.
(** The DISCONNECT of three bytes (reason code, no property length) is refused with a request
    for one more byte, although it is complete. *)
Theorem C51_short_disconnect_is_refused ft code props f rest max :
  standard_frame (MDisconnect code props) f -> blen f = 3 -> bytes_ok rest -> within max (blen f) ->
  f = [224; 1; code] /\ Packet_read ft (f ++ rest) max = (Err (InsufficientBytes 1), rest).
Proof.
  intros Hf H3 Hr Hm. destruct (standard_framed _ _ Hf) as (Hw & l & Hl & F & Hb & Ht & E).
  assert (B : fields_bytes l = [code]).
  { destruct Hw as [Hc _]. remember (MDisconnect code props) as m eqn:Em. destruct Hl; try discriminate Em; injection Em as ? ?; subst.
    - exfalso. cbn [app type_and_flags] in H3. unfold section_fields in H3. rewrite !fields_bytes_cons in H3.
      rewrite !blen_cons, !blen_app in H3. change (blen (field_bytes (FByte code))) with 1 in H3.
      assert (V : forall n, 1 <= blen (varint n)).
      { intros n. unfold varint. destruct (_ <? _); [vm_compute; discriminate|]. destruct (_ <? _); [vm_compute; discriminate|].
        destruct (_ <? _); vm_compute; discriminate. }
      pose proof (V (blen (fields_bytes (items_fields props)))) as V1. change (field_bytes (FVar ?n)) with (varint n) in H3.
      match type of H3 with context [blen (varint ?n)] => pose proof (V n) end. lia.
    - reflexivity.
    - exfalso. discriminate H3. }
  rewrite B in *. split; [exact E|].
  rewrite (framed_read ft max _ _ _ _ F Hb Hr (within_frame _ _ _ _ F Hm)). f_equal. apply body_err; auto.
  right. split; [reflexivity|]. right. destruct Hw as [Hc _]. destruct (disconnect_found _ Hc) as (r & Hr' & _).
  split; [exists r; exact Hr'|]. left. left. split; [|reflexivity]. split; [reflexivity|constructor].
Qed.
(** A password that is not UTF-8 is refused, unless strings are binary. *)
Theorem C51_binary_password_is_refused ft clean keep_alive props client_id w user password f rest max :
  standard_frame (MConnect clean keep_alive props client_id w user (Some password)) f ->
  ft <> F_binary -> ~ utf8 password -> bytes_ok rest -> within max (blen f) ->
  Packet_read ft (f ++ rest) max = (Err TopicNotUtf8, rest).
Proof.
  intros Hf Hft Hu8 Hr Hm. destruct (standard_framed _ _ Hf) as (Hw & l & Hl & F & Hb & Ht & E).
  rewrite (framed_read ft max _ _ _ _ F Hb Hr (within_frame _ _ _ _ F Hm)). f_equal. apply body_err; auto.
  destruct Hw as (Hk & Hp & Hc & Hwi & Hu & Hpw).
  (* The frame without the password is understood up to the password. *)
  assert (Hw0 : well_formed (MConnect clean keep_alive props client_id w user None)).
  { repeat split; try assumption; try apply Hp; try apply Hc. }
  inversion Hl; subst. clear Hl.
  destruct (section_standard ft connect_allowed [38] ConnectProperties_of ConnectProperties_items props
    (ConnectProperties_same props) Hp) as (op & (ip & Hip & _) & _).
  { eapply no_identifiers; [|exact Hp]. not11. }
  assert (HW : exists q, match w with Some w => qos_num q = wi_qos w | None => True end).
  { destruct w as [w|]; [|exists AtMostOnce; exact I]. apply qos_found. apply Hwi. }
  destruct HW as [q Hq].
  destruct (flags_standard clean w user (Some password) q Hq) as (F1 & F2 & F3 & F7 & F6).
  set (flags := flags_byte clean w user (Some password)) in *.
  destruct (will_standard ft flags w q Hq Hwi F3) as (w' & HW1 & _).
  right. split; [destruct client_id; discriminate|].
  rewrite (fields_bytes_app [_; _; _; _]), (fields_bytes_app (section_fields props)), (fields_bytes_app [FBin client_id]), fields_bytes_one.
  rewrite (fields_bytes_app match w with Some _ => _ | None => _ end), (fields_bytes_app (opt_bin user)).
  right. exists mqtt, (field_bytes (FBin mqtt)), (5 :: flags :: u16be keep_alive ++ fields_bytes (section_fields props) ++ field_bytes (FBin client_id)
    ++ fields_bytes match w with
                   | Some w => section_fields (wi_props w) ++ [FBin (wi_topic w); FBin (wi_payload w)]
                   | None => [] end ++ fields_bytes (opt_bin user) ++ fields_bytes (opt_bin (Some password))).
  split; [reflexivity|]. split; [apply string_wire; split; [|vm_compute; discriminate]; exists mqtt; split; [repeat constructor|reflexivity]|].
  right. exists 5, [5]. eexists. split; [reflexivity|]. split; [reflexivity|].
  right. split; [reflexivity|]. right. split; [reflexivity|].
  right. exists flags, [flags]. eexists. split; [reflexivity|]. split; [reflexivity|].
  right. exists keep_alive, (u16be keep_alive). eexists. split; [reflexivity|]. split; [split; [exact Hk|reflexivity]|].
  right. eexists _, _, _. split; [reflexivity|]. split; [exact Hip|].
  right. eexists _, _, _. split; [reflexivity|]. split; [apply string_wire; exact Hc|].
  right. eexists _, _, _. split; [reflexivity|]. split; [exact HW1|].
  right. exists (or_empty user), (fields_bytes (opt_bin user)), (fields_bytes (opt_bin (Some password))). split; [reflexivity|]. split.
  - rewrite F7. destruct user as [u|]; cbn [is_some or_empty opt_bin optional_str_wire]; [|auto]. rewrite fields_bytes_one. apply string_wire. exact Hu.
  - rewrite F6. right. split; [exact Hft|]. split; [reflexivity|]. exists password, (field_bytes (FBin password)), [].
    split; [reflexivity|]. split; [|exact Hu8]. apply binary_wire. exact Hpw.
Qed.

Lemma utf8_dec s : utf8 s \/ ~ utf8 s.
Proof. rewrite <- from_utf8_iff. destruct (from_utf8 s); [left; reflexivity|right; discriminate]. Qed.
Lemma identifiers_fit_dec l : identifiers_fit_in l \/ ~ identifiers_fit_in l.
Proof.
  destruct l as [|x l] using rev_ind; [left; intros before last X; destruct before; discriminate X|clear IHl].
  destruct (N.ltb_spec (N.of_nat (length (filter (has_id 11) l))) (blen (fields_bytes (item_fields x)))) as [H|H].
  - left. intros before last X. apply app_inj_tail in X. destruct X as [<- <-]. exact H.
  - right. intros X. specialize (X l x eq_refl). lia.
Qed.
Lemma well_formed_prefix allowed many a b : well_formed_props allowed many (a ++ b) -> well_formed_props allowed many a.
Proof.
  intros (H1 & H2 & H3). split; [|split].
  - apply Forall_app in H1. apply H1.
  - intros id Hid. specialize (H2 id Hid). rewrite filter_app, app_length in H2. lia.
  - unfold items_fields in *. rewrite flat_map_app, fields_bytes_app, blen_app in H3. unfold items_fields. lia.
Qed.
Lemma spell_split l : forall kept lost, spell l = kept ++ lost ->
  exists a b, l = a ++ b /\ kept = spell a /\ lost = spell b.
Proof.
  intros kept lost H. unfold spell in H. apply map_eq_app in H. destruct H as (a & b & -> & <- & <-). exists a, b. auto.
Qed.
Lemma identifiers_spell l : Forall (fun i => property_kind (fst i) = Some (value_kind (snd i))) l ->
  identifiers (spell l) = N.of_nat (length (filter (has_id 11) l)).
Proof.
  intros _. unfold identifiers, spell. f_equal. induction l as [|i l IH]; [reflexivity|]. cbn [map filter fst].
  unfold has_id at 1. destruct (fst i =? 11); cbn [length]; congruence.
Qed.
Lemma fit_spell l : Forall (fun i => property_kind (fst i) = Some (value_kind (snd i))) l ->
  identifiers_fit (spell l) <-> identifiers_fit_in l.
Proof.
  intros Hk. split.
  - intros H before x ->. specialize (H (spell before) (x, fields_bytes (item_fields x))). cbn [snd] in H.
    rewrite identifiers_spell in H by (apply Forall_app in Hk; apply Hk). apply H. apply spell_app.
  - intros H before s E. apply spell_split in E. destruct E as (a & b & -> & -> & E).
    destruct b as [|x [|y b]]; try discriminate E. unfold spell in E at 1. cbn [map] in E.
    assert (Ex : s = (x, fields_bytes (item_fields x))) by congruence. subst s. cbn [snd].
    rewrite identifiers_spell by (apply Forall_app in Hk; apply Hk). apply H. reflexivity.
Qed.

(** A PUBLISH whose subscription identifiers do not fit is accepted, but some of its last
    properties are taken for the beginning of the payload. *)
Theorem C51_many_identifiers_are_misread ft dup qos retain topic id props payload f rest max :
  standard_frame (MPublish dup qos retain topic id props payload) f -> ~ identifiers_fit_in props ->
  bytes_ok rest -> within max (blen f) ->
  exists kept lost q, props = kept ++ lost /\ lost <> []
    /\ Packet_read ft (f ++ rest) max = (Ok q, rest)
    /\ says q (MPublish dup qos retain topic id kept (fields_bytes (items_fields lost) ++ payload)).
Proof.
  intros Hf Hn Hr Hm. destruct (standard_framed _ _ Hf) as (Hw & l & Hl & F & Hb & Ht & E).
  pose proof Hw as (Hq & Hto & Hid & Hp & Hpay). destruct (qos_found _ Hq) as (q & Eq).
  pose proof (props_items_ok ft _ _ _ Hp) as (Hwk & Hi & He). apply enc_cons in He. destruct He as [He0 He].
  pose proof (spell_wire ft publish_allowed props Hwk Hi He) as Hsp.
  assert (Hne : props <> []). { intros ->. apply Hn. intros before last X. destruct before; discriminate X. }
  assert (Hne' : spell props <> []) by (destruct props; [congruence|discriminate]).
  assert (Hk : Forall (fun i => property_kind (fst i) = Some (value_kind (snd i))) props) by (eapply Forall_impl; [|exact Hwk]; intros i Hx; apply Hx).
  set (d := blen (fields_bytes (items_fields props))).
  assert (Hd : 0 < d).
  { unfold d. destruct props as [|i r]; [congruence|]. cbn [items_fields flat_map item_fields app]. rewrite fields_bytes_cons, blen_app.
    change (blen (field_bytes (FByte (fst i)))) with 1. lia. }
  assert (Hdt : d <= total (spell props)) by (rewrite (total_count _ _ _ Hsp); rewrite spell_bytes; apply N.le_add_r).
  destruct (first_cover (spell props) d Hd Hdt) as (ks & ls & Es & C1 & C2).
  destruct (spell_split _ _ _ Es) as (kept & lost & -> & -> & ->).
  assert (Hlost : lost <> []).
  { intros ->. apply Hn. apply fit_spell; [exact Hk|]. apply (exact_covers _ _ _ Hsp Hne'). rewrite spell_bytes. fold d.
    rewrite app_nil_r. split; assumption. }
  pose proof (well_formed_prefix _ _ _ _ Hp) as Hp1.
  set (pk := match id with Some n => n | None => 0 end).
  set (payload' := fields_bytes (items_fields lost) ++ payload).
  set (p := mkPublish dup q retain topic pk payload' (Some (PublishProperties_of kept))).
  assert (Hl2 : fields_bytes l = field_bytes (FBin topic) ++ fields_bytes match id with Some n => [FTwo n] | None => [] end
                 ++ (varint d ++ fields_bytes (items_fields kept)) ++ payload').
  { inversion Hl; subst. rewrite !fields_bytes_app, !fields_bytes_one. unfold section_fields. rewrite fields_bytes_cons. fold d.
    unfold payload', items_fields. rewrite flat_map_app, fields_bytes_app, <- !app_assoc. reflexivity. }
  exists kept, lost, (P_Publish p). split; [reflexivity|]. split; [exact Hlost|]. split.
  2: { cbn [says p pu_dup pu_qos pu_retain pu_topic pu_pkid pu_properties pu_payload].
       do 5 (split; [solve [auto]|]). split; [|reflexivity]. cbn [opt_items]. apply PublishProperties_same. exact Hp1. }
  rewrite (framed_read ft max _ _ _ _ F Hb Hr (within_frame _ _ _ _ F Hm)). f_equal. apply body_wire_ok_read; [exact Ht|exact Hb|].
  pose proof (publish_first_byte p) as (B1 & B2 & B3 & B4 & B5). cbn [type_and_flags]. cbn [first_byte p pu_dup pu_qos pu_retain] in *.
  rewrite Eq in *. cbn [body_wire]. split; [exact B2|]. split; [exact B3|]. split; [exact B4|]. split; [rewrite <- Eq in B5 |- *; exact B5|].
  rewrite Hl2 in *. apply bytes_ok_app in Hb. destruct Hb as [_ Hb]. apply bytes_ok_app in Hb. destruct Hb as [_ Hb].
  apply bytes_ok_app in Hb. destruct Hb as [_ Hb].
  cbn [pu_payload pu_topic pu_pkid pu_qos pu_properties]. split; [exact Hb|].
  eexists _, _, _. split; [reflexivity|]. split; [apply string_wire; exact Hto|]. split.
  - destruct id as [n|]; unfold pk.
    + destruct Hid as (H1 & H2 & H3). destruct q; [exfalso; apply H1; symmetry; exact Eq| |]; (split; [exact H2|]; split; [exact H3|reflexivity]).
    + destruct q; cbn in Eq; try (rewrite Hid in Eq; discriminate Eq). split; reflexivity.
  - exists (Some kept). split; [|reflexivity]. exists d, (varint d). split; [apply varint_is_wire; apply Hp|]. split; [exact Hd|].
    exists (spell kept). split; [symmetry; apply spell_items|]. split; [rewrite spell_bytes; reflexivity|].
    split; [|split; assumption]. rewrite Es in Hsp. apply Forall_app in Hsp. apply Hsp.
Qed.

(** So the exceptions are exactly these: no other frame of the standard is misunderstood, and
    each of these is. *)
Theorem C51_exactly_the_supported_frames ft m f rest max :
  standard_frame m f -> bytes_ok rest -> within max (blen f) ->
  (exists p, Packet_read ft (f ++ rest) max = (Ok p, rest) /\ says p m) <-> supported ft m f.
Proof.
  intros Hf Hr Hm. split; [|intros Hs; apply C51_standard_frames_are_understood; assumption].
  intros (p & E & Hs).
  destruct m as [clean ka props cid w u pw|pres code props|dup qos retain topic id props payload|t id code props
    |id props subs|id props codes|id props fs|id props codes| | |code props|code props]; cbn [supported]; try exact I.
  - destruct pw as [pw|]; [|exact I]. cbn [if_some]. pose proof Hf as [(_ & _ & _ & _ & _ & Hb & _) _]. split; [exact Hb|].
    assert (U : ft <> F_binary -> utf8 pw).
    { intros Hft. destruct (utf8_dec pw) as [U|U]; [exact U|exfalso].
      pose proof (C51_binary_password_is_refused ft _ _ _ _ _ _ _ f rest max Hf Hft U Hr Hm) as X. congruence. }
    destruct ft; try exact I; apply U; discriminate.
  - destruct (identifiers_fit_dec props) as [X|X]; [exact X|exfalso].
    destruct (C51_many_identifiers_are_misread ft _ _ _ _ _ _ _ f rest max Hf X Hr Hm) as (kept & lost & q & -> & Hl & E' & Hs').
    assert (q = p) by congruence. subst q.
    destruct p as [c w' l|a|p|a| | |s|a|a|a|a|u|a|d]; cbn [says] in Hs, Hs'; try contradiction.
    destruct Hs as (_ & _ & _ & _ & _ & _ & Hpay), Hs' as (_ & _ & _ & _ & _ & _ & Hpay').
    rewrite Hpay in Hpay'. apply (f_equal blen) in Hpay'. rewrite blen_app in Hpay'.
    destruct lost as [|i r]; [congruence|]. cbn [items_fields flat_map item_fields app] in Hpay'. rewrite fields_bytes_cons, blen_app in Hpay'.
    change (blen (field_bytes (FByte (fst i)))) with 1 in Hpay'. lia.
  - intros H3. destruct (C51_short_disconnect_is_refused ft _ _ f rest max Hf H3 Hr Hm) as [_ X]. congruence.
  - pose proof (C51_auth_is_refused ft _ _ f rest max Hf Hr Hm) as X. congruence.
Qed.

(** ---------- C52 ---------- *)

(** What a packet says, read off its fields. *)
Definition view_will (w : LastWill) : will :=
  mkWill (qos_num (lw_qos w)) (lw_retain w) (opt_items LastWillProperties_items (lw_properties w)) (lw_topic w) (lw_message w).
Definition view_text (s : bytes) : option bytes := if nonempty s then Some s else None.
Definition view_filter (f : Filter) : subscription :=
  mkSubscription (fi_path f) (qos_num (fi_qos f)) (fi_nolocal f) (fi_preserve_retain f)
    match fi_retain_forward_rule f with OnEverySubscribe => 0 | OnNewSubscribe => 1 | Never => 2 end.
Definition view (p : Packet) : message :=
  match p with
  | P_Connect c w l =>
      MConnect (co_clean_start c) (co_keep_alive c) (opt_items ConnectProperties_items (co_properties c)) (co_client_id c)
        (option_map view_will w)
        match l with Some l => view_text (lo_username l) | None => None end
        match l with Some l => view_text (lo_password l) | None => None end
  | P_ConnAck a => MConnAck (ck_session_present a) (connack_code (ck_code a)) (opt_items ConnAckProperties_items (ck_properties a))
  | P_Publish p => MPublish (pu_dup p) (qos_num (pu_qos p)) (pu_retain p) (pu_topic p)
        match pu_qos p with AtMostOnce => None | _ => Some (pu_pkid p) end
        (opt_items PublishProperties_items (pu_properties p)) (pu_payload p)
  | P_PubAck a => MAck TPubAck (pa_pkid a) (puback_code (pa_reason a)) (opt_items PubAckProperties_items (pa_properties a))
  | P_PubRec a => MAck TPubRec (pr_pkid a) (pubrec_code (pr_reason a)) (opt_items PubRecProperties_items (pr_properties a))
  | P_PubRel a => MAck TPubRel (pl_pkid a) (pubrel_code (pl_reason a)) (opt_items PubRelProperties_items (pl_properties a))
  | P_PubComp a => MAck TPubComp (pc_pkid a) (pubcomp_code (pc_reason a)) (opt_items PubCompProperties_items (pc_properties a))
  | P_Subscribe s => MSubscribe (su_pkid s) (opt_items SubscribeProperties_items (su_properties s)) (map view_filter (su_filters s))
  | P_SubAck a => MSubAck (sa_pkid a) (opt_items SubAckProperties_items (sa_properties a)) (map suback_code (sa_return_codes a))
  | P_Unsubscribe u => MUnsubscribe (un_pkid u) (opt_items UnsubscribeProperties_items (un_properties u)) (un_filters u)
  | P_UnsubAck a => MUnsubAck (ua_pkid a) (opt_items UnsubAckProperties_items (ua_properties a)) (map unsuback_code (ua_reasons a))
  | P_PingReq => MPingReq
  | P_PingResp => MPingResp
  | P_Disconnect d => MDisconnect (disconnect_code (di_reason_code d)) (opt_items DisconnectProperties_items (di_properties d))
  end.

Lemma drop_empty_items {A} (f : A -> list item) o : opt_items f (drop_empty f o) = opt_items f o.
Proof. destruct o as [x|]; [|reflexivity]. cbn [drop_empty]. destruct (f x) as [|i l] eqn:E; cbn [nonempty opt_items]; [symmetry; exact E|reflexivity]. Qed.
Lemma same_refl l : same_props l l.
Proof. intros id. reflexivity. Qed.
Lemma view_text_empty s : or_empty (view_text s) = s.
Proof. destruct s; reflexivity. Qed.
Lemma says_view p : legacy_connack p = false -> says (normalize p) (view p).
Proof.
  intros Hl. destruct p as [c w l|a|p|a| | |s|a|a|a|a|u|a|d]; cbn [normalize view says];
    cbn [co_keep_alive co_client_id co_clean_start co_properties ck_session_present ck_code ck_properties
         pu_dup pu_qos pu_retain pu_topic pu_pkid pu_payload pu_properties pa_pkid pa_reason pa_properties
         pr_pkid pr_reason pr_properties pl_pkid pl_reason pl_properties pc_pkid pc_reason pc_properties
         su_pkid su_filters su_properties sa_pkid sa_return_codes sa_properties un_pkid un_filters un_properties
         ua_pkid ua_reasons ua_properties di_reason_code di_properties]; rewrite ?drop_empty_items;
    try exact I; try (repeat split; solve [reflexivity|exact Hl]).
  - do 3 (split; [reflexivity|]). split; [apply same_refl|]. split.
    + destruct w as [w|]; [|exact I]. cbn [option_map says_will normalize_will view_will lw_qos lw_retain lw_properties lw_topic lw_message
        wi_qos wi_retain wi_props wi_topic wi_payload]. rewrite drop_empty_items. do 2 (split; [reflexivity|]). split; [apply same_refl|]. split; reflexivity.
    + destruct l as [l|]; [|split; reflexivity]. cbn [normalize_login].
      destruct (lo_username l) as [|a u] eqn:E1; destruct (lo_password l) as [|b v] eqn:E2; cbn [nonempty orb says_login];
        rewrite ?E1, ?E2, ?view_text_empty; split; reflexivity.
  - do 4 (split; [reflexivity|]). split; [destruct (pu_qos p); reflexivity|]. split; [apply same_refl|reflexivity].
  - split; [reflexivity|]. split; [apply same_refl|]. clear Hl. induction (su_filters s) as [|f fs IH]; constructor; [|exact IH].
    repeat split; reflexivity.
Qed.

(** Properties of a packet are well formed. *)
Lemma num_count id j k o : (length (filter (has_id id) (num j k o)) <= if N.eqb id j then 1 else 0)%nat.
Proof. destruct o; cbn [num filter]; [|cbn [length]; lia]. unfold has_id. cbn [fst]. rewrite N.eqb_sym. destruct (id =? j); cbn [length]; lia. Qed.
Lemma str_count id j k o : (length (filter (has_id id) (str j k o)) <= if N.eqb id j then 1 else 0)%nat.
Proof. destruct o; cbn [str filter]; [|cbn [length]; lia]. unfold has_id. cbn [fst]. rewrite N.eqb_sym. destruct (id =? j); cbn [length]; lia. Qed.
Lemma users_count id l : id <> 38 -> filter (has_id id) (users l) = [].
Proof. intros H. unfold users. induction l as [|[a b] l IH]; [reflexivity|]. cbn [map filter]. unfold has_id at 1. cbn [fst].
  destruct (N.eqb_spec 38 id); [congruence|exact IH]. Qed.
Lemma ids_count id l : id <> 11 -> filter (has_id id) (sub_ids l) = [].
Proof. intros H. unfold sub_ids. induction l as [|a l IH]; [reflexivity|]. cbn [map filter]. unfold has_id at 1. cbn [fst].
  destruct (N.eqb_spec 11 id); [congruence|exact IH]. Qed.
Ltac eqbs := repeat match goal with Hx : context [N.eqb ?a ?b] |- _ =>
  let r := eval vm_compute in (N.eqb a b) in change (N.eqb a b) with r in Hx; cbv beta iota in Hx end.
Ltac counts :=
  let id := fresh "id" in let H := fresh "H" in
  intros id H; rewrite ?filter_app, ?app_length; rewrite ?users_count by (intros ->; apply H; cbn; tauto);
  rewrite ?ids_count by (intros ->; apply H; cbn; tauto); cbn [length];
  repeat match goal with
  | |- context [length (filter (has_id id) (num ?j ?k ?o))] =>
      pose proof (num_count id j k o); generalize dependent (length (filter (has_id id) (num j k o))); intros
  | |- context [length (filter (has_id id) (str ?j ?k ?o))] =>
      pose proof (str_count id j k o); generalize dependent (length (filter (has_id id) (str j k o))); intros
  end;
  repeat match goal with
  | H0 : (_ <= if N.eqb id ?j then _ else _)%nat |- _ => revert H0; destruct (N.eqb_spec id j); intros H0; [subst id; eqbs; lia|]
  end; lia.
Definition counted_once (many : list N) (l : list item) : Prop :=
  forall id, ~ In id many -> (length (filter (has_id id) l) <= 1)%nat.
Lemma nil_once many : counted_once many [].
Proof. intros id _. cbn. lia. Qed.
Lemma opt_once {A} many (f : A -> list item) o : (forall p, counted_once many (f p)) -> counted_once many (opt_items f o).
Proof. intros H. destruct o; [apply H|apply nil_once]. Qed.
Lemma connect_once p : counted_once [38] (ConnectProperties_items p).
Proof. unfold ConnectProperties_items. counts. Qed.
Lemma will_once p : counted_once [38] (LastWillProperties_items p).
Proof. unfold LastWillProperties_items. counts. Qed.
Lemma connack_once p : counted_once [38] (ConnAckProperties_items p).
Proof. unfold ConnAckProperties_items. counts. Qed.
Lemma publish_once p : counted_once [11; 38] (PublishProperties_items p).
Proof. unfold PublishProperties_items. counts. Qed.
Lemma ack_once r u : counted_once [38] (ack_items r u).
Proof. unfold ack_items. counts. Qed.
Lemma subscribe_once p : counted_once [38] (SubscribeProperties_items p).
Proof. unfold SubscribeProperties_items. counts. Qed.
Lemma unsubscribe_once p : counted_once [38] (UnsubscribeProperties_items p).
Proof. unfold UnsubscribeProperties_items. counts. Qed.
Lemma disconnect_once p : counted_once [38] (DisconnectProperties_items p).
Proof. unfold DisconnectProperties_items. counts. Qed.

Lemma text_string s : text F_default s -> field_error (FBin s) = None -> mqtt_string s.
Proof.
  intros [_ H] He. split; [exact H|]. cbn [field_error] in He. destruct (N.leb_spec (blen s) 65535); [assumption|discriminate].
Qed.
Lemma bytes_binary s : bytes_ok s -> field_error (FBin s) = None -> mqtt_binary s.
Proof.
  intros H He. split; [exact H|]. cbn [field_error] in He. destruct (N.leb_spec (blen s) 65535); [assumption|discriminate].
Qed.
Lemma props_written allowed many l : Forall (wk allowed) l -> items_ok F_default l -> enc (section_fields l) ->
  counted_once many l -> well_formed_props allowed many l.
Proof.
  intros Hw Hi He Hc. apply enc_cons in He. destruct He as [H0 He]. split; [|split; [exact Hc|]].
  2: { cbn [field_error] in H0. destruct (N.leb_spec (blen (fields_bytes (items_fields l))) max_varint); [assumption|discriminate]. }
  clear H0 Hc. induction l as [|i l IH]; [constructor|]. apply Forall_cons_iff in Hw. destruct Hw as [[Hw1 Hw2] Hw].
  unfold items_ok in Hi. apply Forall_cons_iff in Hi. destruct Hi as [Hv Hi].
  unfold items_fields in He. cbn [flat_map] in He. unfold enc in He. apply Forall_app in He. destruct He as [He1 He2]. constructor; [|apply IH; assumption].
  split; [exact Hw1|]. split; [exact Hw2|]. unfold item_fields in He1. apply Forall_cons_iff in He1. destruct He1 as [_ He1].
  destruct (snd i); cbn [value_ok well_formed_value value_fields] in *; try exact Hv;
    repeat match goal with H : Forall _ (_ :: _) |- _ => apply Forall_cons_iff in H; destruct H end.
  - cbn [field_error] in H. destruct (N.leb_spec n max_varint); [assumption|discriminate].
  - apply text_string; assumption.
  - apply bytes_binary; assumption.
  - split; apply text_string; tauto.
Qed.
Lemma opt_written {A} (f : A -> list item) o allowed many :
  (forall p, Forall (wk allowed) (f p)) -> (forall p, counted_once many (f p)) ->
  items_ok F_default (opt_items f o) -> enc (section_fields (opt_items f o)) ->
  well_formed_props allowed many (opt_items f o).
Proof.
  intros Hw Hc Hi He. apply props_written; auto; [|apply opt_once; exact Hc]. destruct o; [apply Hw|constructor].
Qed.

Lemma connack_table c : legacy_code c = false -> In (connack_code c) connack_codes.
Proof. destruct c; intros H; try discriminate H; cbn; tauto. Qed.
Lemma disconnect_table c : In (disconnect_code c) disconnect_codes.
Proof. destruct c; cbn; tauto. Qed.
Lemma suback_table c : In (suback_code c) suback_codes.
Proof. destruct c as [[]| | | | | | | | |]; cbn; tauto. Qed.
Lemma unsuback_table c : In (unsuback_code c) unsuback_codes.
Proof. destruct c; cbn; tauto. Qed.
Lemma ack_section_enc pkid code none items : enc (ack_fields pkid code none items) -> (none = true -> items = []) -> enc (section_fields items).
Proof.
  unfold ack_fields. intros H Hn. destruct ((code =? 0) && none) eqn:E.
  - apply andb_true_iff in E. destruct E as [_ E]. rewrite (Hn E). repeat constructor.
  - unfold enc in *. apply Forall_app in H. apply H.
Qed.
Lemma none_items {A} (f : A -> list item) o : is_none o = true -> opt_items f o = [].
Proof. destruct o; [discriminate|reflexivity]. Qed.
Lemma ack_layout t pkid code {A} (f : A -> list item) o :
  exists l, layout (MAck t pkid code (opt_items f o)) l /\ fields_bytes l = fields_bytes (ack_fields pkid code (is_none o) (opt_items f o)).
Proof.
  unfold ack_fields. destruct ((code =? 0) && is_none o) eqn:E.
  - apply andb_true_iff in E. destruct E as [E1 E2]. apply N.eqb_eq in E1. subst code. rewrite none_items by exact E2. eexists. split; [apply lay_ack_success|reflexivity].
  - eexists. split; [apply lay_ack|reflexivity].
Qed.

Lemma view_well_formed p : rust_packet F_default p -> enc (body_fields p) -> bad_disconnect p = false -> legacy_connack p = false ->
  expressible p -> well_formed (view p).
Proof.
  intros Hr He Hb Hl Hx. destruct p as [c w l|a|p|a| | |s|a|a|a|a|u|a|d]; cbn [rust_packet body_fields view well_formed expressible legacy_connack] in *; try exact I.
  - destruct Hr as (Hk & Hc & Hp & Hwi & Hlo). unfold connect_fields in He. unfold enc in He. rewrite !Forall_app in He.
    destruct He as (_ & Hes & Hec & Hew & Hel). apply Forall_cons_iff in Hec. destruct Hec as [Hec _].
    split; [exact Hk|]. split; [apply opt_written; [apply ConnectProperties_items_wk|apply connect_once|exact Hp|exact Hes]|].
    split; [apply text_string; assumption|]. split; [|split].
    + destruct w as [w|]; [|exact I]. destruct (Hwi w eq_refl) as (W1 & W2 & W3). cbn [option_map if_some].
      cbn [will_fields] in Hew. rewrite Forall_app in Hew. destruct Hew as [E1 E2]. apply Forall_cons_iff in E2. destruct E2 as [E2 E3]. apply Forall_cons_iff in E3. destruct E3 as [E3 _].
      split; [cbn [view_will wi_qos]; destruct (lw_qos w); vm_compute; discriminate|]. split; [apply opt_written; [apply LastWillProperties_items_wk|apply will_once|exact W3|exact E1]|].
      split; [|apply bytes_binary; assumption]. split; [exact Hx|]. apply (bytes_binary _ W1 E2).
    + destruct l as [l|]; [|exact I]. destruct (Hlo l eq_refl) as (L1 & L2). cbn [login_fields] in Hel. rewrite Forall_app in Hel. destruct Hel as [E1 E2].
      unfold view_text. destruct (nonempty (lo_username l)); [|exact I]. apply Forall_cons_iff in E1. destruct E1 as [E1 _]. apply text_string; assumption.
    + destruct l as [l|]; [|exact I]. destruct (Hlo l eq_refl) as (L1 & L2). cbn [login_fields] in Hel. rewrite Forall_app in Hel. destruct Hel as [E1 E2].
      unfold view_text. destruct (nonempty (lo_password l)); [|exact I]. apply Forall_cons_iff in E2. destruct E2 as [E2 _]. apply bytes_binary; [apply L2|assumption].
  - unfold enc in He. rewrite Forall_app in He. destruct He as [_ He]. split; [apply connack_table; exact Hl|].
    apply opt_written; [apply ConnAckProperties_items_wk|apply connack_once|exact Hr|exact He].
  - destruct Hr as (Ht & Hpk & Hpay & Hi). unfold enc in He. rewrite !Forall_app in He. destruct He as (E1 & E2 & E3 & _).
    apply Forall_cons_iff in E1. destruct E1 as [E1 _].
    split; [destruct (pu_qos p); vm_compute; discriminate|]. split; [apply text_string; assumption|]. split; [|split; [|exact Hpay]].
    + destruct (pu_qos p); [reflexivity| |]; (split; [discriminate|split; [|exact Hpk]]);
        apply Forall_cons_iff in E2; destruct E2 as [E2 _]; cbn [field_error] in E2; destruct (N.eqb_spec (pu_pkid p) 0); congruence.
    + apply opt_written; [apply PublishProperties_items_wk|apply publish_once|exact Hi|exact E3].
  - destruct Hr as [H1 H2]. split; [exact H1|]. split; [destruct (pa_reason a); cbn; tauto|].
    apply opt_written; [apply PubAckProperties_items_wk|intros q; apply ack_once|exact H2|]. eapply ack_section_enc; [exact He|apply none_items].
  - destruct Hr as (H1 & H2 & H3). unfold enc in He. rewrite !Forall_app in He. destruct He as (_ & E2 & E3).
    split; [exact H1|]. split; [apply opt_written; [apply SubscribeProperties_items_wk|apply subscribe_once|exact H2|exact E2]|]. split.
    + clear Hx. induction (su_filters s) as [|f fs IH]; [constructor|]. cbn [flat_map filter_fields] in E3. apply Forall_app in E3. destruct E3 as [E3 E4].
      apply Forall_cons_iff in H3. destruct H3 as [H3 H4]. apply Forall_cons_iff in E3. destruct E3 as [E3 _]. constructor; [|apply IH; assumption].
      split; [apply text_string; assumption|]. cbn [view_filter sb_qos sb_retain_handling]. split; [destruct (fi_qos f)|destruct (fi_retain_forward_rule f)]; vm_compute; discriminate.
    + intros X. apply map_eq_nil in X. auto.
  - destruct Hr as [H1 H2]. unfold enc in He. rewrite !Forall_app in He. destruct He as (_ & E2 & _). split; [exact H1|].
    split; [apply opt_written; [apply SubAckProperties_items_wk|intros q; apply ack_once|exact H2|exact E2]|].
    split; [|intros X; apply map_eq_nil in X; auto]. apply Forall_map, Forall_forall. intros r _. apply suback_table.
  - destruct Hr as [H1 H2]. split; [exact H1|]. split; [destruct (pr_reason a); cbn; tauto|].
    apply opt_written; [apply PubRecProperties_items_wk|intros q; apply ack_once|exact H2|]. eapply ack_section_enc; [exact He|apply none_items].
  - destruct Hr as [H1 H2]. split; [exact H1|]. split; [destruct (pl_reason a); cbn; tauto|].
    apply opt_written; [apply PubRelProperties_items_wk|intros q; apply ack_once|exact H2|]. eapply ack_section_enc; [exact He|apply none_items].
  - destruct Hr as [H1 H2]. split; [exact H1|]. split; [destruct (pc_reason a); cbn; tauto|].
    apply opt_written; [apply PubCompProperties_items_wk|intros q; apply ack_once|exact H2|]. eapply ack_section_enc; [exact He|apply none_items].
  - destruct Hr as (H1 & H2 & H3). unfold enc in He. rewrite !Forall_app in He. destruct He as (_ & E2 & E3). split; [exact H1|].
    split; [apply opt_written; [apply UnsubscribeProperties_items_wk|apply unsubscribe_once|exact H2|exact E2]|]. split; [|exact Hx].
    apply Forall_map in E3. clear - H3 E3. induction H3 as [|t l Ht H3 IH]; [constructor|]. apply Forall_cons_iff in E3. destruct E3 as [E3 E4].
    constructor; [apply text_string; assumption|auto].
  - destruct Hr as [H1 H2]. unfold enc in He. rewrite !Forall_app in He. destruct He as (_ & E2 & _). split; [exact H1|].
    split; [apply opt_written; [apply UnsubAckProperties_items_wk|intros q; apply ack_once|exact H2|exact E2]|].
    split; [|intros X; apply map_eq_nil in X; auto]. apply Forall_map, Forall_forall. intros r _. apply unsuback_table.
  - split; [apply disconnect_table|]. destruct (nonempty (opt_items DisconnectProperties_items (di_properties d))) eqn:Hn.
    + apply opt_written; [apply DisconnectProperties_items_wk|apply disconnect_once|exact Hr|]. cbn [negb] in He.
      rewrite andb_false_r in He. unfold enc in He. apply Forall_app in He. apply He.
    + destruct (opt_items DisconnectProperties_items (di_properties d)); [|discriminate Hn].
      split; [constructor|]. split; [apply nil_once|vm_compute; discriminate].
Qed.
Lemma view_layout p : enc (body_fields p) -> bad_disconnect p = false ->
  exists l, layout (view p) l /\ fields_bytes l = fields_bytes (body_fields p) /\ type_and_flags (view p) = first_byte p.
Proof.
  intros He Hb. destruct p as [c w l|a|p|a| | |s|a|a|a|a|u|a|d]; cbn [view body_fields first_byte type_and_flags];
    try (destruct (ack_layout TPubAck (pa_pkid a) (puback_code (pa_reason a)) PubAckProperties_items (pa_properties a)) as (l & L1 & L2); exists l; auto; fail);
    try (destruct (ack_layout TPubRec (pr_pkid a) (pubrec_code (pr_reason a)) PubRecProperties_items (pr_properties a)) as (l & L1 & L2); exists l; auto; fail);
    try (destruct (ack_layout TPubRel (pl_pkid a) (pubrel_code (pl_reason a)) PubRelProperties_items (pl_properties a)) as (l & L1 & L2); exists l; auto; fail);
    try (destruct (ack_layout TPubComp (pc_pkid a) (pubcomp_code (pc_reason a)) PubCompProperties_items (pc_properties a)) as (l & L1 & L2); exists l; auto; fail).
  - eexists. split; [apply lay_connect|]. split; [|reflexivity].
    assert (EF : flags_byte (co_clean_start c) (option_map view_will w)
        match l with Some l => view_text (lo_username l) | None => None end
        match l with Some l => view_text (lo_password l) | None => None end = connect_flags (co_clean_start c) w l).
    { unfold flags_byte, connect_flags, view_text. destruct w as [w|]; destruct l as [l|]; cbn [option_map view_will wi_qos wi_retain is_some];
        try destruct (nonempty (lo_username l)); try destruct (nonempty (lo_password l)); cbn [is_some bit]; lia. }
    rewrite EF. unfold connect_fields. f_equal. f_equal. f_equal. f_equal. f_equal.
    { destruct w as [w|]; reflexivity. }
    destruct l as [l|]; [|reflexivity]. unfold login_fields, view_text. destruct (nonempty (lo_username l)), (nonempty (lo_password l)); reflexivity.
  - eexists. split; [apply lay_connack|]. split; reflexivity.
  - eexists. split; [apply lay_publish|]. split; [|reflexivity]. cbn [body_fields] in He. unfold enc in He. rewrite !Forall_app in He. destruct He as (_ & E2 & _).
    rewrite !fields_bytes_app. f_equal. f_equal. destruct (pu_qos p); [reflexivity| |];
      apply Forall_cons_iff in E2; destruct E2 as [E2 _]; cbn [field_error] in E2; rewrite !fields_bytes_one; cbn [field_bytes];
      destruct (pu_pkid p =? 0); [discriminate E2|reflexivity|discriminate E2|reflexivity].
  - eexists. split; [apply lay_pingreq|]. split; reflexivity.
  - eexists. split; [apply lay_pingresp|]. split; reflexivity.
  - eexists. split; [apply lay_subscribe|]. split; [|reflexivity]. f_equal. f_equal. f_equal.
    induction (su_filters s) as [|f fs IH]; [reflexivity|]. cbn [map flat_map filter_fields]. rewrite IH. reflexivity.
  - eexists. split; [apply lay_suback|]. split; [|reflexivity]. rewrite map_map. reflexivity.
  - eexists. split; [apply lay_unsubscribe|]. split; reflexivity.
  - eexists. split; [apply lay_unsuback|]. split; [|reflexivity]. rewrite map_map. reflexivity.
  - cbn [body_fields bad_disconnect] in *. destruct (nonempty (opt_items DisconnectProperties_items (di_properties d))) eqn:Hn.
    + rewrite andb_false_r. eexists. split; [apply lay_disconnect|]. split; reflexivity.
    + destruct (opt_items DisconnectProperties_items (di_properties d)); [|discriminate Hn]. destruct (N.eqb_spec (disconnect_code (di_reason_code d)) 0) as [E|E]; [|discriminate Hb].
      rewrite E. eexists. split; [apply lay_disconnect_normal|]. split; reflexivity.
Qed.

(** Whatever is written, in one piece and from a packet that says something, is a frame of the
    standard and says what the packet says. *)
Theorem C52_written_frames_are_standard p :
  rust_packet F_default p -> encodable p -> bad_disconnect p = false -> legacy_connack p = false -> expressible p ->
  exists m n f, Packet_write p [] = (Ok n, f) /\ n = blen f /\ standard_frame m f /\ says (normalize p) m.
Proof.
  intros Hr He Hb Hl Hx. destruct (encodable_body _ He) as [Heb Hn].
  exists (view p), (blen (encode p)), (encode p). split; [apply (C13_write_is_the_encoding p []); auto|]. split; [reflexivity|].
  split; [|apply says_view; exact Hl]. split; [apply view_well_formed; assumption|].
  destruct (view_layout p Heb Hb) as (l & L1 & L2 & L3). exists l. split; [exact L1|]. rewrite L2. split; [exact Hn|]. rewrite L3. reflexivity.
Qed.

Lemma binary_text s : text F_default s -> text F_binary s.
Proof. intros [H _]. split; [exact H|exact I]. Qed.
Lemma binary_items l : items_ok F_default l -> items_ok F_binary l.
Proof.
  intros H. eapply Forall_impl; [|exact H]. intros i Hv. cbv beta in *. destruct (snd i); cbn [value_ok] in *; try exact Hv;
    [apply binary_text; exact Hv|split; apply binary_text; apply Hv].
Qed.
Lemma type_connect m : type_and_flags m = 16 -> well_formed m -> exists c k ps id w u pw, m = MConnect c k ps id w u pw.
Proof.
  destruct m as [c k ps id w u pw|pres code props|dup qos retain topic id props payload|[] id code props
    |id props subs|id props codes|id props fs|id props codes| | |code props|code props]; cbn [type_and_flags]; intros H Hw; try discriminate H.
  - repeat eexists.
  - exfalso. destruct dup, retain; cbn [bit] in H; lia.
Qed.
Lemma frame_type m byte1 body f : standard_frame m f -> framed byte1 body f -> type_and_flags m = byte1.
Proof. intros (_ & l & _ & _ & ->) (lb & E & _). injection E as E _. exact E. Qed.
Lemma shape_prefix l1 : forall l2 r1 r2, varint_shape l1 -> varint_shape l2 -> l1 ++ r1 = l2 ++ r2 -> l1 = l2 /\ r1 = r2.
Proof.
  induction l1 as [|a l1 IH]; intros l2 r1 r2 H1 H2 E; [destruct H1|]. destruct l2 as [|b l2]; [destruct H2|].
  injection E as <- E. destruct l1 as [|a' l1], l2 as [|b' l2].
  - split; [reflexivity|exact E].
  - exfalso. cbn [varint_shape] in H1, H2. lia.
  - exfalso. cbn [varint_shape] in H1, H2. lia.
  - destruct (IH (b' :: l2) r1 r2) as [E1 E2]; [apply H1|apply H2|exact E|]. split; [f_equal; exact E1|exact E2].
Qed.
Lemma varint_prefix v1 v2 l1 l2 r1 r2 : varint_wire v1 l1 -> varint_wire v2 l2 ->
  l1 ++ r1 = l2 ++ r2 -> v1 = v2 /\ l1 = l2 /\ r1 = r2.
Proof.
  intros (_ & S1 & ->) (_ & S2 & ->) E. destruct (shape_prefix _ _ _ _ S1 S2 E) as [-> ->]. auto.
Qed.
(** A section ends where its length says. *)
Lemma section_ends a b r1 r2 :
  blen (fields_bytes (items_fields a)) <= max_varint -> blen (fields_bytes (items_fields b)) <= max_varint ->
  fields_bytes (section_fields a) ++ r1 = fields_bytes (section_fields b) ++ r2 -> r1 = r2.
Proof.
  intros Ha Hb H. unfold section_fields in H. rewrite !fields_bytes_cons in H. cbn [field_bytes] in H. rewrite <- !app_assoc in H.
  destruct (varint_prefix _ _ _ _ _ _ (varint_is_wire _ Ha) (varint_is_wire _ Hb) H) as (E1 & E2 & E3).
  destruct (blen_app_inv_tail _ _ _ _ E3 E1) as [_ E]. exact E.
Qed.
Lemma standard_body m byte1 body f : standard_frame m f -> framed byte1 body f -> well_formed m
  /\ type_and_flags m = byte1 /\ exists l, layout m l /\ fields_bytes l = body.
Proof.
  intros (Hw & l & Hl & Hn & ->) (lb & E & Hv). split; [exact Hw|]. injection E as E1 E2. split; [exact E1|]. exists l. split; [exact Hl|].
  destruct (varint_prefix _ _ _ _ _ _ (varint_is_wire _ Hn) Hv E2) as (_ & _ & E3). exact E3.
Qed.
Lemma id_then_section id id' a b r :
  blen (fields_bytes (items_fields a)) <= max_varint -> blen (fields_bytes (items_fields b)) <= max_varint ->
  fields_bytes ([FTwo id] ++ section_fields a ++ r) = fields_bytes ([FTwo id'] ++ section_fields b) -> fields_bytes r = [].
Proof.
  intros Ha Hb H. rewrite !fields_bytes_app, !fields_bytes_one in H. cbn [field_bytes] in H.
  destruct (blen_app_inv_tail _ _ _ _ H eq_refl) as [_ H']. apply (section_ends a b); try assumption.
  rewrite app_nil_r. exact H'.
Qed.
Lemma enc_section_small l : enc (section_fields l) -> blen (fields_bytes (items_fields l)) <= max_varint.
Proof.
  intros H. apply enc_cons in H. destruct H as [H _]. cbn [field_error] in H.
  destruct (N.leb_spec (blen (fields_bytes (items_fields l))) max_varint); [assumption|discriminate].
Qed.

(** The packets left out have no standard frame at all. *)
Theorem C52_inexpressible_packets_have_no_standard_frame p m :
  rust_packet F_default p -> encodable p -> bad_disconnect p = false -> legacy_connack p = false ->
  ~ expressible p -> ~ standard_frame m (encode p).
Proof.
  intros Hr He Hb Hl Hx Hf. destruct (encodable_body _ He) as [Heb Hn].
  pose proof (encode_framed _ He) as F. destruct (standard_body _ _ _ _ Hf F) as (Hw & T & lay & Lm & Lb).
  destruct p as [c w l|a|p|a| | |s|a|a|a|a|u|a|d]; cbn [expressible] in Hx; try (apply Hx; exact I).
  - destruct w as [w|]; [|apply Hx; exact I].
    destruct (type_connect _ T Hw) as (c0 & k & ps & id & w0 & u0 & pw & ->).
    destruct (C51_standard_frames_are_understood F_binary _ _ [] None Hf) as (p0 & E0 & S0); [|constructor|exact I|].
    { cbn [supported]. destruct pw as [pw|]; [|exact I]. split; [|exact I]. apply Hw. }
    rewrite encode_read in E0.
    + injection E0 as <-. cbn [normalize says] in S0. destruct S0 as (_ & _ & _ & _ & S0 & _). cbn [option_map] in S0.
      destruct w0 as [w0|]; cbn [says_will] in S0; [|contradiction]. destruct S0 as (_ & _ & _ & S0 & _). cbn [normalize_will lw_topic] in S0.
      apply Hx. rewrite S0. destruct Hw as (_ & _ & _ & (_ & _ & (W & _) & _) & _). exact W.
    + cbn [rust_packet] in *. destruct Hr as (R1 & R2 & R3 & R4 & R5). split; [exact R1|]. split; [apply binary_text; exact R2|]. split; [apply binary_items; exact R3|].
      split.
      * intros w' Ew. destruct (R4 w' Ew) as (A & B & C). auto using binary_items.
      * intros l' El. destruct (R5 l' El) as (A & B). auto using binary_text.
    + exact He.
    + reflexivity.
    + constructor.
    + exact I.
  - destruct m as [c k ps id w u pw|pres code props|dup qos retain topic id props payload|[] id code props
      |id props subs|id props codes|id props fs|id props codes| | |code props|code props]; cbn [type_and_flags first_byte] in T; try discriminate T;
      [exfalso; destruct Hw as [Hq _]; destruct dup, retain; cbn [bit] in T; lia|].
    inversion Lm; subst. cbn [body_fields] in Lb, Heb.
    destruct (su_filters s) as [|x xs] eqn:E; [|apply Hx; discriminate]. cbn [flat_map] in Lb, Heb. rewrite app_nil_r in Lb, Heb.
    unfold enc in Heb. rewrite Forall_app in Heb. destruct Heb as [_ Heb]. destruct Hw as (_ & Hp & _ & Hne).
    apply id_then_section in Lb; [|apply Hp|apply enc_section_small; exact Heb]. destruct subs as [|x xs]; [auto|].
    cbn [flat_map app] in Lb. rewrite fields_bytes_cons in Lb. discriminate Lb.
  - destruct m as [c k ps id w u pw|pres code props|dup qos retain topic id props payload|[] id code props
      |id props subs|id props codes|id props fs|id props codes| | |code props|code props]; cbn [type_and_flags first_byte] in T; try discriminate T;
      [exfalso; destruct Hw as [Hq _]; destruct dup, retain; cbn [bit] in T; lia|].
    inversion Lm; subst. cbn [body_fields] in Lb, Heb.
    destruct (sa_return_codes a) as [|x xs] eqn:E; [|apply Hx; discriminate]. cbn [map] in Lb, Heb. rewrite app_nil_r in Lb, Heb.
    unfold enc in Heb. rewrite Forall_app in Heb. destruct Heb as [_ Heb]. destruct Hw as (_ & Hp & _ & Hne).
    apply id_then_section in Lb; [|apply Hp|apply enc_section_small; exact Heb]. destruct codes as [|x xs]; [auto|].
    discriminate Lb.
  - destruct m as [c k ps id w u' pw|pres code props|dup qos retain topic id props payload|[] id code props
      |id props subs|id props codes|id props fs|id props codes| | |code props|code props]; cbn [type_and_flags first_byte] in T; try discriminate T;
      [exfalso; destruct Hw as [Hq _]; destruct dup, retain; cbn [bit] in T; lia|].
    inversion Lm; subst. cbn [body_fields] in Lb, Heb.
    destruct (un_filters u) as [|x xs] eqn:E; [|apply Hx; discriminate]. cbn [map] in Lb, Heb. rewrite app_nil_r in Lb, Heb.
    unfold enc in Heb. rewrite Forall_app in Heb. destruct Heb as [_ Heb]. destruct Hw as (_ & Hp & _ & Hne).
    apply id_then_section in Lb; [|apply Hp|apply enc_section_small; exact Heb]. destruct fs as [|x xs]; [auto|].
    discriminate Lb.
  - destruct m as [c k ps id w u pw|pres code props|dup qos retain topic id props payload|[] id code props
      |id props subs|id props codes|id props fs|id props codes| | |code props|code props]; cbn [type_and_flags first_byte] in T; try discriminate T;
      [exfalso; destruct Hw as [Hq _]; destruct dup, retain; cbn [bit] in T; lia|].
    inversion Lm; subst. cbn [body_fields] in Lb, Heb.
    destruct (ua_reasons a) as [|x xs] eqn:E; [|apply Hx; discriminate]. cbn [map] in Lb, Heb. rewrite app_nil_r in Lb, Heb.
    unfold enc in Heb. rewrite Forall_app in Heb. destruct Heb as [_ Heb]. destruct Hw as (_ & Hp & _ & Hne).
    apply id_then_section in Lb; [|apply Hp|apply enc_section_small; exact Heb]. destruct codes as [|x xs]; [auto|].
    discriminate Lb.
Qed.
(** The other DISCONNECT shape is written as bytes that are no frame ... *)
Theorem C52_disconnect_without_properties_refuted d m :
  disconnect_code (di_reason_code d) <> 0 -> di_properties d = None ->
  exists f, Packet_write (P_Disconnect d) [] = (Ok 3, f) /\ ~ standard_frame m f.
Proof.
  intros Hd Hp. exists [224; 1; disconnect_code (di_reason_code d); 0]. split; [rewrite bad_disconnect_none; [reflexivity|intros X; apply Hd; rewrite X; reflexivity|exact Hp]|].
  intros (_ & l & _ & Hn & E). injection E as _ E.
  assert (V : varint_wire 1 [1]) by (apply (varint_is_wire 1); unfold max_varint; lia).
  change (1 :: ?x) with ([1] ++ x) in E.
  destruct (varint_prefix _ _ _ _ _ _ V (varint_is_wire _ Hn) E) as (E1 & _ & E2).
  rewrite <- E2 in E1. discriminate E1.
Qed.
(** ... or as the frame of another message. *)
Theorem C52_disconnect_with_empty_properties_refuted d q :
  disconnect_code (di_reason_code d) <> 0 -> di_properties d = Some q -> DisconnectProperties_items q = [] ->
  Packet_write (P_Disconnect d) [] = (Ok 2, [224; 0])
  /\ standard_frame (MDisconnect 0 []) [224; 0]
  /\ forall m, standard_frame m [224; 0] -> ~ says (P_Disconnect d) m.
Proof.
  intros Hd Hq Hi. split; [rewrite (bad_disconnect_empty _ _ _ Hq Hi); reflexivity|]. split.
  - split; [split; [cbn; tauto|split; [constructor|split; [apply nil_once|vm_compute; discriminate]]]|].
    exists []. split; [constructor|]. split; [vm_compute; discriminate|reflexivity].
  - intros m Hf Hs. destruct (standard_body m 224 [] [224; 0] Hf) as (_ & T & l & L & E).
    { exists [0]. split; [reflexivity|]. apply (varint_is_wire 0). unfold max_varint. lia. }
    destruct m; cbn [says] in Hs; try contradiction. destruct Hs as [Hs _].
    inversion L; subst; try discriminate E. congruence.
Qed.

(** ---------- Instances ---------- *)

(** An absent and an empty user name are told apart by the standard but not by the crate. *)
Theorem C51_absent_or_empty_user_refuted ft :
  exists m m' f f' p, m <> m' /\ standard_frame m f /\ standard_frame m' f'
    /\ Packet_read ft f None = (Ok p, []) /\ Packet_read ft f' None = (Ok p, []).
Proof.
  set (m := MConnect true 0 [] [97] None None None). set (m' := MConnect true 0 [] [97] None (Some []) None).
  assert (P0 : well_formed_props connect_allowed [38] []) by (split; [constructor|split; [apply nil_once|vm_compute; discriminate]]).
  assert (S1 : mqtt_string [97]) by (split; [exists [97]; split; [repeat constructor|reflexivity]|vm_compute; discriminate]).
  assert (S0 : mqtt_string []) by (split; [exists []; split; [constructor|reflexivity]|vm_compute; discriminate]).
  exists m, m', ([16; 14; 0; 4] ++ mqtt ++ [5; 2; 0; 0; 0; 0; 1; 97]), ([16; 16; 0; 4] ++ mqtt ++ [5; 130; 0; 0; 0; 0; 1; 97; 0; 0]),
    (P_Connect (mkConnect 0 [97] true None) None None).
  split; [discriminate|]. split; [|split; [|split; destruct ft; reflexivity]].
  - split; [repeat (split; [first [exact P0|exact S1|exact I|reflexivity]|]); exact I|].
    eexists. split; [apply lay_connect|]. split; [vm_compute; discriminate|reflexivity].
  - split; [repeat (split; [first [exact P0|exact S1|exact S0|exact I|reflexivity]|]); exact I|].
    eexists. split; [apply lay_connect|]. split; [vm_compute; discriminate|reflexivity].
Qed.

(** A PUBLISH of the standard with QoS 1, properties in an order the crate does not write and
    two subscription identifiers. *)
Definition example_publish : message :=
  MPublish false 1 true [116] (Some 7) [(38, VPair [107] [118]); (11, VVar 200); (3, VStr [120]); (11, VVar 1)] [1; 2; 255].
Definition example_frame : bytes :=
  [51; 25; 0; 1; 116; 0; 7; 16; 38; 0; 1; 107; 0; 1; 118; 11; 200; 1; 3; 0; 1; 120; 11; 1; 1; 2; 255].
Ltac ascii := cbn [if_some snd well_formed_value wi_topic wi_payload]; match goal with |- mqtt_string ?s => split; [exists s; split; [repeat (constructor; [left; reflexivity|]); constructor|reflexivity]|vm_compute; discriminate] end.
Example C51_example : standard_frame example_publish example_frame /\ supported F_default example_publish example_frame.
Proof.
  split.
  - split.
    + split; [vm_compute; discriminate|]. split; [ascii|]. split; [split; [discriminate|split; [discriminate|reflexivity]]|]. split; [|repeat constructor].
      split; [|split; [|vm_compute; discriminate]].
      * repeat (constructor; [split; [cbn; tauto|split; [reflexivity|]]|]); [split; ascii|vm_compute; discriminate|ascii|vm_compute; discriminate|constructor].
      * intros id Hid. cbn [filter]. unfold has_id. cbn [fst]. destruct (N.eqb_spec 38 id) as [<-|]; [exfalso; apply Hid; cbn; tauto|].
        destruct (N.eqb_spec 11 id) as [<-|]; [exfalso; apply Hid; cbn; tauto|]. destruct (3 =? id); cbn; lia.
    + eexists. split; [apply lay_publish|]. split; [vm_compute; discriminate|reflexivity].
  - intros before last E. destruct before as [|a [|b [|c [|d [|e before]]]]]; try discriminate E.
    injection E as <- <- <- <-. reflexivity.
Qed.
(** What it is read as. *)
Example C51_example_read : Packet_read F_default (example_frame ++ [9]) None
  = (Ok (P_Publish (mkPublish false AtLeastOnce true [116] 7 [1; 2; 255]
       (Some (mkPublishProperties None None None None None [([107], [118])] [200; 1] (Some [120]))))), [9]).
Proof. reflexivity. Qed.
(** The other hypotheses of C51 are met too: a PUBLISH with four one-byte identifiers, the last
    two of which end up in the payload; AUTH; the short DISCONNECT. *)
Definition example_many : message := MPublish false 0 false [116] None [(11, VVar 1); (11, VVar 2); (11, VVar 3); (11, VVar 4)] [9].
Definition example_many_frame : bytes := [48; 13; 0; 1; 116; 8; 11; 1; 11; 2; 11; 3; 11; 4; 9].
Example C51_example_many : standard_frame example_many example_many_frame /\ ~ supported F_default example_many example_many_frame
  /\ Packet_read F_default example_many_frame None
     = (Ok (P_Publish (mkPublish false AtMostOnce false [116] 0 [11; 4; 9]
          (Some (mkPublishProperties None None None None None [] [1; 2; 3] None)))), []).
Proof.
  split; [|split; [|reflexivity]].
  - split.
    + split; [vm_compute; discriminate|]. split; [ascii|]. split; [reflexivity|]. split; [|repeat constructor].
      split; [|split; [|vm_compute; discriminate]].
      * repeat (constructor; [split; [cbn; tauto|split; [reflexivity|vm_compute; discriminate]]|]). constructor.
      * intros id Hid. cbn [filter]. unfold has_id. cbn [fst]. destruct (N.eqb_spec 11 id) as [<-|]; [exfalso; apply Hid; cbn; tauto|cbn; lia].
    + eexists. split; [apply lay_publish|]. split; [vm_compute; discriminate|reflexivity].
  - intros H. specialize (H [(11, VVar 1); (11, VVar 2); (11, VVar 3)] (11, VVar 4) eq_refl). vm_compute in H. discriminate H.
Qed.
Example C51_example_auth : standard_frame (MAuth 24 [(21, VStr [120])]) [240; 6; 24; 4; 21; 0; 1; 120].
Proof.
  split.
  - split; [cbn; tauto|]. split; [|split; [|vm_compute; discriminate]].
    + constructor; [|constructor]. split; [cbn; tauto|]. split; [reflexivity|ascii].
    + intros id _. cbn [filter]. destruct (has_id id (21, VStr [120])); cbn; lia.
  - eexists. split; [apply lay_auth|]. split; [vm_compute; discriminate|reflexivity].
Qed.
Example C51_example_disconnect : standard_frame (MDisconnect 4 []) [224; 1; 4] /\ blen [224; 1; 4] = 3
  /\ standard_frame (MDisconnect 4 []) [224; 2; 4; 0] /\ supported F_default (MDisconnect 4 []) [224; 2; 4; 0].
Proof.
  assert (W : well_formed (MDisconnect 4 [])).
  { split; [cbn; tauto|]. split; [constructor|]. split; [apply nil_once|vm_compute; discriminate]. }
  split; [|split; [reflexivity|split; [|discriminate]]]; (split; [exact W|]).
  - eexists. split; [apply lay_disconnect_reason|]. split; [vm_compute; discriminate|reflexivity].
  - eexists. split; [apply lay_disconnect|]. split; [vm_compute; discriminate|reflexivity].
Qed.
(** A CONNECT with a will, a user name and a password that is not text. *)
Definition example_connect : message :=
  MConnect false 60 [(33, VTwo 10)] [99] (Some (mkWill 1 true [(1, VByte 1)] [116] [0; 255])) (Some [117]) (Some [255; 254]).
Definition example_connect_frame : bytes :=
  [16; 34; 0; 4; 77; 81; 84; 84; 5; 236; 0; 60; 3; 33; 0; 10; 0; 1; 99; 2; 1; 1; 0; 1; 116; 0; 2; 0; 255; 0; 1; 117; 0; 2; 255; 254].
Example C51_example_connect : standard_frame example_connect example_connect_frame /\ ~ utf8 [255; 254].
Proof.
  split; [|rewrite <- from_utf8_iff; discriminate]. split.
  - split; [reflexivity|]. split; [|split; [ascii|]].
    + split; [|split; [|vm_compute; discriminate]].
      * constructor; [|constructor]. split; [cbn; tauto|]. split; reflexivity.
      * intros id _. cbn [filter]. destruct (has_id id (33, VTwo 10)); cbn; lia.
    + split; [|split; [ascii|split; [repeat constructor|vm_compute; discriminate]]].
      split; [vm_compute; discriminate|]. split; [|split; [ascii|split; [repeat constructor|vm_compute; discriminate]]].
      split; [|split; [|vm_compute; discriminate]].
      * constructor; [|constructor]. split; [cbn; tauto|]. split; reflexivity.
      * intros id _. cbn [wi_props filter]. destruct (has_id id (1, VByte 1)); cbn; lia.
  - eexists. split; [apply lay_connect|]. split; [vm_compute; discriminate|reflexivity].
Qed.
Example C51_example_connect_read :
  Packet_read F_default example_connect_frame None = (Err TopicNotUtf8, [])
  /\ exists p, Packet_read F_binary example_connect_frame None = (Ok p, []).
Proof. split; [reflexivity|]. eexists. reflexivity. Qed.

(** C52: packets that meet its hypotheses, and one that is not expressible. *)
Example C52_example :
  let p := P_Subscribe (mkSubscribe 5 [mkFilter [116] ExactlyOnce true false Never] (Some (mkSubscribeProperties (Some 300) [([107], [118])]))) in
  let q := P_Subscribe (mkSubscribe 5 [] None) in
  rust_packet F_default p /\ encodable p /\ bad_disconnect p = false /\ legacy_connack p = false /\ expressible p
  /\ encode p = [130; 17; 0; 5; 10; 11; 172; 2; 38; 0; 1; 107; 0; 1; 118; 0; 1; 116; 38]
  /\ rust_packet F_default q /\ encodable q /\ ~ expressible q.
Proof.
  assert (T : forall c, c < 128 -> text F_default [c]).
  { intros c H. split; [repeat constructor; lia|]. exists [c]. split; [constructor; [left; lia|constructor]|]. cbn. unfold utf8_encode.
    destruct (N.ltb_spec c 128); [reflexivity|lia]. }
  cbv zeta. split; [|split; [|split; [|split; [|split; [|split; [|split; [|split]]]]]]].
  - split; [reflexivity|]. split; [|constructor; [apply T; reflexivity|constructor]].
    constructor; [exact I|]. constructor; [split; apply T; reflexivity|constructor].
  - repeat constructor.
  - reflexivity.
  - reflexivity.
  - discriminate.
  - reflexivity.
  - split; [reflexivity|]. split; constructor.
  - repeat constructor.
  - intros H. apply H. reflexivity.
Qed.
