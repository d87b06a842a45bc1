(** Every property structure of the model as an instance of the generic reader and the
    generic field writer.  One block per structure; the tactics are shared. *)
From Verif Require Import Types MLib MConnect Model Spec Wire PBase PVarint PRead PItems.
Ltac Zify.zify_post_hook ::= Z.div_mod_to_equations.

Ltac snoc_tac of :=
  unfold of; rewrite ?last_num_snoc, ?last_str_snoc, ?user_pairs_app, ?all_ids_app;
  cbn [num_value str_value user_pairs all_ids flat_map fst snd];
  lits; cbn [num_value str_value app]; rewrite ?app_nil_r; reflexivity.

Ltac sim_case of :=
  cbn [property property_kind rbind];
  cbv [mem existsb connect_allowed will_allowed connack_allowed publish_allowed ack_allowed
       subscribe_allowed unsubscribe_allowed disconnect_allowed N.eqb Pos.eqb orb];
  try reflexivity;
  cbn [read_value];
  repeat match goal with
  | |- context [rbind (read_u8 ?b) _] => destruct (read_u8 b) as [[? ?]| | |]; cbn [rbind]; try reflexivity
  | |- context [rbind (read_u16 ?b) _] => destruct (read_u16 b) as [[? ?]| | |]; cbn [rbind]; try reflexivity
  | |- context [rbind (read_u32 ?b) _] => destruct (read_u32 b) as [[? ?]| | |]; cbn [rbind]; try reflexivity
  | |- context [rbind (length_ ?b) _] => destruct (length_ b) as [[? ?]| | |]; cbn [rbind]; try reflexivity
  | |- context [rbind (advance ?b ?n) _] => destruct (advance b n) as [?| | |]; cbn [rbind]; try reflexivity
  | |- context [rbind (read_mqtt_bytes ?b) _] => destruct (read_mqtt_bytes b) as [[? ?]| | |]; cbn [rbind]; try reflexivity
  | |- context [rbind (read_mqtt_string ?f ?b) _] => destruct (read_mqtt_string f b) as [[? ?]| | |]; cbn [rbind]; try reflexivity
  end;
  snoc_tac of.

Ltac sim_tac step of :=
  intros prop seen b;
  let E1 := fresh "E1" in let E2 := fresh "E2" in let Hin := fresh "Hin" in
  destruct (prop_cases prop) as [[E1 E2]|Hin];
  [unfold step, gstep; rewrite E1, E2; reflexivity|];
  cbn [In] in Hin;
  repeat (destruct Hin as [<-|Hin]; [unfold step, gstep; unfold of at 1; sim_case of|]);
  destruct Hin.

Lemma opt_eta {A} (o : option A) : match o with Some n => Some n | None => None end = o.
Proof. destruct o; reflexivity. Qed.
Lemma user_pairs_num id k o : (forall n, value_kind (k n) <> KPair) -> user_pairs (num id k o) = [].
Proof.
  intros H. destruct o as [n|]; [|reflexivity]. cbn [num user_pairs flat_map fst snd].
  specialize (H n). destruct (id =? 38); [|reflexivity]. destruct (k n); try reflexivity. cbn in H. congruence.
Qed.
Lemma user_pairs_str id k o : (forall n, value_kind (k n) <> KPair) -> user_pairs (str id k o) = [].
Proof.
  intros H. destruct o as [n|]; [|reflexivity]. cbn [str user_pairs flat_map fst snd].
  specialize (H n). destruct (id =? 38); [|reflexivity]. destruct (k n); try reflexivity. cbn in H. congruence.
Qed.
Lemma all_ids_num id k o : id <> 11 -> all_ids (num id k o) = [].
Proof.
  intros H. destruct o as [n|]; [|reflexivity]. cbn [num all_ids flat_map fst snd].
  destruct (N.eqb_spec id 11); [congruence|reflexivity].
Qed.
Lemma all_ids_str id k o : id <> 11 -> all_ids (str id k o) = [].
Proof.
  intros H. destruct o as [n|]; [|reflexivity]. cbn [str all_ids flat_map fst snd].
  destruct (N.eqb_spec id 11); [congruence|reflexivity].
Qed.

Lemma skip_num {A} (get : pvalue -> option A) id id' k o r acc : (id' =? id) = false ->
  last_from get id (num id' k o ++ r) acc = last_from get id r acc.
Proof. intros H. rewrite last_from_app, last_from_num, H. reflexivity. Qed.
Lemma skip_str {A} (get : pvalue -> option A) id id' k o r acc : (id' =? id) = false ->
  last_from get id (str id' k o ++ r) acc = last_from get id r acc.
Proof. intros H. rewrite last_from_app, last_from_str, H. reflexivity. Qed.
Lemma skip_users {A} (get : pvalue -> option A) id l r acc : (38 =? id) = false ->
  last_from get id (users l ++ r) acc = last_from get id r acc.
Proof. intros H. rewrite last_from_app, last_from_users by exact H. reflexivity. Qed.
Lemma skip_sub_ids {A} (get : pvalue -> option A) id l r acc : (11 =? id) = false ->
  last_from get id (sub_ids l ++ r) acc = last_from get id r acc.
Proof. intros H. rewrite last_from_app, last_from_sub_ids by exact H. reflexivity. Qed.
Lemma hit_num id k o r : (forall n, num_value (k n) = Some n) ->
  last_from num_value id (num id k o ++ r) None = last_from num_value id r o.
Proof. intros H. rewrite last_from_app, last_from_num, N.eqb_refl. destruct o; rewrite ?H; reflexivity. Qed.
Lemma hit_str id k o r : (forall n, str_value (k n) = Some n) ->
  last_from str_value id (str id k o ++ r) None = last_from str_value id r o.
Proof. intros H. rewrite last_from_app, last_from_str, N.eqb_refl. destruct o; rewrite ?H; reflexivity. Qed.

Ltac field_tac :=
  unfold last_num, last_str; rewrite last_of_from;
  repeat first [ rewrite skip_num by reflexivity | rewrite skip_str by reflexivity
               | rewrite skip_users by reflexivity | rewrite skip_sub_ids by reflexivity
               | rewrite hit_num by (intros; reflexivity) | rewrite hit_str by (intros; reflexivity) ];
  reflexivity.
Ltac list_field_tac :=
  rewrite ?user_pairs_app, ?all_ids_app, ?user_pairs_users, ?all_ids_users, ?all_ids_sub_ids, ?user_pairs_sub_ids;
  repeat first [ rewrite user_pairs_num by (intros; discriminate) | rewrite user_pairs_str by (intros; discriminate)
               | rewrite all_ids_num by discriminate | rewrite all_ids_str by discriminate ];
  cbn [app]; rewrite ?app_nil_r; reflexivity.
Ltac of_items_tac of items :=
  intros p; destruct p; unfold items, ack_items;
  cbn [cp_session_expiry_interval cp_receive_maximum cp_max_packet_size cp_topic_alias_max
    cp_request_response_info cp_request_problem_info cp_user_properties cp_authentication_method
    cp_authentication_data wp_delay_interval wp_payload_format_indicator wp_message_expiry_interval
    wp_content_type wp_response_topic wp_correlation_data wp_user_properties
    ca_session_expiry_interval ca_receive_max ca_max_qos ca_retain_available ca_max_packet_size
    ca_assigned_client_identifier ca_topic_alias_max ca_reason_string ca_user_properties
    ca_wildcard_subscription_available ca_subscription_identifiers_available
    ca_shared_subscription_available ca_server_keep_alive ca_response_information
    ca_server_reference ca_authentication_method ca_authentication_data
    pp_payload_format_indicator pp_message_expiry_interval pp_topic_alias pp_response_topic
    pp_correlation_data pp_user_properties pp_subscription_identifiers pp_content_type
    pap_reason_string pap_user_properties prp_reason_string prp_user_properties
    plp_reason_string plp_user_properties pcp_reason_string pcp_user_properties
    sap_reason_string sap_user_properties uap_reason_string uap_user_properties
    sp_id sp_user_properties usp_user_properties
    dp_session_expiry_interval dp_reason_string dp_user_properties dp_server_reference];
  match goal with |- of ?l = _ => rewrite <- (app_nil_r l) end;
  rewrite <- ?app_assoc; unfold of;
  repeat match goal with
  | |- context [last_num ?id ?l] =>
      let H := fresh in eassert (H : last_num id l = _) by field_tac; rewrite H; clear H
  | |- context [last_str ?id ?l] =>
      let H := fresh in eassert (H : last_str id l = _) by field_tac; rewrite H; clear H
  | |- context [user_pairs ?l] =>
      let H := fresh in eassert (H : user_pairs l = _) by list_field_tac; rewrite H; clear H
  | |- context [all_ids ?l] =>
      let H := fresh in eassert (H : all_ids l = _) by list_field_tac; rewrite H; clear H
  end; reflexivity.

Lemma wk_num allowed id k o :
  In id allowed -> (forall n, property_kind id = Some (value_kind (k n))) -> Forall (wk allowed) (num id k o).
Proof. intros H1 H2. destruct o; constructor; [split; [exact H1|apply H2]|constructor]. Qed.
Lemma wk_str allowed id k o :
  In id allowed -> (forall n, property_kind id = Some (value_kind (k n))) -> Forall (wk allowed) (str id k o).
Proof. intros H1 H2. destruct o; constructor; [split; [exact H1|apply H2]|constructor]. Qed.
Lemma wk_users allowed l : In 38 allowed -> Forall (wk allowed) (users l).
Proof.
  intros H. apply Forall_forall. intros i Hi. apply in_users in Hi. destruct Hi as (k & v & -> & _).
  split; [exact H|reflexivity].
Qed.
Lemma wk_sub_ids allowed l : In 11 allowed -> Forall (wk allowed) (sub_ids l).
Proof.
  intros H. apply Forall_forall. intros i. unfold sub_ids. rewrite in_map_iff. intros (n & <- & _).
  split; [exact H|reflexivity].
Qed.
Ltac wk_tac items :=
  intros p; unfold items, ack_items; rewrite ?Forall_app; repeat split;
  first [ apply wk_num; [cbn; tauto|intros; reflexivity]
        | apply wk_str; [cbn; tauto|intros; reflexivity]
        | apply wk_users; cbn; tauto | apply wk_sub_ids; cbn; tauto ].

Ltac kind_tac := let v := fresh in intros v ? ?H1 ?H2; destruct v; cbn in *; congruence.
Ltac incl_tac of items :=
  intros l Hl; unfold of, items, ack_items;
  cbn [cp_session_expiry_interval cp_receive_maximum cp_max_packet_size cp_topic_alias_max
    cp_request_response_info cp_request_problem_info cp_user_properties cp_authentication_method
    cp_authentication_data wp_delay_interval wp_payload_format_indicator wp_message_expiry_interval
    wp_content_type wp_response_topic wp_correlation_data wp_user_properties
    ca_session_expiry_interval ca_receive_max ca_max_qos ca_retain_available ca_max_packet_size
    ca_assigned_client_identifier ca_topic_alias_max ca_reason_string ca_user_properties
    ca_wildcard_subscription_available ca_subscription_identifiers_available
    ca_shared_subscription_available ca_server_keep_alive ca_response_information
    ca_server_reference ca_authentication_method ca_authentication_data
    pp_payload_format_indicator pp_message_expiry_interval pp_topic_alias pp_response_topic
    pp_correlation_data pp_user_properties pp_subscription_identifiers pp_content_type
    pap_reason_string pap_user_properties prp_reason_string prp_user_properties
    plp_reason_string plp_user_properties pcp_reason_string pcp_user_properties
    sap_reason_string sap_user_properties uap_reason_string uap_user_properties
    sp_id sp_user_properties usp_user_properties
    dp_session_expiry_interval dp_reason_string dp_user_properties dp_server_reference];
  repeat apply incl_app;
  first [ eapply num_incl; [exact Hl|kind_tac] | eapply str_incl; [exact Hl|kind_tac]
        | apply users_incl | apply sub_ids_incl ].

Ltac leaf :=
  first [ left; reflexivity
        | unfold users, sub_ids; apply in_map_iff; eexists; split; [|apply in_or_app; right; left; reflexivity]; reflexivity ].
Ltac in_tac :=
  lazymatch goal with
  | |- In _ (_ ++ _) => first [apply in_or_app; left; solve [in_tac] | apply in_or_app; right; solve [in_tac]]
  | _ => leaf
  end.

(** The last item of a list is represented in the structure. *)
Ltac nonempty_tac of items allowed :=
  intros l Hl Hne;
  destruct l as [|i0 l0] using rev_ind; [congruence|];
  apply Forall_app in Hl; destruct Hl as [_ Hl];
  let Hi := fresh "Hi" in let Hin := fresh "Hin" in let Hk := fresh "Hk" in
  assert (Hi : wk allowed i0) by (inversion Hl; assumption);
  destruct i0 as [id v]; destruct Hi as [Hin Hk]; cbn [fst snd] in Hin, Hk;
  intros Hnil;
  cut (In (id, v) (items (of (l0 ++ [(id, v)])))); [intros Hx; exact (in_nil (eq_ind _ (fun x => In (id, v) x) Hx _ Hnil))|];
  clear Hnil Hne Hl;
  unfold of, items, ack_items; unfold allowed in Hin; cbn [In] in Hin;
  cbn [cp_session_expiry_interval cp_receive_maximum cp_max_packet_size cp_topic_alias_max
    cp_request_response_info cp_request_problem_info cp_user_properties cp_authentication_method
    cp_authentication_data wp_delay_interval wp_payload_format_indicator wp_message_expiry_interval
    wp_content_type wp_response_topic wp_correlation_data wp_user_properties
    ca_session_expiry_interval ca_receive_max ca_max_qos ca_retain_available ca_max_packet_size
    ca_assigned_client_identifier ca_topic_alias_max ca_reason_string ca_user_properties
    ca_wildcard_subscription_available ca_subscription_identifiers_available
    ca_shared_subscription_available ca_server_keep_alive ca_response_information
    ca_server_reference ca_authentication_method ca_authentication_data
    pp_payload_format_indicator pp_message_expiry_interval pp_topic_alias pp_response_topic
    pp_correlation_data pp_user_properties pp_subscription_identifiers pp_content_type
    pap_reason_string pap_user_properties prp_reason_string prp_user_properties
    plp_reason_string plp_user_properties pcp_reason_string pcp_user_properties
    sap_reason_string sap_user_properties uap_reason_string uap_user_properties
    sp_id sp_user_properties usp_user_properties
    dp_session_expiry_interval dp_reason_string dp_user_properties dp_server_reference];
  repeat (destruct Hin as [<-|Hin];
    [destruct v; cbn in Hk; try discriminate Hk;
     rewrite ?last_num_snoc, ?last_str_snoc, ?user_pairs_app, ?all_ids_app; lits;
     in_tac|]);
  destruct Hin.

Ltac len_tac len items :=
  intros p; unfold len, items, ack_items;
  rewrite ?isize_app, ?isize_users, ?isize_sub_ids;
  repeat first [ rewrite (isize_num _ VByte _ 1) by reflexivity | rewrite (isize_num _ VTwo _ 2) by reflexivity
               | rewrite (isize_num _ VFour _ 4) by reflexivity
               | rewrite isize_str by reflexivity ];
  rewrite <- ?N.add_assoc; reflexivity.

Ltac items_writes :=
  rewrite ?items_fields_app;
  repeat apply writes_bind;
  first
   [ apply writes_users | apply writes_sub_ids
   | apply writes_num; intros ?v;
     first [ apply (writes_bind _ _ [_] [_]); [apply writes_u8|];
             first [apply writes_u8|apply writes_u16|apply writes_u32]
           | apply (writes_bind _ _ [_] [_]); [apply writes_u8|apply writes_var; apply writes_ret] ]
   | apply writes_str; intros ?v; apply (writes_bind _ _ [_] [_]); [apply writes_u8|];
     first [apply writes_string|apply writes_bytes] ].

(** ConnectProperties *)
Lemma ConnectProperties_sim ft : simulates ConnectProperties_of (ConnectProperties_step ft) (gstep ft connect_allowed).
Proof. sim_tac ConnectProperties_step ConnectProperties_of. Qed.
Lemma ConnectProperties_read_eq ft b :
  ConnectProperties_read ft b = let? (o, b) := gread ft connect_allowed b in Ok (option_map ConnectProperties_of o, b).
Proof.
  unfold ConnectProperties_read. change ConnectProperties_new with (ConnectProperties_of []).
  apply (props_read_sim ConnectProperties_of). apply ConnectProperties_sim.
Qed.
Lemma ConnectProperties_of_items : forall p, ConnectProperties_of (ConnectProperties_items p) = p.
Proof. of_items_tac ConnectProperties_of ConnectProperties_items. Qed.
Lemma ConnectProperties_items_wk : forall p, Forall (wk connect_allowed) (ConnectProperties_items p).
Proof. wk_tac ConnectProperties_items. Qed.
Lemma ConnectProperties_incl : forall l, Forall (wk connect_allowed) l -> incl (ConnectProperties_items (ConnectProperties_of l)) l.
Proof. incl_tac ConnectProperties_of ConnectProperties_items. Qed.
Lemma ConnectProperties_nonempty : forall l, Forall (wk connect_allowed) l -> l <> [] -> ConnectProperties_items (ConnectProperties_of l) <> [].
Proof. nonempty_tac ConnectProperties_of ConnectProperties_items connect_allowed. Qed.
Lemma ConnectProperties_len_eq : forall p, ConnectProperties_len p = isize (ConnectProperties_items p).
Proof. len_tac ConnectProperties_len ConnectProperties_items. Qed.
Lemma ConnectProperties_write_eq : forall p, writes (ConnectProperties_write p) (section_fields (ConnectProperties_items p)).
Proof.
  intros p. unfold ConnectProperties_write, section_fields. rewrite ConnectProperties_len_eq.
  apply writes_var. unfold ConnectProperties_items, ack_items. items_writes.
Qed.

(** LastWillProperties *)
Lemma LastWillProperties_sim ft : simulates LastWillProperties_of (LastWillProperties_step ft) (gstep ft will_allowed).
Proof. sim_tac LastWillProperties_step LastWillProperties_of. Qed.
Lemma LastWillProperties_read_eq ft b :
  LastWillProperties_read ft b = let? (o, b) := gread ft will_allowed b in Ok (option_map LastWillProperties_of o, b).
Proof.
  unfold LastWillProperties_read. change LastWillProperties_init with (LastWillProperties_of []).
  apply (props_read_sim LastWillProperties_of). apply LastWillProperties_sim.
Qed.
Lemma LastWillProperties_of_items : forall p, LastWillProperties_of (LastWillProperties_items p) = p.
Proof. of_items_tac LastWillProperties_of LastWillProperties_items. Qed.
Lemma LastWillProperties_items_wk : forall p, Forall (wk will_allowed) (LastWillProperties_items p).
Proof. wk_tac LastWillProperties_items. Qed.
Lemma LastWillProperties_incl : forall l, Forall (wk will_allowed) l -> incl (LastWillProperties_items (LastWillProperties_of l)) l.
Proof. incl_tac LastWillProperties_of LastWillProperties_items. Qed.
Lemma LastWillProperties_nonempty : forall l, Forall (wk will_allowed) l -> l <> [] -> LastWillProperties_items (LastWillProperties_of l) <> [].
Proof. nonempty_tac LastWillProperties_of LastWillProperties_items will_allowed. Qed.
Lemma LastWillProperties_len_eq : forall p, LastWillProperties_len p = isize (LastWillProperties_items p).
Proof. len_tac LastWillProperties_len LastWillProperties_items. Qed.
Lemma LastWillProperties_write_eq : forall p, writes (LastWillProperties_write p) (section_fields (LastWillProperties_items p)).
Proof.
  intros p. unfold LastWillProperties_write, section_fields. rewrite LastWillProperties_len_eq.
  apply writes_var. unfold LastWillProperties_items, ack_items. items_writes.
Qed.

(** ConnAckProperties *)
Lemma ConnAckProperties_sim ft : simulates ConnAckProperties_of (ConnAckProperties_step ft) (gstep ft connack_allowed).
Proof. sim_tac ConnAckProperties_step ConnAckProperties_of. Qed.
Lemma ConnAckProperties_read_eq ft b :
  ConnAckProperties_read ft b = let? (o, b) := gread ft connack_allowed b in Ok (option_map ConnAckProperties_of o, b).
Proof.
  unfold ConnAckProperties_read. change ConnAckProperties_new with (ConnAckProperties_of []).
  apply (props_read_sim ConnAckProperties_of). apply ConnAckProperties_sim.
Qed.
Lemma ConnAckProperties_of_items : forall p, ConnAckProperties_of (ConnAckProperties_items p) = p.
Proof. of_items_tac ConnAckProperties_of ConnAckProperties_items. Qed.
Lemma ConnAckProperties_items_wk : forall p, Forall (wk connack_allowed) (ConnAckProperties_items p).
Proof. wk_tac ConnAckProperties_items. Qed.
Lemma ConnAckProperties_incl : forall l, Forall (wk connack_allowed) l -> incl (ConnAckProperties_items (ConnAckProperties_of l)) l.
Proof. incl_tac ConnAckProperties_of ConnAckProperties_items. Qed.
Lemma ConnAckProperties_nonempty : forall l, Forall (wk connack_allowed) l -> l <> [] -> ConnAckProperties_items (ConnAckProperties_of l) <> [].
Proof. nonempty_tac ConnAckProperties_of ConnAckProperties_items connack_allowed. Qed.
Lemma ConnAckProperties_len_eq : forall p, ConnAckProperties_len p = isize (ConnAckProperties_items p).
Proof. len_tac ConnAckProperties_len ConnAckProperties_items. Qed.
Lemma ConnAckProperties_write_eq : forall p, writes (ConnAckProperties_write p) (section_fields (ConnAckProperties_items p)).
Proof.
  intros p. unfold ConnAckProperties_write, section_fields. rewrite ConnAckProperties_len_eq.
  apply writes_var. unfold ConnAckProperties_items, ack_items. items_writes.
Qed.

(** PublishProperties *)
Lemma PublishProperties_sim ft : simulates PublishProperties_of (PublishProperties_step ft) (gstep ft publish_allowed).
Proof. sim_tac PublishProperties_step PublishProperties_of. Qed.
Lemma PublishProperties_read_eq ft b :
  PublishProperties_read ft b = let? (o, b) := gread ft publish_allowed b in Ok (option_map PublishProperties_of o, b).
Proof.
  unfold PublishProperties_read. change PublishProperties_default with (PublishProperties_of []).
  apply (props_read_sim PublishProperties_of). apply PublishProperties_sim.
Qed.
Lemma PublishProperties_of_items : forall p, PublishProperties_of (PublishProperties_items p) = p.
Proof. of_items_tac PublishProperties_of PublishProperties_items. Qed.
Lemma PublishProperties_items_wk : forall p, Forall (wk publish_allowed) (PublishProperties_items p).
Proof. wk_tac PublishProperties_items. Qed.
Lemma PublishProperties_incl : forall l, Forall (wk publish_allowed) l -> incl (PublishProperties_items (PublishProperties_of l)) l.
Proof. incl_tac PublishProperties_of PublishProperties_items. Qed.
Lemma PublishProperties_nonempty : forall l, Forall (wk publish_allowed) l -> l <> [] -> PublishProperties_items (PublishProperties_of l) <> [].
Proof. nonempty_tac PublishProperties_of PublishProperties_items publish_allowed. Qed.
Lemma PublishProperties_len_eq : forall p, PublishProperties_len p = isize (PublishProperties_items p).
Proof. len_tac PublishProperties_len PublishProperties_items. Qed.
Lemma PublishProperties_write_eq : forall p, writes (PublishProperties_write p) (section_fields (PublishProperties_items p)).
Proof.
  intros p. unfold PublishProperties_write, section_fields. rewrite PublishProperties_len_eq.
  apply writes_var. unfold PublishProperties_items, ack_items. items_writes.
Qed.

(** PubAckProperties *)
Lemma PubAckProperties_sim ft : simulates PubAckProperties_of (PubAckProperties_step ft) (gstep ft ack_allowed).
Proof. sim_tac PubAckProperties_step PubAckProperties_of. Qed.
Lemma PubAckProperties_read_eq ft b :
  PubAckProperties_read ft b = let? (o, b) := gread ft ack_allowed b in Ok (option_map PubAckProperties_of o, b).
Proof.
  unfold PubAckProperties_read. change PubAckProperties_init with (PubAckProperties_of []).
  apply (props_read_sim PubAckProperties_of). apply PubAckProperties_sim.
Qed.
Lemma PubAckProperties_of_items : forall p, PubAckProperties_of (PubAckProperties_items p) = p.
Proof. of_items_tac PubAckProperties_of PubAckProperties_items. Qed.
Lemma PubAckProperties_items_wk : forall p, Forall (wk ack_allowed) (PubAckProperties_items p).
Proof. wk_tac PubAckProperties_items. Qed.
Lemma PubAckProperties_incl : forall l, Forall (wk ack_allowed) l -> incl (PubAckProperties_items (PubAckProperties_of l)) l.
Proof. incl_tac PubAckProperties_of PubAckProperties_items. Qed.
Lemma PubAckProperties_nonempty : forall l, Forall (wk ack_allowed) l -> l <> [] -> PubAckProperties_items (PubAckProperties_of l) <> [].
Proof. nonempty_tac PubAckProperties_of PubAckProperties_items ack_allowed. Qed.
Lemma PubAckProperties_len_eq : forall p, PubAckProperties_len p = isize (PubAckProperties_items p).
Proof. len_tac PubAckProperties_len PubAckProperties_items. Qed.
Lemma PubAckProperties_write_eq : forall p, writes (PubAckProperties_write p) (section_fields (PubAckProperties_items p)).
Proof.
  intros p. unfold PubAckProperties_write, section_fields. rewrite PubAckProperties_len_eq.
  apply writes_var. unfold PubAckProperties_items, ack_items. items_writes.
Qed.

(** PubRecProperties *)
Lemma PubRecProperties_sim ft : simulates PubRecProperties_of (PubRecProperties_step ft) (gstep ft ack_allowed).
Proof. sim_tac PubRecProperties_step PubRecProperties_of. Qed.
Lemma PubRecProperties_read_eq ft b :
  PubRecProperties_read ft b = let? (o, b) := gread ft ack_allowed b in Ok (option_map PubRecProperties_of o, b).
Proof.
  unfold PubRecProperties_read. change PubRecProperties_init with (PubRecProperties_of []).
  apply (props_read_sim PubRecProperties_of). apply PubRecProperties_sim.
Qed.
Lemma PubRecProperties_of_items : forall p, PubRecProperties_of (PubRecProperties_items p) = p.
Proof. of_items_tac PubRecProperties_of PubRecProperties_items. Qed.
Lemma PubRecProperties_items_wk : forall p, Forall (wk ack_allowed) (PubRecProperties_items p).
Proof. wk_tac PubRecProperties_items. Qed.
Lemma PubRecProperties_incl : forall l, Forall (wk ack_allowed) l -> incl (PubRecProperties_items (PubRecProperties_of l)) l.
Proof. incl_tac PubRecProperties_of PubRecProperties_items. Qed.
Lemma PubRecProperties_nonempty : forall l, Forall (wk ack_allowed) l -> l <> [] -> PubRecProperties_items (PubRecProperties_of l) <> [].
Proof. nonempty_tac PubRecProperties_of PubRecProperties_items ack_allowed. Qed.
Lemma PubRecProperties_len_eq : forall p, PubRecProperties_len p = isize (PubRecProperties_items p).
Proof. len_tac PubRecProperties_len PubRecProperties_items. Qed.
Lemma PubRecProperties_write_eq : forall p, writes (PubRecProperties_write p) (section_fields (PubRecProperties_items p)).
Proof.
  intros p. unfold PubRecProperties_write, section_fields. rewrite PubRecProperties_len_eq.
  apply writes_var. unfold PubRecProperties_items, ack_items. items_writes.
Qed.

(** PubRelProperties *)
Lemma PubRelProperties_sim ft : simulates PubRelProperties_of (PubRelProperties_step ft) (gstep ft ack_allowed).
Proof. sim_tac PubRelProperties_step PubRelProperties_of. Qed.
Lemma PubRelProperties_read_eq ft b :
  PubRelProperties_read ft b = let? (o, b) := gread ft ack_allowed b in Ok (option_map PubRelProperties_of o, b).
Proof.
  unfold PubRelProperties_read. change PubRelProperties_init with (PubRelProperties_of []).
  apply (props_read_sim PubRelProperties_of). apply PubRelProperties_sim.
Qed.
Lemma PubRelProperties_of_items : forall p, PubRelProperties_of (PubRelProperties_items p) = p.
Proof. of_items_tac PubRelProperties_of PubRelProperties_items. Qed.
Lemma PubRelProperties_items_wk : forall p, Forall (wk ack_allowed) (PubRelProperties_items p).
Proof. wk_tac PubRelProperties_items. Qed.
Lemma PubRelProperties_incl : forall l, Forall (wk ack_allowed) l -> incl (PubRelProperties_items (PubRelProperties_of l)) l.
Proof. incl_tac PubRelProperties_of PubRelProperties_items. Qed.
Lemma PubRelProperties_nonempty : forall l, Forall (wk ack_allowed) l -> l <> [] -> PubRelProperties_items (PubRelProperties_of l) <> [].
Proof. nonempty_tac PubRelProperties_of PubRelProperties_items ack_allowed. Qed.
Lemma PubRelProperties_len_eq : forall p, PubRelProperties_len p = isize (PubRelProperties_items p).
Proof. len_tac PubRelProperties_len PubRelProperties_items. Qed.
Lemma PubRelProperties_write_eq : forall p, writes (PubRelProperties_write p) (section_fields (PubRelProperties_items p)).
Proof.
  intros p. unfold PubRelProperties_write, section_fields. rewrite PubRelProperties_len_eq.
  apply writes_var. unfold PubRelProperties_items, ack_items. items_writes.
Qed.

(** PubCompProperties *)
Lemma PubCompProperties_sim ft : simulates PubCompProperties_of (PubCompProperties_step ft) (gstep ft ack_allowed).
Proof. sim_tac PubCompProperties_step PubCompProperties_of. Qed.
Lemma PubCompProperties_read_eq ft b :
  PubCompProperties_read ft b = let? (o, b) := gread ft ack_allowed b in Ok (option_map PubCompProperties_of o, b).
Proof.
  unfold PubCompProperties_read. change PubCompProperties_init with (PubCompProperties_of []).
  apply (props_read_sim PubCompProperties_of). apply PubCompProperties_sim.
Qed.
Lemma PubCompProperties_of_items : forall p, PubCompProperties_of (PubCompProperties_items p) = p.
Proof. of_items_tac PubCompProperties_of PubCompProperties_items. Qed.
Lemma PubCompProperties_items_wk : forall p, Forall (wk ack_allowed) (PubCompProperties_items p).
Proof. wk_tac PubCompProperties_items. Qed.
Lemma PubCompProperties_incl : forall l, Forall (wk ack_allowed) l -> incl (PubCompProperties_items (PubCompProperties_of l)) l.
Proof. incl_tac PubCompProperties_of PubCompProperties_items. Qed.
Lemma PubCompProperties_nonempty : forall l, Forall (wk ack_allowed) l -> l <> [] -> PubCompProperties_items (PubCompProperties_of l) <> [].
Proof. nonempty_tac PubCompProperties_of PubCompProperties_items ack_allowed. Qed.
Lemma PubCompProperties_len_eq : forall p, PubCompProperties_len p = isize (PubCompProperties_items p).
Proof. len_tac PubCompProperties_len PubCompProperties_items. Qed.
Lemma PubCompProperties_write_eq : forall p, writes (PubCompProperties_write p) (section_fields (PubCompProperties_items p)).
Proof.
  intros p. unfold PubCompProperties_write, section_fields. rewrite PubCompProperties_len_eq.
  apply writes_var. unfold PubCompProperties_items, ack_items. items_writes.
Qed.

(** SubAckProperties *)
Lemma SubAckProperties_sim ft : simulates SubAckProperties_of (SubAckProperties_step ft) (gstep ft ack_allowed).
Proof. sim_tac SubAckProperties_step SubAckProperties_of. Qed.
Lemma SubAckProperties_read_eq ft b :
  SubAckProperties_read ft b = let? (o, b) := gread ft ack_allowed b in Ok (option_map SubAckProperties_of o, b).
Proof.
  unfold SubAckProperties_read. change SubAckProperties_init with (SubAckProperties_of []).
  apply (props_read_sim SubAckProperties_of). apply SubAckProperties_sim.
Qed.
Lemma SubAckProperties_of_items : forall p, SubAckProperties_of (SubAckProperties_items p) = p.
Proof. of_items_tac SubAckProperties_of SubAckProperties_items. Qed.
Lemma SubAckProperties_items_wk : forall p, Forall (wk ack_allowed) (SubAckProperties_items p).
Proof. wk_tac SubAckProperties_items. Qed.
Lemma SubAckProperties_incl : forall l, Forall (wk ack_allowed) l -> incl (SubAckProperties_items (SubAckProperties_of l)) l.
Proof. incl_tac SubAckProperties_of SubAckProperties_items. Qed.
Lemma SubAckProperties_nonempty : forall l, Forall (wk ack_allowed) l -> l <> [] -> SubAckProperties_items (SubAckProperties_of l) <> [].
Proof. nonempty_tac SubAckProperties_of SubAckProperties_items ack_allowed. Qed.
Lemma SubAckProperties_len_eq : forall p, SubAckProperties_len p = isize (SubAckProperties_items p).
Proof. len_tac SubAckProperties_len SubAckProperties_items. Qed.
Lemma SubAckProperties_write_eq : forall p, writes (SubAckProperties_write p) (section_fields (SubAckProperties_items p)).
Proof.
  intros p. unfold SubAckProperties_write, section_fields. rewrite SubAckProperties_len_eq.
  apply writes_var. unfold SubAckProperties_items, ack_items. items_writes.
Qed.

(** UnsubAckProperties *)
Lemma UnsubAckProperties_sim ft : simulates UnsubAckProperties_of (UnsubAckProperties_step ft) (gstep ft ack_allowed).
Proof. sim_tac UnsubAckProperties_step UnsubAckProperties_of. Qed.
Lemma UnsubAckProperties_read_eq ft b :
  UnsubAckProperties_read ft b = let? (o, b) := gread ft ack_allowed b in Ok (option_map UnsubAckProperties_of o, b).
Proof.
  unfold UnsubAckProperties_read. change UnsubAckProperties_init with (UnsubAckProperties_of []).
  apply (props_read_sim UnsubAckProperties_of). apply UnsubAckProperties_sim.
Qed.
Lemma UnsubAckProperties_of_items : forall p, UnsubAckProperties_of (UnsubAckProperties_items p) = p.
Proof. of_items_tac UnsubAckProperties_of UnsubAckProperties_items. Qed.
Lemma UnsubAckProperties_items_wk : forall p, Forall (wk ack_allowed) (UnsubAckProperties_items p).
Proof. wk_tac UnsubAckProperties_items. Qed.
Lemma UnsubAckProperties_incl : forall l, Forall (wk ack_allowed) l -> incl (UnsubAckProperties_items (UnsubAckProperties_of l)) l.
Proof. incl_tac UnsubAckProperties_of UnsubAckProperties_items. Qed.
Lemma UnsubAckProperties_nonempty : forall l, Forall (wk ack_allowed) l -> l <> [] -> UnsubAckProperties_items (UnsubAckProperties_of l) <> [].
Proof. nonempty_tac UnsubAckProperties_of UnsubAckProperties_items ack_allowed. Qed.
Lemma UnsubAckProperties_len_eq : forall p, UnsubAckProperties_len p = isize (UnsubAckProperties_items p).
Proof. len_tac UnsubAckProperties_len UnsubAckProperties_items. Qed.
Lemma UnsubAckProperties_write_eq : forall p, writes (UnsubAckProperties_write p) (section_fields (UnsubAckProperties_items p)).
Proof.
  intros p. unfold UnsubAckProperties_write, section_fields. rewrite UnsubAckProperties_len_eq.
  apply writes_var. unfold UnsubAckProperties_items, ack_items. items_writes.
Qed.

(** SubscribeProperties *)
Lemma SubscribeProperties_sim ft : simulates SubscribeProperties_of (SubscribeProperties_step ft) (gstep ft subscribe_allowed).
Proof. sim_tac SubscribeProperties_step SubscribeProperties_of. Qed.
Lemma SubscribeProperties_read_eq ft b :
  SubscribeProperties_read ft b = let? (o, b) := gread ft subscribe_allowed b in Ok (option_map SubscribeProperties_of o, b).
Proof.
  unfold SubscribeProperties_read. change SubscribeProperties_init with (SubscribeProperties_of []).
  apply (props_read_sim SubscribeProperties_of). apply SubscribeProperties_sim.
Qed.
Lemma SubscribeProperties_of_items : forall p, SubscribeProperties_of (SubscribeProperties_items p) = p.
Proof. of_items_tac SubscribeProperties_of SubscribeProperties_items. Qed.
Lemma SubscribeProperties_items_wk : forall p, Forall (wk subscribe_allowed) (SubscribeProperties_items p).
Proof. wk_tac SubscribeProperties_items. Qed.
Lemma SubscribeProperties_incl : forall l, Forall (wk subscribe_allowed) l -> incl (SubscribeProperties_items (SubscribeProperties_of l)) l.
Proof. incl_tac SubscribeProperties_of SubscribeProperties_items. Qed.
Lemma SubscribeProperties_nonempty : forall l, Forall (wk subscribe_allowed) l -> l <> [] -> SubscribeProperties_items (SubscribeProperties_of l) <> [].
Proof. nonempty_tac SubscribeProperties_of SubscribeProperties_items subscribe_allowed. Qed.
Lemma SubscribeProperties_len_eq : forall p, SubscribeProperties_len p = isize (SubscribeProperties_items p).
Proof. intros p; unfold SubscribeProperties_len, SubscribeProperties_items; rewrite isize_app, isize_users; f_equal; destruct (sp_id p); [cbn [num]; rewrite isize_id|]; reflexivity. Qed.
Lemma SubscribeProperties_write_eq : forall p, writes (SubscribeProperties_write p) (section_fields (SubscribeProperties_items p)).
Proof.
  intros p. unfold SubscribeProperties_write, section_fields. rewrite SubscribeProperties_len_eq.
  apply writes_var. unfold SubscribeProperties_items, ack_items. items_writes.
Qed.

(** UnsubscribeProperties *)
Lemma UnsubscribeProperties_sim ft : simulates UnsubscribeProperties_of (UnsubscribeProperties_step ft) (gstep ft unsubscribe_allowed).
Proof. sim_tac UnsubscribeProperties_step UnsubscribeProperties_of. Qed.
Lemma UnsubscribeProperties_read_eq ft b :
  UnsubscribeProperties_read ft b = let? (o, b) := gread ft unsubscribe_allowed b in Ok (option_map UnsubscribeProperties_of o, b).
Proof.
  unfold UnsubscribeProperties_read. change UnsubscribeProperties_init with (UnsubscribeProperties_of []).
  apply (props_read_sim UnsubscribeProperties_of). apply UnsubscribeProperties_sim.
Qed.
Lemma UnsubscribeProperties_of_items : forall p, UnsubscribeProperties_of (UnsubscribeProperties_items p) = p.
Proof. of_items_tac UnsubscribeProperties_of UnsubscribeProperties_items. Qed.
Lemma UnsubscribeProperties_items_wk : forall p, Forall (wk unsubscribe_allowed) (UnsubscribeProperties_items p).
Proof. wk_tac UnsubscribeProperties_items. Qed.
Lemma UnsubscribeProperties_incl : forall l, Forall (wk unsubscribe_allowed) l -> incl (UnsubscribeProperties_items (UnsubscribeProperties_of l)) l.
Proof. incl_tac UnsubscribeProperties_of UnsubscribeProperties_items. Qed.
Lemma UnsubscribeProperties_nonempty : forall l, Forall (wk unsubscribe_allowed) l -> l <> [] -> UnsubscribeProperties_items (UnsubscribeProperties_of l) <> [].
Proof. nonempty_tac UnsubscribeProperties_of UnsubscribeProperties_items unsubscribe_allowed. Qed.
Lemma UnsubscribeProperties_len_eq : forall p, UnsubscribeProperties_len p = isize (UnsubscribeProperties_items p).
Proof. len_tac UnsubscribeProperties_len UnsubscribeProperties_items. Qed.
Lemma UnsubscribeProperties_write_eq : forall p, writes (UnsubscribeProperties_write p) (section_fields (UnsubscribeProperties_items p)).
Proof.
  intros p. unfold UnsubscribeProperties_write, section_fields. rewrite UnsubscribeProperties_len_eq.
  apply writes_var. unfold UnsubscribeProperties_items, ack_items. items_writes.
Qed.

(** DisconnectProperties *)
Lemma DisconnectProperties_sim ft : simulates DisconnectProperties_of (DisconnectProperties_step ft) (gstep ft disconnect_allowed).
Proof. sim_tac DisconnectProperties_step DisconnectProperties_of. Qed.
Lemma DisconnectProperties_extract_eq ft b :
  DisconnectProperties_extract ft b = let? (o, b) := gread ft disconnect_allowed b in Ok (option_map DisconnectProperties_of o, b).
Proof.
  unfold DisconnectProperties_extract. change DisconnectProperties_init with (DisconnectProperties_of []).
  apply (props_read_sim DisconnectProperties_of). apply DisconnectProperties_sim.
Qed.
Lemma DisconnectProperties_of_items : forall p, DisconnectProperties_of (DisconnectProperties_items p) = p.
Proof. of_items_tac DisconnectProperties_of DisconnectProperties_items. Qed.
Lemma DisconnectProperties_items_wk : forall p, Forall (wk disconnect_allowed) (DisconnectProperties_items p).
Proof. wk_tac DisconnectProperties_items. Qed.
Lemma DisconnectProperties_incl : forall l, Forall (wk disconnect_allowed) l -> incl (DisconnectProperties_items (DisconnectProperties_of l)) l.
Proof. incl_tac DisconnectProperties_of DisconnectProperties_items. Qed.
Lemma DisconnectProperties_nonempty : forall l, Forall (wk disconnect_allowed) l -> l <> [] -> DisconnectProperties_items (DisconnectProperties_of l) <> [].
Proof. nonempty_tac DisconnectProperties_of DisconnectProperties_items disconnect_allowed. Qed.
Lemma DisconnectProperties_len_eq : forall p, DisconnectProperties_len p = isize (DisconnectProperties_items p).
Proof. len_tac DisconnectProperties_len DisconnectProperties_items. Qed.
Lemma DisconnectProperties_write_eq : forall p, writes (DisconnectProperties_write p) (section_fields (DisconnectProperties_items p)).
Proof.
  intros p. unfold DisconnectProperties_write, section_fields. rewrite DisconnectProperties_len_eq.
  apply writes_var. unfold DisconnectProperties_items, ack_items. items_writes.
Qed.
