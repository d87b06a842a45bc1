(** From the wire language back to packets: what a decoded packet satisfies. *)
From Verif Require Import Types Model Spec Wire Content PBase PVarint PUtf8 PRead PItems PProps PFrame PWire PWrite PRound.
Ltac Zify.zify_post_hook ::= Z.div_mod_to_equations.

(** lia up to unfolding of type abbreviations. *)
Ltac ulia := unfold item, spelled, bytes, user_props in *; lia.

(** ---------- Values ---------- *)

Lemma bin_fits s : blen s < 65536 -> field_error (FBin s) = None.
Proof. intros H. cbn [field_error]. destruct (N.leb_spec (blen s) 65535); [reflexivity|lia]. Qed.
Lemma var_fits n : n <= max_varint -> field_error (FVar n) = None.
Proof. intros H. cbn [field_error]. destruct (N.leb_spec n max_varint); [reflexivity|lia]. Qed.
Lemma bin_bytes_len s : blen (field_bytes (FBin s)) = 2 + blen s.
Proof. cbn [field_bytes]. rewrite blen_app. reflexivity. Qed.

Lemma bin_back s l : bin_wire s l ->
  bytes_ok s /\ field_error (FBin s) = None /\ l = field_bytes (FBin s) /\ blen l = 2 + blen s.
Proof.
  intros (Hs & Hn & ->). split; [exact Hs|]. split; [apply bin_fits; exact Hn|]. split; [reflexivity|].
  rewrite blen_app. reflexivity.
Qed.
Lemma str_back ft s l : str_wire ft s l ->
  text ft s /\ field_error (FBin s) = None /\ l = field_bytes (FBin s) /\ blen l = 2 + blen s.
Proof. intros [Ht Hb]. apply bin_back in Hb. tauto. Qed.

Lemma varint_shortest n l : varint_wire n l -> n <= max_varint /\ blen (varint n) <= blen l.
Proof.
  intros H. rewrite varint_len. unfold len_len, max_varint. apply varint_wire_cases in H.
  destruct H as [(b0 & -> & ?)|[(b0 & b1 & -> & ?)|[(b0 & b1 & b2 & -> & ?)|(b0 & b1 & b2 & b3 & -> & ?)]]];
    unfold blen; cbn [length];
    destruct (N.leb_spec 2097152 n); destruct (N.leb_spec 16384 n); destruct (N.leb_spec 128 n); lia.
Qed.

Lemma value_back ft v l : value_wire ft v l ->
  value_ok ft v /\ enc (value_fields v) /\ blen (fields_bytes (value_fields v)) <= blen l.
Proof.
  destruct v; cbn [value_wire value_ok value_fields]; intros H.
  - destruct H as [H ->]. split; [exact H|]. split; [repeat constructor|]. rewrite fields_bytes_one. cbn [field_bytes]. lia.
  - destruct H as [H ->]. split; [exact H|]. split; [repeat constructor|]. rewrite fields_bytes_one. cbn [field_bytes]. lia.
  - destruct H as [H ->]. split; [exact H|]. split; [repeat constructor|]. rewrite fields_bytes_one. cbn [field_bytes]. lia.
  - apply varint_shortest in H. destruct H as [H1 H2]. split; [exact I|]. split.
    + apply enc_cons. split; [apply var_fits; exact H1|apply enc_nil].
    + rewrite fields_bytes_one. exact H2.
  - apply str_back in H. destruct H as (Ht & Hf & -> & _). split; [exact Ht|]. split.
    + apply enc_cons. split; [exact Hf|apply enc_nil].
    + rewrite fields_bytes_one. lia.
  - apply bin_back in H. destruct H as (Ht & Hf & -> & _). split; [exact Ht|]. split.
    + apply enc_cons. split; [exact Hf|apply enc_nil].
    + rewrite fields_bytes_one. lia.
  - destruct H as (l1 & l2 & -> & H1 & H2). apply str_back in H1. apply str_back in H2.
    destruct H1 as (T1 & F1 & -> & _), H2 as (T2 & F2 & -> & _).
    split; [split; assumption|]. split.
    + apply enc_cons. split; [exact F1|]. apply enc_cons. split; [exact F2|apply enc_nil].
    + rewrite fields_bytes_cons, fields_bytes_one. lia.
Qed.

Lemma spelled_back ft allowed sp : Forall (spelled_wire ft allowed) sp ->
  items_ok ft (map fst sp) /\ enc (items_fields (map fst sp))
  /\ isize (map fst sp) <= blen (concat (map snd sp)).
Proof.
  induction 1 as [|[[id v] l] sp (Hin & Hk & vl & -> & Hv) Hsp (I1 & I2 & I3)].
  - repeat split; try constructor. cbn [map concat]. rewrite isize_nil. apply N.le_0_l.
  - apply value_back in Hv. destruct Hv as (V1 & V2 & V3). cbn [map fst snd concat].
    split; [constructor; [exact V1|exact I1]|]. split.
    + unfold items_fields. cbn [flat_map]. apply enc_app. split; [|exact I2].
      apply enc_cons. split; [reflexivity|exact V2].
    + rewrite isize_cons, isize_one. unfold item_fields. cbn [fst snd]. rewrite fields_bytes_cons.
      cbn [field_bytes app]. rewrite !blen_cons, blen_app. lia.
Qed.

(** ---------- Structures are no larger than the items they were made from ---------- *)

Definition part (id : N) (l : list item) : N := isize (filter (fun i => fst i =? id) l).
Fixpoint parts (ids : list N) (l : list item) : N :=
  match ids with [] => 0 | id :: ids => part id l + parts ids l end.
Lemma part_cons id i l : part id (i :: l) = (if fst i =? id then isize [i] else 0) + part id l.
Proof. unfold part. cbn [filter]. destruct (fst i =? id); [apply isize_cons|lia]. Qed.
Lemma parts_skip ids i l : ~ In (fst i) ids -> parts ids (i :: l) = parts ids l.
Proof.
  induction ids as [|id ids IH]; intros H; [reflexivity|]. cbn [parts]. rewrite part_cons.
  destruct (N.eqb_spec (fst i) id) as [E|E]; [exfalso; apply H; left; auto|].
  rewrite IH; [lia|]. intros H'. apply H. right. exact H'.
Qed.
Lemma parts_cons ids i l : NoDup ids -> parts ids (i :: l) <= isize [i] + parts ids l.
Proof.
  induction 1 as [|id ids Hn Hd IH]; [cbn [parts]; lia|]. cbn [parts]. rewrite part_cons.
  destruct (N.eqb_spec (fst i) id) as [E|E].
  - rewrite parts_skip by (rewrite E; exact Hn). lia.
  - lia.
Qed.
Lemma parts_bound ids l : NoDup ids -> parts ids l <= isize l.
Proof.
  intros H. induction l as [|i l IH].
  - assert (E : forall ids, parts ids [] = 0) by (induction ids0 as [|x xs IHx]; [reflexivity|exact IHx]).
    rewrite E. lia.
  - pose proof (parts_cons ids i l H). rewrite isize_cons. lia.
Qed.
Lemma part_in i l : In i l -> isize [i] <= part (fst i) l.
Proof.
  induction l as [|j l IH]; intros H; [destruct H|]. rewrite part_cons. destruct H as [->|H].
  - rewrite N.eqb_refl. lia.
  - specialize (IH H). destruct (fst j =? fst i); lia.
Qed.
Lemma num_part allowed id k l : Forall (wk allowed) l ->
  (forall v n, property_kind id = Some (value_kind v) -> num_value v = Some n -> v = k n) ->
  isize (num id k (last_num id l)) <= part id l.
Proof.
  intros Hl Hk. pose proof (num_incl allowed id k l Hl Hk) as Hi.
  destruct (last_num id l) as [n|]; [|cbn [num]; change (isize []) with 0; lia].
  apply (part_in (id, k n)). apply Hi. left. reflexivity.
Qed.
Lemma str_part allowed id k l : Forall (wk allowed) l ->
  (forall v n, property_kind id = Some (value_kind v) -> str_value v = Some n -> v = k n) ->
  isize (str id k (last_str id l)) <= part id l.
Proof.
  intros Hl Hk. pose proof (str_incl allowed id k l Hl Hk) as Hi.
  destruct (last_str id l) as [n|]; [|cbn [str]; change (isize []) with 0; lia].
  apply (part_in (id, k n)). apply Hi. left. reflexivity.
Qed.
Lemma users_part l : isize (users (user_pairs l)) <= part 38 l.
Proof.
  induction l as [|[id v] l IH]; [apply N.le_0_l|]. change ((id, v) :: l) with ([(id, v)] ++ l) at 1.
  rewrite user_pairs_app, users_app, isize_app, part_cons. cbn [fst].
  unfold user_pairs at 1. cbn [flat_map fst snd]. destruct (N.eqb_spec id 38) as [->|E].
  - destruct v; cbn [app users map]; apply N.add_le_mono; try exact IH; try apply N.le_refl; apply N.le_0_l.
  - apply N.add_le_mono; [apply N.le_0_l|exact IH].
Qed.
Lemma sub_ids_part l : isize (sub_ids (all_ids l)) <= part 11 l.
Proof.
  induction l as [|[id v] l IH]; [apply N.le_0_l|]. change ((id, v) :: l) with ([(id, v)] ++ l) at 1.
  rewrite all_ids_app. unfold sub_ids. rewrite map_app. fold (sub_ids (all_ids l)). rewrite isize_app, part_cons. cbn [fst].
  unfold all_ids at 1. cbn [flat_map fst snd]. destruct (N.eqb_spec id 11) as [->|E].
  - destruct v; cbn [app map]; apply N.add_le_mono; try exact IH; try apply N.le_refl; apply N.le_0_l.
  - apply N.add_le_mono; [apply N.le_0_l|exact IH].
Qed.

Ltac nodup_tac :=
  repeat (apply NoDup_cons; [let H := fresh in intros H; cbn [In] in H; repeat destruct H as [H|H]; try discriminate; exact H|]);
  apply NoDup_nil.
Ltac part_tac Hl :=
  lazymatch goal with
  | |- isize (num ?id _ _) <= _ => eapply num_part; [exact Hl|kind_tac]
  | |- isize (str ?id _ _) <= _ => eapply str_part; [exact Hl|kind_tac]
  | |- isize (users _) <= _ => apply users_part
  | |- isize (sub_ids _) <= _ => apply sub_ids_part
  end.
Ltac shrink_tac of items ids :=
  intros l Hl; apply N.le_trans with (parts ids l); [|apply parts_bound; nodup_tac];
  unfold of, items, ack_items; cbn [parts];
  cbn [cp_session_expiry_interval cp_receive_maximum cp_max_packet_size cp_topic_alias_max
    cp_request_response_info cp_request_problem_info cp_user_properties cp_authentication_method
    cp_authentication_data wp_delay_interval wp_payload_format_indicator wp_message_expiry_interval
    wp_content_type wp_response_topic wp_correlation_data wp_user_properties
    ca_session_expiry_interval ca_receive_max ca_max_qos ca_retain_available ca_max_packet_size
    ca_assigned_client_identifier ca_topic_alias_max ca_reason_string ca_user_properties
    ca_wildcard_subscription_available ca_subscription_identifiers_available
    ca_shared_subscription_available ca_server_keep_alive ca_response_information
    ca_server_reference ca_authentication_method ca_authentication_data
    pp_payload_format_indicator pp_message_expiry_interval pp_topic_alias pp_response_topic
    pp_correlation_data pp_user_properties pp_subscription_identifiers pp_content_type
    pap_reason_string pap_user_properties prp_reason_string prp_user_properties
    plp_reason_string plp_user_properties pcp_reason_string pcp_user_properties
    sap_reason_string sap_user_properties uap_reason_string uap_user_properties
    sp_id sp_user_properties usp_user_properties
    dp_session_expiry_interval dp_reason_string dp_user_properties dp_server_reference];
  rewrite ?isize_app;
  repeat (apply N.add_le_mono; [part_tac Hl|]);
  first [apply N.le_0_l | rewrite N.add_0_r; part_tac Hl | part_tac Hl].

Definition shrinks {A} (allowed : list N) (of : list item -> A) (items : A -> list item) : Prop :=
  forall l, Forall (wk allowed) l -> isize (items (of l)) <= isize l.
Lemma ConnectProperties_shrinks : shrinks connect_allowed ConnectProperties_of ConnectProperties_items.
Proof. shrink_tac ConnectProperties_of ConnectProperties_items [17; 33; 39; 34; 25; 23; 38; 21; 22]. Qed.
Lemma LastWillProperties_shrinks : shrinks will_allowed LastWillProperties_of LastWillProperties_items.
Proof. shrink_tac LastWillProperties_of LastWillProperties_items [24; 1; 2; 3; 8; 9; 38]. Qed.
Lemma ConnAckProperties_shrinks : shrinks connack_allowed ConnAckProperties_of ConnAckProperties_items.
Proof. shrink_tac ConnAckProperties_of ConnAckProperties_items [17; 33; 36; 37; 39; 18; 34; 31; 38; 40; 41; 42; 19; 26; 28; 21; 22]. Qed.
Lemma PublishProperties_shrinks : shrinks publish_allowed PublishProperties_of PublishProperties_items.
Proof. shrink_tac PublishProperties_of PublishProperties_items [1; 2; 35; 8; 9; 38; 11; 3]. Qed.
Lemma SubscribeProperties_shrinks : shrinks subscribe_allowed SubscribeProperties_of SubscribeProperties_items.
Proof. shrink_tac SubscribeProperties_of SubscribeProperties_items [11; 38]. Qed.
Lemma UnsubscribeProperties_shrinks : shrinks unsubscribe_allowed UnsubscribeProperties_of UnsubscribeProperties_items.
Proof. shrink_tac UnsubscribeProperties_of UnsubscribeProperties_items [38]. Qed.
Lemma DisconnectProperties_shrinks : shrinks disconnect_allowed DisconnectProperties_of DisconnectProperties_items.
Proof. shrink_tac DisconnectProperties_of DisconnectProperties_items [17; 31; 38; 28]. Qed.
Lemma PubAckProperties_shrinks : shrinks ack_allowed PubAckProperties_of PubAckProperties_items.
Proof. shrink_tac PubAckProperties_of PubAckProperties_items [31; 38]. Qed.
Lemma PubRecProperties_shrinks : shrinks ack_allowed PubRecProperties_of PubRecProperties_items.
Proof. shrink_tac PubRecProperties_of PubRecProperties_items [31; 38]. Qed.
Lemma PubRelProperties_shrinks : shrinks ack_allowed PubRelProperties_of PubRelProperties_items.
Proof. shrink_tac PubRelProperties_of PubRelProperties_items [31; 38]. Qed.
Lemma PubCompProperties_shrinks : shrinks ack_allowed PubCompProperties_of PubCompProperties_items.
Proof. shrink_tac PubCompProperties_of PubCompProperties_items [31; 38]. Qed.
Lemma SubAckProperties_shrinks : shrinks ack_allowed SubAckProperties_of SubAckProperties_items.
Proof. shrink_tac SubAckProperties_of SubAckProperties_items [31; 38]. Qed.
Lemma UnsubAckProperties_shrinks : shrinks ack_allowed UnsubAckProperties_of UnsubAckProperties_items.
Proof. shrink_tac UnsubAckProperties_of UnsubAckProperties_items [31; 38]. Qed.

(** ---------- Sections ---------- *)

Lemma nonempty_true {A} (l : list A) : l <> [] -> nonempty l = true.
Proof. destruct l; [congruence|reflexivity]. Qed.
Lemma items_ok_incl ft a b : incl a b -> items_ok ft b -> items_ok ft a.
Proof.
  intros Hi Hb. unfold items_ok in *. rewrite Forall_forall in *. intros i H. apply Hb, Hi, H.
Qed.
Lemma enc_items_incl a b : incl a b -> enc (items_fields b) -> enc (items_fields a).
Proof.
  intros Hi Hb. unfold enc, items_fields in *. rewrite Forall_forall in *. intros f Hf.
  rewrite in_flat_map in Hf. destruct Hf as (i & H1 & H2). apply Hb. rewrite in_flat_map. exists i. auto.
Qed.

Lemma varint_len_le n : blen (varint n) <= 4.
Proof. rewrite varint_len. unfold len_len. destruct (2097152 <=? n), (16384 <=? n), (128 <=? n); lia. Qed.
Lemma section_len l : blen (fields_bytes (section_fields l)) <= 4 + isize l.
Proof. rewrite section_bytes, blen_app. fold (isize l). pose proof (varint_len_le (isize l)). lia. Qed.
(** No property is longer than 131075 bytes, so a section read under a declared length of one byte
    (at most 127) has a length of at most three bytes when it is written. *)
Lemma spelled_len ft allowed s : spelled_wire ft allowed s -> blen (snd s) <= 131075 /\ 1 <= blen (snd s).
Proof.
  destruct s as [[id v] l]. intros (_ & _ & vl & -> & Hv). cbn [snd]. rewrite blen_cons.
  assert (blen vl <= 131074); [|lia].
  destruct v; cbn [value_wire] in Hv.
  - destruct Hv as [_ ->]. vm_compute. discriminate.
  - destruct Hv as [_ ->]. unfold u16be. rewrite !blen_cons, blen_nil. lia.
  - destruct Hv as [_ ->]. unfold u32be. rewrite !blen_cons, blen_nil. lia.
  - apply varint_wire_bound in Hv. lia.
  - destruct Hv as [_ (_ & Hn & ->)]. rewrite blen_app. change (blen (u16be _)) with 2. ulia.
  - destruct Hv as (_ & Hn & ->). rewrite blen_app. change (blen (u16be _)) with 2. ulia.
  - destruct Hv as (l1 & l2 & -> & [_ (_ & H1 & ->)] & [_ (_ & H2 & ->)]). rewrite !blen_app.
    repeat match goal with |- context [blen (u16be ?x)] => change (blen (u16be x)) with 2 end. ulia.
Qed.
Lemma total_least sp : blen (concat (map snd sp)) <= total sp.
Proof. induction sp as [|s sp IH]; [apply N.le_0_l|]. cbn [map concat total]. rewrite blen_app. unfold counted. ulia. Qed.
Lemma covered_len ft allowed d sp : Forall (spelled_wire ft allowed) sp -> covers d sp ->
  blen (concat (map snd sp)) <= d + 131075.
Proof.
  intros H [Hc _]. destruct sp as [|s sp] using rev_ind; [cbn [map concat]; rewrite blen_nil; lia|].
  rewrite removelast_last in Hc. apply Forall_app in H. destruct H as [_ H]. inversion H as [|? ? Hs _]; subst.
  apply spelled_len in Hs. pose proof (total_least sp). rewrite map_app, concat_app, blen_app. cbn [map concat]. rewrite app_nil_r. apply N.le_trans with (total sp + 131075); [apply N.add_le_mono; [exact H0|apply Hs]|apply N.lt_le_incl in Hc; apply N.add_le_mono_r; exact Hc].
Qed.
Lemma section_grows l lb d S : varint_wire d lb -> isize l <= S -> S <= d + 131075 ->
  blen (fields_bytes (section_fields l)) <= blen lb + S + 2.
Proof.
  intros Hd Hl HS. rewrite section_bytes, blen_app. fold (isize l). rewrite varint_len. unfold len_len. apply varint_wire_cases in Hd.
  destruct Hd as [(b0 & -> & ?)|[(b0 & b1 & -> & ?)|[(b0 & b1 & b2 & -> & ?)|(b0 & b1 & b2 & b3 & -> & ?)]]];
    rewrite ?blen_cons, blen_nil;
    destruct (N.leb_spec 2097152 (isize l)); destruct (N.leb_spec 16384 (isize l)); destruct (N.leb_spec 128 (isize l)); ulia.
Qed.

(** It grows only if its length was declared short: by two bytes if it was declared in one byte, so
    that the section is not long. *)
Definition grown (new old : N) : Prop :=
  new <= old \/ (new <= old + 1 /\ old <= 2228300) \/ (16384 <= old /\ old <= 131206).
Lemma section_grows_wide l lb d S : varint_wire d lb -> isize l <= S -> S <= d + 131075 ->
  grown (blen (fields_bytes (section_fields l))) (blen lb + S).
Proof.
  intros Hd Hl HS. unfold grown. rewrite section_bytes, blen_app. fold (isize l). rewrite varint_len. unfold len_len. apply varint_wire_cases in Hd.
  destruct Hd as [(b0 & -> & ?)|[(b0 & b1 & -> & ?)|[(b0 & b1 & b2 & -> & ?)|(b0 & b1 & b2 & b3 & -> & ?)]]];
    rewrite ?blen_cons, blen_nil;
    destruct (N.leb_spec 2097152 (isize l)); destruct (N.leb_spec 16384 (isize l)); destruct (N.leb_spec 128 (isize l));
    first [left; ulia|right; left; split; ulia|right; right; split; ulia].
Qed.

Record back {A} (ft : feature) (items : A -> list item) (o : option A) (ls : bytes) : Prop := {
  back_norm : drop_empty items o = o;
  back_ok : items_ok ft (opt_items items o);
  back_enc : enc (items_fields (opt_items items o));
  back_size : 1 + isize (opt_items items o) <= blen ls;
  back_grow : blen (fields_bytes (section_fields (opt_items items o))) <= blen ls + 2;
  back_wide : grown (blen (fields_bytes (section_fields (opt_items items o)))) (blen ls) }.

Lemma props_back {A} ft allowed (of : list item -> A) (items : A -> list item) o ls :
  (forall l, Forall (wk allowed) l -> incl (items (of l)) l) ->
  (forall l, Forall (wk allowed) l -> l <> [] -> items (of l) <> []) ->
  shrinks allowed of items ->
  props_wire ft allowed of o ls -> back ft items o ls.
Proof.
  intros Hincl Hne Hsh (its & (d & lb & Hd & H) & ->).
  pose proof Hd as Hdw. apply varint_wire_bound in Hd. destruct its as [its|]; cbn [option_map].
  - destruct H as (Hpos & sp & -> & -> & Hsp & Hc). pose proof (spelled_wk _ _ _ Hsp) as Hwk.
    assert (Hn : map fst sp <> []).
    { intros E. apply map_eq_nil in E. subst sp. destruct Hc as [_ Hc]. cbn [total] in Hc. lia. }
    specialize (Hincl _ Hwk). specialize (Hne _ Hwk Hn). specialize (Hsh _ Hwk).
    destruct (spelled_back _ _ _ Hsp) as (S1 & S2 & S3).
    constructor; cbn [drop_empty opt_items].
    + rewrite nonempty_true by exact Hne. reflexivity.
    + eapply items_ok_incl; eassumption.
    + eapply enc_items_incl; eassumption.
    + rewrite blen_app. apply N.add_le_mono; [apply Hd|]. exact (N.le_trans _ _ _ Hsh S3).
    + rewrite blen_app. eapply section_grows; [exact Hdw|exact (N.le_trans _ _ _ Hsh S3)|]. eapply covered_len; eassumption.
    + rewrite blen_app. eapply section_grows_wide; [exact Hdw|exact (N.le_trans _ _ _ Hsh S3)|]. eapply covered_len; eassumption.
  - destruct H as [-> ->]. constructor; cbn [drop_empty opt_items].
    + reflexivity.
    + constructor.
    + constructor.
    + rewrite isize_nil. lia.
    + change (blen (fields_bytes (section_fields []))) with 1. lia.
    + left. change (blen (fields_bytes (section_fields []))) with 1. lia.
Qed.

Lemma section_enc l : enc (items_fields l) -> isize l <= max_varint -> enc (section_fields l).
Proof. intros H1 H2. apply enc_cons. split; [apply var_fits; exact H2|exact H1]. Qed.

Lemma item_data i : value_data (snd i) + value_entries (snd i) <= isize [i].
Proof.
  rewrite isize_one. unfold item_fields. rewrite fields_bytes_cons, blen_app. cbn [field_bytes]. rewrite blen_cons.
  destruct (snd i); cbn [value_data value_entries value_fields]; try lia.
  - rewrite fields_bytes_one, bin_bytes_len. lia.
  - rewrite fields_bytes_one, bin_bytes_len. lia.
  - rewrite fields_bytes_cons, fields_bytes_one, blen_app, !bin_bytes_len. lia.
Qed.
Lemma items_data_le l : props_data l <= isize l.
Proof.
  unfold props_data. induction l as [|i l IH]; [apply N.le_0_l|]. cbn [items_data items_entries].
  rewrite isize_cons. pose proof (item_data i). ulia.
Qed.

(** ---------- Bodies ---------- *)

(** By how many bytes the body may grow when a decoded packet is written again: two for each
    property section. *)
Definition growth (p : Packet) : N :=
  match p with P_Connect _ (Some _) _ => 4 | P_PingReq | P_PingResp => 0 | _ => 2 end.

(** Everything known of a packet decoded from a body. *)
Record sound (ft : feature) (p : Packet) (n : N) : Prop := {
  sound_rust : rust_packet ft p;
  sound_norm : normalize p = p;
  sound_legacy : legacy_connack p = false;
  sound_list : list_safe p = true;
  sound_enc : n <= max_varint -> enc (body_fields p);
  sound_size : blen (fields_bytes (body_fields p)) <= n + growth p;
  sound_data : packet_data p <= n }.

Lemma ConnectProperties_back ft o ls : props_wire ft connect_allowed ConnectProperties_of o ls -> back ft ConnectProperties_items o ls.
Proof. apply props_back; [apply ConnectProperties_incl|apply ConnectProperties_nonempty|apply ConnectProperties_shrinks]. Qed.
Lemma LastWillProperties_back ft o ls : props_wire ft will_allowed LastWillProperties_of o ls -> back ft LastWillProperties_items o ls.
Proof. apply props_back; [apply LastWillProperties_incl|apply LastWillProperties_nonempty|apply LastWillProperties_shrinks]. Qed.
Lemma ConnAckProperties_back ft o ls : props_wire ft connack_allowed ConnAckProperties_of o ls -> back ft ConnAckProperties_items o ls.
Proof. apply props_back; [apply ConnAckProperties_incl|apply ConnAckProperties_nonempty|apply ConnAckProperties_shrinks]. Qed.
Lemma PublishProperties_back ft o ls : props_wire ft publish_allowed PublishProperties_of o ls -> back ft PublishProperties_items o ls.
Proof. apply props_back; [apply PublishProperties_incl|apply PublishProperties_nonempty|apply PublishProperties_shrinks]. Qed.
Lemma PubAckProperties_back ft o ls : props_wire ft ack_allowed PubAckProperties_of o ls -> back ft PubAckProperties_items o ls.
Proof. apply props_back; [apply PubAckProperties_incl|apply PubAckProperties_nonempty|apply PubAckProperties_shrinks]. Qed.
Lemma PubRecProperties_back ft o ls : props_wire ft ack_allowed PubRecProperties_of o ls -> back ft PubRecProperties_items o ls.
Proof. apply props_back; [apply PubRecProperties_incl|apply PubRecProperties_nonempty|apply PubRecProperties_shrinks]. Qed.
Lemma PubRelProperties_back ft o ls : props_wire ft ack_allowed PubRelProperties_of o ls -> back ft PubRelProperties_items o ls.
Proof. apply props_back; [apply PubRelProperties_incl|apply PubRelProperties_nonempty|apply PubRelProperties_shrinks]. Qed.
Lemma PubCompProperties_back ft o ls : props_wire ft ack_allowed PubCompProperties_of o ls -> back ft PubCompProperties_items o ls.
Proof. apply props_back; [apply PubCompProperties_incl|apply PubCompProperties_nonempty|apply PubCompProperties_shrinks]. Qed.
Lemma SubAckProperties_back ft o ls : props_wire ft ack_allowed SubAckProperties_of o ls -> back ft SubAckProperties_items o ls.
Proof. apply props_back; [apply SubAckProperties_incl|apply SubAckProperties_nonempty|apply SubAckProperties_shrinks]. Qed.
Lemma UnsubAckProperties_back ft o ls : props_wire ft ack_allowed UnsubAckProperties_of o ls -> back ft UnsubAckProperties_items o ls.
Proof. apply props_back; [apply UnsubAckProperties_incl|apply UnsubAckProperties_nonempty|apply UnsubAckProperties_shrinks]. Qed.
Lemma SubscribeProperties_back ft o ls : props_wire ft subscribe_allowed SubscribeProperties_of o ls -> back ft SubscribeProperties_items o ls.
Proof. apply props_back; [apply SubscribeProperties_incl|apply SubscribeProperties_nonempty|apply SubscribeProperties_shrinks]. Qed.
Lemma UnsubscribeProperties_back ft o ls : props_wire ft unsubscribe_allowed UnsubscribeProperties_of o ls -> back ft UnsubscribeProperties_items o ls.
Proof. apply props_back; [apply UnsubscribeProperties_incl|apply UnsubscribeProperties_nonempty|apply UnsubscribeProperties_shrinks]. Qed.
Lemma DisconnectProperties_back ft o ls : props_wire ft disconnect_allowed DisconnectProperties_of o ls -> back ft DisconnectProperties_items o ls.
Proof. apply props_back; [apply DisconnectProperties_incl|apply DisconnectProperties_nonempty|apply DisconnectProperties_shrinks]. Qed.

Lemma will_back ft flags w l : will_wire ft flags w l ->
  (forall w', w = Some w' -> bytes_ok (lw_topic w') /\ bytes_ok (lw_message w')
      /\ items_ok ft (opt_items LastWillProperties_items (lw_properties w')))
  /\ option_map normalize_will w = w
  /\ (blen l <= max_varint -> enc (will_fields w))
  /\ blen (fields_bytes (will_fields w)) <= blen l + match w with Some _ => 2 | None => 0 end
  /\ match w with
     | Some w => blen (lw_topic w) + blen (lw_message w)
                 + props_data (opt_items LastWillProperties_items (lw_properties w))
     | None => 0
     end <= blen l.
Proof.
  destruct w as [w|]; cbn [will_wire option_map will_fields]; intros H.
  - destruct H as (_ & _ & _ & ls & lt & lm & -> & Hs & Ht & Hm).
    apply LastWillProperties_back in Hs. destruct Hs as [S1 S2 S3 S4 S5 S6].
    apply bin_back in Ht. destruct Ht as (T1 & T2 & T3 & T4). apply bin_back in Hm. destruct Hm as (M1 & M2 & M3 & M4).
    split; [intros w' E; injection E as <-; auto|]. split; [unfold normalize_will; rewrite S1; destruct w; reflexivity|].
    rewrite !blen_app. split; [|split].
    + intros Hn. apply enc_app. split; [apply section_enc; [exact S3|ulia]|].
      apply enc_cons. split; [exact T2|]. apply enc_cons. split; [exact M2|apply enc_nil].
    + rewrite fields_bytes_app, fields_bytes_cons, fields_bytes_one, !blen_app, !bin_bytes_len.
      cbn [growth]. ulia.
    + pose proof (items_data_le (opt_items LastWillProperties_items (lw_properties w))). ulia.
  - destruct H as (_ & _ & ->). split; [discriminate|]. split; [reflexivity|]. split; [intros _; apply enc_nil|].
    split; apply N.le_0_l.
Qed.

Lemma bin_wire_short s l : bin_wire s l -> blen l <= 65537.
Proof. intros (_ & H & ->). rewrite blen_app. change (blen (u16be (blen s))) with 2. ulia. Qed.
Lemma will_wide ft flags w l : will_wire ft flags w l ->
  blen (fields_bytes (will_fields w)) <= blen l
  \/ (blen (fields_bytes (will_fields w)) <= blen l + 1 /\ blen l <= 2359374)
  \/ (16384 <= blen l /\ blen l <= 262280).
Proof.
  destruct w as [w|]; cbn [will_wire will_fields]; intros H.
  - destruct H as (_ & _ & _ & ls & lt & lm & -> & Hs & Ht & Hm).
    apply LastWillProperties_back in Hs. destruct Hs as [S1 S2 S3 S4 S5 S6].
    pose proof (bin_wire_short _ _ Ht). pose proof (bin_wire_short _ _ Hm).
    apply bin_back in Ht. destruct Ht as (T1 & T2 & T3 & T4). apply bin_back in Hm. destruct Hm as (M1 & M2 & M3 & M4).
    rewrite fields_bytes_app, fields_bytes_cons, fields_bytes_one, !blen_app, !bin_bytes_len. unfold grown in S6.
    destruct S6 as [S6|[[S6 S7]|[S6 S7]]]; [left; ulia|right; left; split; ulia|right; right; split; ulia].
  - left. apply N.le_0_l.
Qed.
Lemma login_short ft flags o l : login_wire ft flags o l -> blen l <= 131074.
Proof.
  intros (u & p & lu & lp & -> & Hu & Hp & _). rewrite blen_app.
  assert (S : forall c s l, optional_str_wire ft c s l -> blen l <= 65537).
  { intros [] s l H; [apply (bin_wire_short s), H|destruct H as [_ ->]; rewrite blen_nil; lia]. }
  apply S in Hu. apply S in Hp. ulia.
Qed.

Lemma empty_text ft : text ft [].
Proof. split; [constructor|]. destruct ft; try exact I; exists []; split; constructor. Qed.
Lemma optional_str_back ft c s l : optional_str_wire ft c s l ->
  text ft s /\ field_error (FBin s) = None
  /\ blen (fields_bytes (if nonempty s then [FBin s] else [])) <= blen l /\ blen s <= blen l.
Proof.
  unfold optional_str_wire. destruct c; intros H.
  - apply str_back in H. destruct H as (T & F & -> & E). split; [exact T|]. split; [exact F|].
    rewrite bin_bytes_len. split; [|ulia]. destruct (nonempty s); [|apply N.le_0_l].
    rewrite fields_bytes_one, bin_bytes_len. ulia.
  - destruct H as [-> ->]. split; [apply empty_text|]. split; [reflexivity|]. split; apply N.le_0_l.
Qed.
Lemma login_back ft flags o l : login_wire ft flags o l ->
  (forall l', o = Some l' -> text ft (lo_username l') /\ text ft (lo_password l'))
  /\ normalize_login o = o
  /\ enc (login_fields o)
  /\ blen (fields_bytes (login_fields o)) <= blen l
  /\ match o with Some l => blen (lo_username l) + blen (lo_password l) | None => 0 end <= blen l.
Proof.
  intros (u & p & lu & lp & -> & Hu & Hp & ->). apply optional_str_back in Hu. apply optional_str_back in Hp.
  destruct Hu as (U1 & U2 & U3 & U4), Hp as (P1 & P2 & P3 & P4). rewrite blen_app.
  destruct (nonempty u || nonempty p) eqn:E.
  - split; [intros l' El; injection El as <-; auto|].
    cbn [normalize_login login_fields lo_username lo_password]. rewrite E. split; [reflexivity|]. split; [|split; [|ulia]].
    + apply enc_app. split; [destruct (nonempty u)|destruct (nonempty p)]; try apply enc_nil;
        (apply enc_cons; split; [assumption|apply enc_nil]).
    + rewrite fields_bytes_app, blen_app. ulia.
  - split; [discriminate|]. split; [reflexivity|]. split; [apply enc_nil|]. split; [apply N.le_0_l|apply N.le_0_l].
Qed.

Lemma ack_back {A} ft (of : list item -> A) items pkid code (o : option A) body :
  (forall o ls, props_wire ft ack_allowed of o ls -> back ft items o ls) ->
  ack_wire ft of pkid code o body ->
  pkid < 65536 /\ drop_empty items o = o /\ items_ok ft (opt_items items o)
  /\ (blen body <= max_varint -> enc (ack_fields pkid code (is_none o) (opt_items items o)))
  /\ blen (fields_bytes (ack_fields pkid code (is_none o) (opt_items items o))) <= blen body + 2
  /\ props_data (opt_items items o) <= blen body.
Proof.
  intros Hb (lk & [Hk ->] & H). split; [exact Hk|]. unfold ack_fields.
  destruct H as [(-> & -> & ->)|[(-> & ->)|(ls & junk & -> & Hj & Hs)]]; cbn [drop_empty opt_items is_none].
  - split; [reflexivity|]. split; [constructor|]. split; [intros _; repeat constructor|].
    split; [apply N.le_add_r|apply N.le_0_l].
  - split; [reflexivity|]. split; [constructor|]. split; [|split; [|apply N.le_0_l]].
    + intros _. destruct ((code =? 0) && true); repeat constructor.
    + rewrite blen_app. change (blen (u16be pkid)) with 2. change (blen [code]) with 1.
      destruct ((code =? 0) && true); [change (blen (fields_bytes [FTwo pkid])) with 2; ulia|].
      change (blen (fields_bytes ([FTwo pkid; FByte code] ++ section_fields []))) with 4. ulia.
  - apply Hb in Hs. destruct Hs as [S1 S2 S3 S4 S5 S6]. split; [exact S1|]. split; [exact S2|]. rewrite !blen_app.
    change (blen (u16be pkid)) with 2. change (blen [code]) with 1. split; [|split].
    + intros Hn. destruct ((code =? 0) && is_none o); [repeat constructor|]. apply enc_app.
      split; [repeat constructor|]. apply section_enc; [exact S3|ulia].
    + destruct ((code =? 0) && is_none o); [change (blen (fields_bytes [FTwo pkid])) with 2; ulia|]. rewrite fields_bytes_app, blen_app.
      pose proof (section_len (opt_items items o)). change (blen (fields_bytes [FTwo pkid; FByte code])) with 3. ulia.
    + pose proof (items_data_le (opt_items items o)). ulia.
Qed.

Lemma filters_back ft l lf : list_wire (filter_wire ft) l lf ->
  Forall (fun f => text ft (fi_path f)) l /\ enc (flat_map filter_fields l)
  /\ blen (fields_bytes (flat_map filter_fields l)) = blen lf
  /\ strings_data (map fi_path l) + N.of_nat (length l) <= blen lf.
Proof.
  induction 1 as [|f l la ll (lp & o & -> & Ho & Hp & Hr) Hl (I1 & I2 & I3 & I4)].
  - split; [constructor|]. split; [apply enc_nil|]. split; [reflexivity|apply N.le_0_l].
  - apply str_back in Hp. destruct Hp as (P1 & P2 & P3 & P4). cbn [flat_map map strings_data length].
    split; [constructor; assumption|]. split; [|split].
    + apply enc_app. split; [|exact I2]. apply enc_cons. split; [exact P2|repeat constructor].
    + rewrite fields_bytes_app, !blen_app, I3. unfold filter_fields. rewrite fields_bytes_cons, fields_bytes_one, blen_app, bin_bytes_len.
      cbn [field_bytes]. rewrite P4. change (blen [filter_options f]) with 1. change (blen [o]) with 1. ulia.
    + rewrite !blen_app. change (blen [o]) with 1. ulia.
Qed.
Lemma topics_back ft l lf : list_wire (str_wire ft) l lf ->
  Forall (text ft) l /\ enc (map FBin l) /\ blen (fields_bytes (map FBin l)) = blen lf
  /\ strings_data l + N.of_nat (length l) <= blen lf.
Proof.
  induction 1 as [|f l la ll Hp Hl (I1 & I2 & I3 & I4)].
  - split; [constructor|]. split; [apply enc_nil|]. split; [reflexivity|apply N.le_0_l].
  - apply str_back in Hp. destruct Hp as (P1 & P2 & P3 & P4). cbn [map strings_data length].
    split; [constructor; assumption|]. split; [|split].
    + apply enc_cons. split; assumption.
    + rewrite fields_bytes_cons, !blen_app, I3, bin_bytes_len, P4. reflexivity.
    + rewrite !blen_app. ulia.
Qed.
Lemma codes_enc {A} (f : A -> N) l : enc (map (fun r => FByte (f r)) l).
Proof. induction l; [apply enc_nil|]. apply enc_cons. split; [reflexivity|assumption]. Qed.
Lemma codes_len {A} (f : A -> N) l : blen (fields_bytes (map (fun r => FByte (f r)) l)) = N.of_nat (length l).
Proof. rewrite codes_bytes. unfold blen. rewrite map_length. reflexivity. Qed.
Lemma codes_map_len {A} (f : A -> N) l : blen (map f l) = N.of_nat (length l).
Proof. unfold blen. rewrite map_length. reflexivity. Qed.
Lemma pkid_len n : blen (fields_bytes [FTwo n]) = 2. Proof. reflexivity. Qed.

Lemma body_back ft byte1 p body : bytes_ok body -> body_wire ft byte1 p body -> sound ft p (blen body).
Proof.
  intros Hok H. destruct p as [c w l|a|p|a| | |s|a|a|a|a|u|a|d]; cbn [body_wire] in H;
    try (destruct H as [_ H]).
  - (* Connect *)
    destruct H as (flags & lk & ls & lc & lw & ll & junk & -> & Hf & Hj & Hcl & [Hk ->] & Hs & Hc & Hw & Hl).
    apply ConnectProperties_back in Hs. destruct Hs as [S1 S2 S3 S4 S5 S6].
    apply str_back in Hc. destruct Hc as (C1 & C2 & C3 & C4).
    apply will_back in Hw. destruct Hw as (W1 & W2 & W3 & W4 & W5).
    apply login_back in Hl. destruct Hl as (L1 & L2 & L3 & L4 & L5).
    assert (El : blen ((u16be 4 ++ mqtt) ++ [5; flags] ++ u16be (co_keep_alive c) ++ ls ++ lc ++ lw ++ ll ++ junk)
       = 10 + blen ls + blen lc + blen lw + blen ll + blen junk).
    { rewrite !blen_app. change (blen (u16be 4)) with 2. change (blen mqtt) with 4. change (blen [5; flags]) with 2.
      change (blen (u16be (co_keep_alive c))) with 2. ulia. }
    constructor; try reflexivity; rewrite ?El.
    + cbn [rust_packet]. auto.
    + cbn [normalize]. rewrite S1, W2, L2. destruct c; reflexivity.
    + intros Hn. cbn [body_fields]. unfold connect_fields.
      apply enc_app. split; [repeat constructor|]. apply enc_app. split; [apply section_enc; [exact S3|ulia]|].
      apply enc_app. split; [apply enc_cons; split; [exact C2|apply enc_nil]|].
      apply enc_app. split; [apply W3; ulia|exact L3].
    + cbn [body_fields]. unfold connect_fields. rewrite !fields_bytes_app, !blen_app, fields_bytes_one, bin_bytes_len.
      match goal with |- blen (fields_bytes ?x) + _ <= _ => change (blen (fields_bytes x)) with 10 end.
      assert (G : growth (P_Connect c w l) = 2 + match w with Some _ => 2 | None => 0 end) by (destruct w; reflexivity). rewrite G. ulia.
    + cbn [packet_data]. pose proof (items_data_le (opt_items ConnectProperties_items (co_properties c))). ulia.
  - (* ConnAck *)
    destruct H as (flags & ls & junk & -> & Hf & Hj & Hlc & Hsp & Hs).
    apply ConnAckProperties_back in Hs. destruct Hs as [S1 S2 S3 S4 S5 S6].
    assert (El : blen ([flags; connack_code (ck_code a)] ++ ls ++ junk) = 2 + blen ls + blen junk).
    { rewrite !blen_app. match goal with |- blen ?x + _ = _ => change (blen x) with 2 end. ulia. }
    constructor; try reflexivity; rewrite ?El; try assumption.
    + cbn [normalize]. rewrite S1. destruct a; reflexivity.
    + intros Hn. cbn [body_fields]. apply enc_app. split; [repeat constructor|]. apply section_enc; [exact S3|ulia].
    + cbn [body_fields]. rewrite fields_bytes_app, blen_app.
      match goal with |- blen (fields_bytes ?x) + _ <= _ => change (blen (fields_bytes x)) with 2 end.
      cbn [growth]. ulia.
    + cbn [packet_data]. pose proof (items_data_le (opt_items ConnAckProperties_items (ck_properties a))). ulia.
  - (* Publish *)
    destruct H as (Hd & Hre & Hq & Hp & lt & li & ls & -> & Ht & Hi & Hs).
    apply PublishProperties_back in Hs. destruct Hs as [S1 S2 S3 S4 S5 S6].
    apply str_back in Ht. destruct Ht as (T1 & T2 & T3 & T4).
    assert (El : blen (lt ++ li ++ ls ++ pu_payload p) = blen lt + blen li + blen ls + blen (pu_payload p)).
    { rewrite !blen_app. ulia. }
    constructor; try reflexivity; rewrite ?El.
    + cbn [rust_packet]. split; [exact T1|]. split; [|split; assumption].
      destruct (pu_qos p); [destruct Hi as [-> _]; reflexivity|apply Hi|apply Hi].
    + cbn [normalize]. rewrite S1. destruct p as [pd pq pr pt pk pp po]; cbn [pu_dup pu_qos pu_retain pu_topic pu_pkid pu_payload pu_properties] in *.
      destruct pq; [destruct Hi as [-> _]| |]; reflexivity.
    + intros Hn. cbn [body_fields]. apply enc_app. split; [apply enc_cons; split; [exact T2|apply enc_nil]|].
      apply enc_app. split.
      { destruct (pu_qos p); [apply enc_nil| |]; (apply enc_cons; split; [|apply enc_nil]);
          cbn [field_error]; destruct Hi as [Hi _]; apply N.eqb_neq in Hi; rewrite Hi; reflexivity. }
      apply enc_app. split; [apply section_enc; [exact S3|ulia]|repeat constructor].
    + cbn [body_fields]. rewrite !fields_bytes_app, !blen_app, !fields_bytes_one, bin_bytes_len.
      assert (Hli : blen (fields_bytes match pu_qos p with AtMostOnce => [] | _ => [FId (pu_pkid p)] end) <= blen li).
      { destruct (pu_qos p); [apply N.le_0_l| |]; rewrite fields_bytes_one; cbn [field_bytes];
          destruct Hi as [Hi [_ ->]]; apply N.eqb_neq in Hi; rewrite Hi; reflexivity. }
      cbn [field_bytes].
      cbn [growth]. ulia.
    + cbn [packet_data]. pose proof (items_data_le (opt_items PublishProperties_items (pu_properties p))). ulia.
  - (* PubAck *)
    apply (ack_back ft _ PubAckProperties_items) in H; [|apply PubAckProperties_back].
    destruct H as (A1 & A2 & A3 & A4 & A5 & A6). constructor; try reflexivity; try assumption.
    + split; assumption.
    + cbn [normalize]. rewrite A2. destruct a; reflexivity.
  - constructor; try reflexivity; try apply N.le_0_l; try exact I. intros _. apply enc_nil.
  - constructor; try reflexivity; try apply N.le_0_l; try exact I. intros _. apply enc_nil.
  - (* Subscribe *)
    destruct H as (lk & ls & lf & -> & [Hk ->] & Hs & Hf & Hne).
    apply SubscribeProperties_back in Hs. destruct Hs as [S1 S2 S3 S4 S5 S6].
    apply filters_back in Hf. destruct Hf as (F1 & F2 & F3 & F4).
    assert (El : blen (u16be (su_pkid s) ++ ls ++ lf) = 2 + blen ls + blen lf).
    { rewrite !blen_app. change (blen (u16be (su_pkid s))) with 2. ulia. }
    constructor; try reflexivity; rewrite ?El.
    + cbn [rust_packet]. auto.
    + cbn [normalize]. rewrite S1. destruct s; reflexivity.
    + apply nonempty_true. exact Hne.
    + intros Hn. cbn [body_fields]. apply enc_app. split; [repeat constructor|].
      apply enc_app. split; [apply section_enc; [exact S3|ulia]|exact F2].
    + cbn [body_fields]. rewrite !fields_bytes_app, !blen_app, pkid_len, F3.
      cbn [growth]. ulia.
    + cbn [packet_data]. pose proof (items_data_le (opt_items SubscribeProperties_items (su_properties s))). ulia.
  - (* SubAck *)
    destruct H as (lk & ls & -> & [Hk ->] & Hs & Hne).
    apply SubAckProperties_back in Hs. destruct Hs as [S1 S2 S3 S4 S5 S6].
    assert (El : blen (u16be (sa_pkid a) ++ ls ++ map suback_code (sa_return_codes a))
                 = 2 + blen ls + N.of_nat (length (sa_return_codes a))).
    { rewrite !blen_app, codes_map_len. change (blen (u16be (sa_pkid a))) with 2. ulia. }
    constructor; try reflexivity; rewrite ?El.
    + split; assumption.
    + cbn [normalize]. rewrite S1. destruct a; reflexivity.
    + apply nonempty_true. exact Hne.
    + intros Hn. cbn [body_fields]. apply enc_app. split; [repeat constructor|].
      apply enc_app. split; [apply section_enc; [exact S3|ulia]|apply codes_enc].
    + cbn [body_fields]. rewrite !fields_bytes_app, !blen_app, pkid_len, codes_len.
      cbn [growth]. ulia.
    + cbn [packet_data]. pose proof (items_data_le (opt_items SubAckProperties_items (sa_properties a))). ulia.
  - (* PubRec *)
    apply (ack_back ft _ PubRecProperties_items) in H; [|apply PubRecProperties_back].
    destruct H as (A1 & A2 & A3 & A4 & A5 & A6). constructor; try reflexivity; try assumption.
    + split; assumption.
    + cbn [normalize]. rewrite A2. destruct a; reflexivity.
  - (* PubRel *)
    apply (ack_back ft _ PubRelProperties_items) in H; [|apply PubRelProperties_back].
    destruct H as (A1 & A2 & A3 & A4 & A5 & A6). constructor; try reflexivity; try assumption.
    + split; assumption.
    + cbn [normalize]. rewrite A2. destruct a; reflexivity.
  - (* PubComp *)
    apply (ack_back ft _ PubCompProperties_items) in H; [|apply PubCompProperties_back].
    destruct H as (A1 & A2 & A3 & A4 & A5 & A6). constructor; try reflexivity; try assumption.
    + split; assumption.
    + cbn [normalize]. rewrite A2. destruct a; reflexivity.
  - (* Unsubscribe *)
    destruct H as (lk & ls & lf & -> & [Hk ->] & Hs & Hf).
    apply UnsubscribeProperties_back in Hs. destruct Hs as [S1 S2 S3 S4 S5 S6].
    apply topics_back in Hf. destruct Hf as (F1 & F2 & F3 & F4).
    assert (El : blen (u16be (un_pkid u) ++ ls ++ lf) = 2 + blen ls + blen lf).
    { rewrite !blen_app. change (blen (u16be (un_pkid u))) with 2. ulia. }
    constructor; try reflexivity; rewrite ?El.
    + cbn [rust_packet]. auto.
    + cbn [normalize]. rewrite S1. destruct u; reflexivity.
    + intros Hn. cbn [body_fields]. apply enc_app. split; [repeat constructor|].
      apply enc_app. split; [apply section_enc; [exact S3|ulia]|exact F2].
    + cbn [body_fields]. rewrite !fields_bytes_app, !blen_app, pkid_len, F3.
      cbn [growth]. ulia.
    + cbn [packet_data]. pose proof (items_data_le (opt_items UnsubscribeProperties_items (un_properties u))). ulia.
  - (* UnsubAck *)
    destruct H as (lk & ls & -> & [Hk ->] & Hs & Hne).
    apply UnsubAckProperties_back in Hs. destruct Hs as [S1 S2 S3 S4 S5 S6].
    assert (El : blen (u16be (ua_pkid a) ++ ls ++ map unsuback_code (ua_reasons a))
                 = 2 + blen ls + N.of_nat (length (ua_reasons a))).
    { rewrite !blen_app, codes_map_len. change (blen (u16be (ua_pkid a))) with 2. ulia. }
    constructor; try reflexivity; rewrite ?El.
    + split; assumption.
    + cbn [normalize]. rewrite S1. destruct a; reflexivity.
    + apply nonempty_true. exact Hne.
    + intros Hn. cbn [body_fields]. apply enc_app. split; [repeat constructor|].
      apply enc_app. split; [apply section_enc; [exact S3|ulia]|apply codes_enc].
    + cbn [body_fields]. rewrite !fields_bytes_app, !blen_app, pkid_len, codes_len.
      cbn [growth]. ulia.
    + cbn [packet_data]. pose proof (items_data_le (opt_items UnsubAckProperties_items (ua_properties a))). ulia.
  - (* Disconnect *)
    destruct H as [(-> & ->)|(ls & junk & -> & Hj & Hs)].
    { constructor; try reflexivity; try apply N.le_0_l; [constructor|]. intros _. apply enc_nil. }
    apply DisconnectProperties_back in Hs. destruct Hs as [S1 S2 S3 S4 S5 S6].
    assert (El : blen ([disconnect_code (di_reason_code d)] ++ ls ++ junk) = 1 + blen ls + blen junk).
    { rewrite !blen_app. match goal with |- blen ?x + _ = _ => change (blen x) with 1 end. ulia. }
    constructor; try reflexivity; rewrite ?El; try assumption.
    + cbn [normalize]. rewrite S1. destruct d; reflexivity.
    + intros Hn. cbn [body_fields].
      match goal with |- enc (if ?c then _ else _) => destruct c end; [apply enc_nil|].
      apply enc_app. split; [repeat constructor|]. apply section_enc; [exact S3|ulia].
    + cbn [body_fields].
      match goal with |- blen (fields_bytes (if ?c then _ else _)) <= _ => destruct c end; [apply N.le_0_l|].
      rewrite fields_bytes_app, blen_app.
      match goal with |- blen (fields_bytes ?x) + _ <= _ => change (blen (fields_bytes x)) with 1 end.
      cbn [growth]. ulia.
    + cbn [packet_data]. pose proof (items_data_le (opt_items DisconnectProperties_items (di_properties d))). ulia.
Qed.

(** Only a CONNECT with a will grows by more than two bytes, and then it is not long. *)
Lemma body_wide ft byte1 p body : bytes_ok body -> body_wire ft byte1 p body ->
  blen (fields_bytes (body_fields p)) <= blen body + 2
  \/ (blen (fields_bytes (body_fields p)) <= blen body + 3 /\ blen body <= 4194304)
  \/ (16384 <= blen body /\ blen body <= 1048576).
Proof.
  intros Hok H. destruct (body_back _ _ _ _ Hok H) as [_ _ _ _ _ Hz _].
  destruct p as [c w l|a|p|a| | |s|a|a|a|a|u|a|d]; cbn [body_wire growth] in *; try (left; ulia). clear Hz.
  destruct H as [_ (flags & lk & ls & lc & lw & ll & junk & -> & Hf & Hj & Hcl & [Hk ->] & Hs & Hc & Hw & Hl)].
  apply ConnectProperties_back in Hs. destruct Hs as [S1 S2 S3 S4 S5 S6].
  pose proof (bin_wire_short _ _ (proj2 Hc)) as C0. apply str_back in Hc. destruct Hc as (C1 & C2 & C3 & C4).
  pose proof (will_wide _ _ _ _ Hw) as W0. apply will_back in Hw. destruct Hw as (W1 & W2 & W3 & W4 & W5).
  pose proof (login_short _ _ _ _ Hl) as L0. apply login_back in Hl. destruct Hl as (L1 & L2 & L3 & L4 & L5).
  assert (W6 : blen (fields_bytes (will_fields w)) <= blen lw + 2) by (destruct w; ulia).
  assert (El : blen ((u16be 4 ++ mqtt) ++ [5; flags] ++ u16be (co_keep_alive c) ++ ls ++ lc ++ lw ++ ll ++ junk)
     = 10 + blen ls + blen lc + blen lw + blen ll + blen junk).
  { rewrite !blen_app. change (blen (u16be 4)) with 2. change (blen mqtt) with 4. change (blen [5; flags]) with 2.
    change (blen (u16be (co_keep_alive c))) with 2. ulia. }
  rewrite El. cbn [body_fields]. unfold connect_fields. rewrite !fields_bytes_app, !blen_app, fields_bytes_one, bin_bytes_len.
  match goal with |- blen (fields_bytes ?x) + _ <= _ \/ _ => change (blen (fields_bytes x)) with 10 end.
  unfold grown in S6. destruct (N.le_gt_cases 2 (blen junk)) as [J|J]; [left; ulia|].
  destruct S6 as [S6|[[S6 S7]|[S6 S7]]]; [left; ulia| |];
    (destruct W0 as [W0|[[W0 W7]|[W0 W7]]]; first [left; ulia|right; left; split; ulia|right; right; split; ulia]).
Qed.
