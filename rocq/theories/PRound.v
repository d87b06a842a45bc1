(** The encoding of a packet is in the wire language, for the packet's normal form. *)
From Verif Require Import Types Model Spec Wire PBase PVarint PUtf8 PRead PItems PProps PFrame PWire PWrite.
Ltac Zify.zify_post_hook ::= Z.div_mod_to_equations.

(** Every field has an encoding. *)
Definition enc (l : list field) : Prop := Forall (fun f => field_error f = None) l.
Lemma enc_app a b : enc (a ++ b) <-> enc a /\ enc b.
Proof. apply Forall_app. Qed.
Lemma enc_cons f l : enc (f :: l) <-> field_error f = None /\ enc l.
Proof. unfold enc. rewrite Forall_cons_iff. reflexivity. Qed.
Lemma enc_nil : enc []. Proof. constructor. Qed.
Ltac encs :=
  repeat match goal with
  | H : enc (_ ++ _) |- _ => apply enc_app in H; destruct H
  | H : enc (_ :: _) |- _ => apply enc_cons in H; destruct H
  end.
Lemma bin_small s : field_error (FBin s) = None -> blen s < 65536.
Proof. cbn [field_error]. destruct (N.leb_spec (blen s) 65535); [lia|discriminate]. Qed.
Lemma var_small n : field_error (FVar n) = None -> n <= max_varint.
Proof. cbn [field_error]. destruct (N.leb_spec n max_varint); [auto|discriminate]. Qed.
Lemma fields_bytes_cons f l : fields_bytes (f :: l) = field_bytes f ++ fields_bytes l.
Proof. reflexivity. Qed.
Lemma fields_bytes_one f : fields_bytes [f] = field_bytes f.
Proof. unfold fields_bytes. cbn [flat_map]. apply app_nil_r. Qed.

Lemma bin_enc_wire s : bytes_ok s -> field_error (FBin s) = None -> bin_wire s (field_bytes (FBin s)).
Proof. intros Hs H. apply bin_small in H. repeat split; assumption. Qed.
Lemma str_enc_wire ft s : text ft s -> field_error (FBin s) = None -> str_wire ft s (field_bytes (FBin s)).
Proof. intros [Hs Ht] H. split; [split; assumption|]. apply bin_enc_wire; assumption. Qed.

Lemma value_enc_wire ft v : value_ok ft v -> enc (value_fields v) -> value_wire ft v (fields_bytes (value_fields v)).
Proof.
  intros Hv He. destruct v; cbn [value_ok value_fields value_wire] in *;
    rewrite ?fields_bytes_one; try (rewrite fields_bytes_cons, fields_bytes_one); encs.
  - cbn [field_bytes]. auto.
  - split; [assumption|reflexivity].
  - split; [assumption|reflexivity].
  - apply varint_is_wire. apply var_small. assumption.
  - apply str_enc_wire; assumption.
  - apply bin_enc_wire; assumption.
  - destruct Hv as [Hk Hv]. do 2 eexists. split; [reflexivity|]. split; apply str_enc_wire; assumption.
Qed.

(** ---------- Spelling items the way they are written ---------- *)

Definition spell (l : list item) : list spelled := map (fun i => (i, fields_bytes (item_fields i))) l.
Lemma spell_app a b : spell (a ++ b) = spell a ++ spell b.
Proof. apply map_app. Qed.
Lemma spell_items l : map fst (spell l) = l.
Proof. unfold spell. rewrite map_map. cbn [fst]. apply map_id. Qed.
Lemma spell_bytes l : concat (map snd (spell l)) = fields_bytes (items_fields l).
Proof.
  unfold spell. rewrite map_map. cbn [snd]. unfold items_fields, fields_bytes.
  induction l as [|i l IH]; [reflexivity|]. cbn [map concat flat_map]. rewrite flat_map_app. f_equal. exact IH.
Qed.
Lemma spell_wire ft allowed l : Forall (wk allowed) l -> items_ok ft l -> enc (items_fields l) ->
  Forall (spelled_wire ft allowed) (spell l).
Proof.
  induction l as [|[id v] l IH]; intros Hw Hi He; [constructor|].
  apply Forall_cons_iff in Hw. destruct Hw as [[Hin Hk] Hw]. unfold items_ok in Hi. apply Forall_cons_iff in Hi.
  destruct Hi as [Hv Hi]. unfold items_fields in He. cbn [flat_map] in He. encs.
  cbn [spell map]. constructor; [|apply IH; assumption].
  cbn [fst snd] in *. split; [exact Hin|]. split; [exact Hk|]. unfold item_fields in *. cbn [fst snd] in *. encs.
  eexists. split; [reflexivity|]. apply value_enc_wire; assumption.
Qed.

Definition is_var (i : item) : bool := match snd i with VVar _ => true | _ => false end.
(** Subscription identifiers in a list of items. *)
Definition nvars (l : list item) : N := N.of_nat (length (filter is_var l)).
Lemma nvars_app a b : nvars (a ++ b) = nvars a + nvars b.
Proof. unfold nvars. rewrite filter_app, app_length. lia. Qed.
Lemma nvars_nil : nvars [] = 0. Proof. reflexivity. Qed.
Lemma nvars_cons i l : nvars (i :: l) = (if is_var i then 1 else 0) + nvars l.
Proof. unfold nvars. cbn [filter]. destruct (is_var i); cbn [length]; lia. Qed.
Lemma total_spell l : total (spell l) = isize l + nvars l.
Proof.
  induction l as [|i l IH]; [reflexivity|]. cbn [spell map]. rewrite total_cons. fold (spell l).
  rewrite IH, isize_cons, isize_one, nvars_cons. unfold counted, is_var. cbn [fst snd].
  destruct (snd i); lia.
Qed.
Lemma isize_pos i : 1 <= isize [i].
Proof. rewrite isize_one. unfold item_fields. rewrite fields_bytes_cons, blen_app. cbn [field_bytes]. rewrite blen_cons. lia. Qed.
Lemma removelast_snoc {A} (l : list A) x : removelast (l ++ [x]) = l.
Proof. rewrite removelast_app by discriminate. cbn [removelast]. apply app_nil_r. Qed.

(** The reader's count reaches the declared length at the last item iff fewer subscription
    identifiers precede it than it has bytes. *)
Lemma covers_spell_snoc l x : covers (isize (l ++ [x])) (spell (l ++ [x])) <-> nvars l < isize [x].
Proof.
  unfold covers. rewrite total_spell, spell_app. cbn [spell map]. rewrite removelast_snoc. fold (spell l).
  rewrite total_spell, isize_app. lia.
Qed.
Lemma covers_spell_no_vars l : l <> [] -> nvars l = 0 -> covers (isize l) (spell l).
Proof.
  intros Hne Hv. destruct (exists_last Hne) as (a & x & ->). apply covers_spell_snoc.
  rewrite nvars_app in Hv. pose proof (isize_pos x). lia.
Qed.

(** The part of the items the reader takes. *)
Lemma covers_prefix d l : 0 < d -> d <= total (spell l) ->
  exists l1 l2, l = l1 ++ l2 /\ l1 <> [] /\ covers d (spell l1).
Proof.
  intros Hd. induction l as [|x l IH] using rev_ind.
  - cbn. lia.
  - intros H. destruct (N.ltb_spec (total (spell l)) d) as [Hlt|Hge].
    + exists (l ++ [x]), []. rewrite app_nil_r. split; [reflexivity|]. split; [destruct l; discriminate|].
      split; [|exact H]. rewrite spell_app. cbn [spell map]. rewrite removelast_snoc. exact Hlt.
    + destruct (IH Hge) as (l1 & l2 & -> & Hne & Hc). exists l1, (l2 ++ [x]). rewrite app_assoc. auto.
Qed.

(** ---------- Sections ---------- *)

Lemma section_bytes l : fields_bytes (section_fields l) = varint (isize l) ++ fields_bytes (items_fields l).
Proof. reflexivity. Qed.
Lemma isize_0 l : isize l = 0 -> l = [].
Proof. destruct l as [|i l]; [reflexivity|]. rewrite isize_cons. pose proof (isize_pos i). lia. Qed.

Lemma section_prefix_wire ft allowed l1 l2 :
  Forall (wk allowed) l1 -> items_ok ft l1 -> enc (section_fields (l1 ++ l2)) -> l1 <> [] ->
  covers (isize (l1 ++ l2)) (spell l1) ->
  section_wire ft allowed (Some l1) (varint (isize (l1 ++ l2)) ++ fields_bytes (items_fields l1)).
Proof.
  intros Hw Hi He Hne Hc. unfold section_fields in He. encs. fold (isize (l1 ++ l2)) in H.
  rewrite items_fields_app in H0. encs.
  exists (isize (l1 ++ l2)), (varint (isize (l1 ++ l2))).
  split; [apply varint_is_wire, var_small; exact H|]. split.
  { destruct (N.eq_dec (isize (l1 ++ l2)) 0) as [E|E]; [|lia]. apply isize_0, app_eq_nil in E. tauto. }
  exists (spell l1). rewrite spell_items, spell_bytes. repeat split; try apply Hc.
  apply spell_wire; assumption.
Qed.
Lemma section_enc_wire ft allowed l :
  Forall (wk allowed) l -> items_ok ft l -> enc (section_fields l) ->
  (l <> [] -> covers (isize l) (spell l)) ->
  section_wire ft allowed (if nonempty l then Some l else None) (fields_bytes (section_fields l)).
Proof.
  intros Hw Hi He Hc. destruct l as [|i l].
  - cbn [nonempty]. exists 0, [0]. split; [|split; reflexivity]. apply (varint_is_wire 0). unfold max_varint. lia.
  - pose proof (section_prefix_wire ft allowed (i :: l) []) as P. rewrite app_nil_r in P.
    apply P; try assumption; try discriminate. apply Hc. discriminate.
Qed.

Lemma props_enc_wire {A} ft allowed (of : list item -> A) (items : A -> list item) o :
  (forall p, of (items p) = p) -> (forall p, Forall (wk allowed) (items p)) ->
  items_ok ft (opt_items items o) -> enc (section_fields (opt_items items o)) ->
  (forall p, o = Some p -> items p <> [] -> covers (isize (items p)) (spell (items p))) ->
  props_wire ft allowed of (drop_empty items o) (fields_bytes (section_fields (opt_items items o))).
Proof.
  intros Hof Hwk Hi He Hc. eexists. split.
  - apply section_enc_wire; [|exact Hi|exact He|].
    + destruct o as [p|]; cbn [opt_items]; [apply Hwk|constructor].
    + destruct o as [p|]; cbn [opt_items]; [apply Hc; reflexivity|congruence].
  - destruct o as [p|]; cbn [drop_empty opt_items nonempty]; [|reflexivity].
    destruct (nonempty (items p)); cbn [option_map]; [rewrite Hof|]; reflexivity.
Qed.

(** Structures without a subscription identifier. *)
Lemma wk_no_vars allowed l : ~ In 11 allowed -> Forall (wk allowed) l -> nvars l = 0.
Proof.
  intros Hn. induction 1 as [|[id v] l [Hin Hk] Hl IH]; [reflexivity|]. rewrite nvars_cons, IH.
  unfold is_var. cbn [fst snd] in *. destruct v; try reflexivity. exfalso.
  destruct (N.eq_dec id 11) as [->|E]; [auto|].
  assert (Hb := property_kind_bound id). destruct id as [|p]; [discriminate|].
  do 6 (destruct p as [p|p|]; try discriminate; try (cbn in Hk; congruence)).
Qed.
Lemma plain_enc_wire {A} ft allowed (of : list item -> A) (items : A -> list item) o :
  ~ In 11 allowed ->
  (forall p, of (items p) = p) -> (forall p, Forall (wk allowed) (items p)) ->
  items_ok ft (opt_items items o) -> enc (section_fields (opt_items items o)) ->
  props_wire ft allowed of (drop_empty items o) (fields_bytes (section_fields (opt_items items o))).
Proof.
  intros Hn Hof Hwk Hi He. apply props_enc_wire; auto. intros p _ Hne. apply covers_spell_no_vars; [exact Hne|].
  eapply wk_no_vars; [exact Hn|apply Hwk].
Qed.
Ltac not11 := let H := fresh in intros H; cbn in H; repeat destruct H as [H|H]; try discriminate; exact H.

Lemma nvars_num id k o : (forall n, is_var (id, k n) = false) -> nvars (num id k o) = 0.
Proof. intros H. destruct o as [n|]; [|reflexivity]. cbn [num]. rewrite nvars_cons, H. reflexivity. Qed.
Lemma nvars_str id k o : (forall n, is_var (id, k n) = false) -> nvars (str id k o) = 0.
Proof. intros H. destruct o as [n|]; [|reflexivity]. cbn [str]. rewrite nvars_cons, H. reflexivity. Qed.
Lemma nvars_users l : nvars (users l) = 0.
Proof. induction l as [|[k v] l IH]; [reflexivity|]. cbn [users map]. rewrite nvars_cons. exact IH. Qed.
Lemma nvars_sub_ids l : nvars (sub_ids l) = N.of_nat (length l).
Proof. induction l as [|n l IH]; [reflexivity|]. cbn [sub_ids map]. rewrite nvars_cons. fold (sub_ids l). rewrite IH. cbn [is_var snd length]. lia. Qed.

Lemma subscribe_covers p : SubscribeProperties_items p <> [] ->
  covers (isize (SubscribeProperties_items p)) (spell (SubscribeProperties_items p)).
Proof.
  unfold SubscribeProperties_items. intros Hne.
  destruct (sp_user_properties p) as [|u us] eqn:E.
  - destruct (sp_id p) as [n|]; [|exfalso; apply Hne; reflexivity].
    cbn [users map num app]. apply (covers_spell_snoc []). pose proof (isize_pos (11, VVar n)). rewrite nvars_nil. lia.
  - assert (Hu : u :: us <> []) by discriminate. destruct (exists_last Hu) as (a & [k v] & Ea). rewrite Ea.
    rewrite users_app, app_assoc. change (users [(k, v)]) with [(38, VPair k v)]. apply covers_spell_snoc.
    rewrite nvars_app, nvars_users, isize_pair.
    assert (nvars (num 11 VVar (sp_id p)) <= 1) by (destruct (sp_id p); unfold nvars; cbn [num filter is_var snd length]; lia). lia.
Qed.

(** PUBLISH: exactly the safe shapes. *)
Definition publish_prefix (q : PublishProperties) : list item :=
  num 1 VByte (pp_payload_format_indicator q)
  ++ num 2 VFour (pp_message_expiry_interval q)
  ++ num 35 VTwo (pp_topic_alias q)
  ++ str 8 VStr (pp_response_topic q)
  ++ str 9 VBin (pp_correlation_data q)
  ++ users (pp_user_properties q).
Lemma publish_items_split q : PublishProperties_items q
  = publish_prefix q ++ sub_ids (pp_subscription_identifiers q) ++ str 3 VStr (pp_content_type q).
Proof. unfold PublishProperties_items, publish_prefix. rewrite <- !app_assoc. reflexivity. Qed.
Lemma publish_prefix_vars q : nvars (publish_prefix q) = 0.
Proof.
  unfold publish_prefix. rewrite !nvars_app, nvars_users.
  rewrite !nvars_num, !nvars_str by reflexivity. reflexivity.
Qed.
Lemma ids_safe_from_snoc ids : forall j x,
  ids_safe_from j (ids ++ [x]) = true <-> j + N.of_nat (length ids) < ids_size [x].
Proof.
  induction ids as [|i ids IH]; intros j x.
  - cbn [app ids_safe_from length]. rewrite andb_true_r. rewrite N.ltb_lt. lia.
  - cbn [app ids_safe_from]. rewrite andb_true_iff, IH, N.ltb_lt. cbn [length].
    assert (E : ids_size (i :: ids ++ [x]) = ids_size (i :: ids) + ids_size [x]).
    { change (i :: ids ++ [x]) with ((i :: ids) ++ [x]). unfold ids_size, sub_ids.
      rewrite map_app. apply (isize_app (map _ _) (map _ _)). }
    rewrite E. lia.
Qed.
Lemma publish_covers q : PublishProperties_items q <> [] ->
  covers (isize (PublishProperties_items q)) (spell (PublishProperties_items q))
  <-> ids_safe (pp_subscription_identifiers q) (pp_content_type q) = true.
Proof.
  rewrite publish_items_split. intros Hne. unfold ids_safe. destruct (pp_content_type q) as [ct|].
  - cbn [str]. rewrite app_assoc, covers_spell_snoc, nvars_app, publish_prefix_vars, nvars_sub_ids, N.ltb_lt.
    assert (E : isize [(3, VStr ct)] = 3 + blen ct).
    { rewrite isize_one. unfold item_fields. cbn [fst snd value_fields]. rewrite fields_bytes_cons, fields_bytes_one.
      cbn [field_bytes app]. rewrite blen_cons, blen_app. change (blen (u16be (blen ct))) with 2. lia. }
    rewrite <- E. reflexivity.
  - cbn [str] in *. rewrite app_nil_r in *. destruct (pp_subscription_identifiers q) as [|i ids] eqn:Ei.
    + cbn [sub_ids map ids_safe_from] in *. rewrite app_nil_r in *. split; [reflexivity|]. intros _.
      apply covers_spell_no_vars; [exact Hne|apply publish_prefix_vars].
    + assert (Hi : i :: ids <> []) by discriminate. destruct (exists_last Hi) as (a & x & Ea). rewrite Ea.
      unfold sub_ids. rewrite map_app. fold (sub_ids a). cbn [map]. rewrite app_assoc, covers_spell_snoc.
      rewrite nvars_app, publish_prefix_vars, nvars_sub_ids, ids_safe_from_snoc. reflexivity.
Qed.

(** ---------- Codes and flags ---------- *)

Lemma connack_code_byte c : connack_code c < 256. Proof. destruct c; reflexivity. Qed.
Lemma publish_first_byte p :
  first_byte (P_Publish p) < 256 /\ first_byte (P_Publish p) / 16 = 3
  /\ pu_dup p = N.testbit (first_byte (P_Publish p)) 3
  /\ pu_retain p = N.testbit (first_byte (P_Publish p)) 0
  /\ qos_num (pu_qos p) = (first_byte (P_Publish p) / 2) mod 4.
Proof. cbn [first_byte]. destruct (pu_dup p), (pu_retain p), (pu_qos p); repeat split. Qed.

Lemma connect_flags_bits clean w l :
  connect_flags clean w l < 256
  /\ clean = N.testbit (connect_flags clean w l) 1
  /\ (match w with
      | None => N.testbit (connect_flags clean w l) 2 = false /\ (connect_flags clean w l / 8) mod 8 = 0
      | Some w' => N.testbit (connect_flags clean w l) 2 = true
                   /\ qos_num (lw_qos w') = (connect_flags clean w l / 8) mod 4
                   /\ lw_retain w' = N.testbit (connect_flags clean w l) 5
      end)
  /\ N.testbit (connect_flags clean w l) 7 = match l with Some l' => nonempty (lo_username l') | None => false end
  /\ N.testbit (connect_flags clean w l) 6 = match l with Some l' => nonempty (lo_password l') | None => false end.
Proof.
  unfold connect_flags.
  destruct clean; destruct w as [w'|]; [destruct (lw_qos w'), (lw_retain w')| |destruct (lw_qos w'), (lw_retain w')|];
    (destruct l as [l'|]; [destruct (nonempty (lo_username l')), (nonempty (lo_password l'))|]);
    repeat split; reflexivity.
Qed.

Lemma filter_options_bits f :
  filter_options f < 256
  /\ qos_num (fi_qos f) = filter_options f mod 4
  /\ fi_nolocal f = N.testbit (filter_options f) 2
  /\ fi_preserve_retain f = N.testbit (filter_options f) 3
  /\ (filter_options f / 16) mod 4 = match fi_retain_forward_rule f with
                              | OnEverySubscribe => 0 | OnNewSubscribe => 1 | Never => 2 end.
Proof.
  unfold filter_options. destruct (fi_qos f), (fi_nolocal f), (fi_preserve_retain f), (fi_retain_forward_rule f);
    repeat split; reflexivity.
Qed.

(** ---------- Bodies ---------- *)

Lemma text_ok ft s : text ft s -> bytes_ok s. Proof. intros [H _]. exact H. Qed.

Lemma will_enc_wire ft clean w l : (forall w', w = Some w' ->
      bytes_ok (lw_topic w') /\ bytes_ok (lw_message w')
      /\ items_ok ft (opt_items LastWillProperties_items (lw_properties w'))) ->
  enc (will_fields w) ->
  will_wire ft (connect_flags clean w l) (option_map normalize_will w) (fields_bytes (will_fields w)).
Proof.
  intros Hr He. destruct (connect_flags_bits clean w l) as (_ & _ & Hb & _).
  destruct w as [w'|]; cbn [option_map will_wire will_fields] in *.
  - destruct Hb as (H2 & Hq & Hre). split; [exact H2|]. split; [exact Hq|]. split; [exact Hre|].
    encs. destruct (Hr w' eq_refl) as (Ht & Hm & Hi).
    rewrite fields_bytes_app, fields_bytes_cons, fields_bytes_one.
    do 3 eexists. split; [reflexivity|]. cbn [normalize_will lw_properties lw_topic lw_message]. split; [|split].
    + apply plain_enc_wire; auto; [not11|apply LastWillProperties_of_items|apply LastWillProperties_items_wk].
    + apply bin_enc_wire; assumption.
    + apply bin_enc_wire; assumption.
  - tauto.
Qed.

Lemma login_enc_wire ft clean w l : (forall l', l = Some l' -> text ft (lo_username l') /\ text ft (lo_password l')) ->
  enc (login_fields l) ->
  login_wire ft (connect_flags clean w l) (normalize_login l) (fields_bytes (login_fields l)).
Proof.
  intros Hr He. destruct (connect_flags_bits clean w l) as (_ & _ & _ & H7 & H6). unfold login_wire.
  rewrite H7, H6. destruct l as [l'|]; cbn [normalize_login login_fields] in *.
  - destruct (Hr l' eq_refl) as (Hu & Hp). encs. rewrite fields_bytes_app.
    exists (lo_username l'), (lo_password l'). do 2 eexists. split; [reflexivity|]. split; [|split].
    + unfold optional_str_wire. destruct (lo_username l') eqn:E; cbn [nonempty] in *; [auto|].
      rewrite fields_bytes_one. encs. apply str_enc_wire; assumption.
    + unfold optional_str_wire. destruct (lo_password l') eqn:E; cbn [nonempty] in *; [auto|].
      rewrite fields_bytes_one. encs. apply str_enc_wire; assumption.
    + destruct l'; reflexivity.
  - exists [], [], [], []. repeat split.
Qed.

Lemma ack_enc_wire {A} ft (of : list item -> A) (items : A -> list item) pkid code (o : option A) :
  pkid < 65536 ->
  (forall p, of (items p) = p) -> (forall p, Forall (wk ack_allowed) (items p)) ->
  items_ok ft (opt_items items o) -> enc (ack_fields pkid code (is_none o) (opt_items items o)) ->
  ack_wire ft of pkid code (drop_empty items o) (fields_bytes (ack_fields pkid code (is_none o) (opt_items items o))).
Proof.
  intros Hk Hof Hwk Hi He. exists (u16be pkid). split; [split; [exact Hk|reflexivity]|]. unfold ack_fields in *.
  destruct (code =? 0) eqn:Ec; cbn [andb] in *; [destruct o as [p|]; cbn [is_none] in *|]; cbv iota in *.
  2: { left. split; [reflexivity|]. split; [apply N.eqb_eq; exact Ec|reflexivity]. }
  all: right; right; cbn [app] in *; encs;
    eexists; exists [];
    (split; [rewrite app_nil_r; reflexivity|]); (split; [constructor|]); apply plain_enc_wire; auto; not11.
Qed.

Lemma codes_bytes {A} (f : A -> N) l : fields_bytes (map (fun r => FByte (f r)) l) = map f l.
Proof. induction l as [|x l IH]; [reflexivity|]. cbn [map]. rewrite fields_bytes_cons, IH. reflexivity. Qed.

Lemma filters_enc_wire ft l : Forall (fun f => text ft (fi_path f)) l -> enc (flat_map filter_fields l) ->
  list_wire (filter_wire ft) l (fields_bytes (flat_map filter_fields l)).
Proof.
  induction 1 as [|f l Hf Hl IH]; intros He; [constructor|]. cbn [flat_map] in *. rewrite fields_bytes_app.
  apply enc_app in He. destruct He as [H1 H2].
  constructor; [|apply IH; assumption]. unfold filter_fields in *. encs.
  destruct (filter_options_bits f) as (B1 & B2 & B3 & B4 & B5).
  exists (field_bytes (FBin (fi_path f))), (filter_options f). rewrite fields_bytes_cons, fields_bytes_one.
  split; [reflexivity|]. split; [exact B1|]. split; [apply str_enc_wire; assumption|]. auto.
Qed.
Lemma topics_enc_wire ft l : Forall (text ft) l -> enc (map FBin l) ->
  list_wire (str_wire ft) l (fields_bytes (map FBin l)).
Proof.
  induction 1 as [|f l Hf Hl IH]; intros He; [constructor|]. cbn [map] in *. rewrite fields_bytes_cons. encs.
  constructor; [apply str_enc_wire; assumption|apply IH; assumption].
Qed.

Lemma nonempty_not_nil {A} (l : list A) : nonempty l = true -> l <> [].
Proof. destruct l; discriminate. Qed.

(** PUBLISH whose section is read only up to the items l1. *)
Lemma publish_enc_wire ft p l1 l2 payload' o :
  rust_packet ft (P_Publish p) -> enc (body_fields (P_Publish p)) ->
  props_wire ft publish_allowed PublishProperties_of o
    (varint (isize (opt_items PublishProperties_items (pu_properties p))) ++ fields_bytes (items_fields l1)) ->
  opt_items PublishProperties_items (pu_properties p) = l1 ++ l2 ->
  bytes_ok payload' -> payload' = fields_bytes (items_fields l2) ++ pu_payload p ->
  publish_wire ft (first_byte (P_Publish p))
    (mkPublish (pu_dup p) (pu_qos p) (pu_retain p) (pu_topic p)
       (match pu_qos p with AtMostOnce => 0 | _ => pu_pkid p end) payload' o)
    (fields_bytes (body_fields (P_Publish p))).
Proof.
  intros (Ht & Hk & Hpl & Hi) He Hs El Hok Epl. destruct (publish_first_byte p) as (_ & _ & B1 & B2 & B3).
  unfold publish_wire. cbn [pu_dup pu_retain pu_qos pu_payload pu_topic pu_pkid pu_properties].
  split; [exact B1|]. split; [exact B2|]. split; [exact B3|]. split; [exact Hok|].
  cbn [body_fields] in *. rewrite !fields_bytes_app in *. encs.
  exists (field_bytes (FBin (pu_topic p))),
         (fields_bytes (match pu_qos p with AtMostOnce => [] | _ => [FId (pu_pkid p)] end)).
  eexists. split; [|split; [apply str_enc_wire; assumption|split; [|exact Hs]]].
  - rewrite section_bytes, El, Epl, items_fields_app, fields_bytes_app, !fields_bytes_one.
    cbn [field_bytes]. rewrite <- !app_assoc. reflexivity.
  - destruct (pu_qos p); [split; reflexivity| |];
      rewrite fields_bytes_one; cbn [field_bytes]; encs; cbn [field_error] in *;
      (destruct (N.eqb_spec (pu_pkid p) 0); [discriminate|]); (split; [assumption|split; [assumption|reflexivity]]).
Qed.

Lemma body_enc_wire ft p : rust_packet ft p -> enc (body_fields p) -> roundtrip_safe p = true ->
  body_wire ft (first_byte p) (normalize p) (fields_bytes (body_fields p)).
Proof.
  intros Hr He Hs. unfold roundtrip_safe in Hs. rewrite !andb_true_iff in Hs. destruct Hs as [[[Hbd Hlc] Hps] Hls].
  destruct p as [c w l|a|p|a| | |s|a|a|a|a|u|a|d]; cbn [rust_packet] in Hr; cbn [first_byte normalize body_wire].
  - (* Connect *) split; [reflexivity|]. destruct Hr as (Hk & Hc & Hi & Hw & Hl).
    cbn [body_fields] in *. unfold connect_fields in *. encs.
    destruct (connect_flags_bits (co_clean_start c) w l) as (B1 & B2 & _).
    rewrite !fields_bytes_app. exists (connect_flags (co_clean_start c) w l), (u16be (co_keep_alive c)).
    eexists. exists (field_bytes (FBin (co_client_id c))). do 2 eexists. exists [].
    split; [|split; [exact B1|split; [constructor|]]].
    2: cbn [co_clean_start co_keep_alive co_properties co_client_id].
    2: split; [exact B2|split; [split; [exact Hk|reflexivity]|split; [|split; [apply str_enc_wire; assumption|split]]]].
    + rewrite app_nil_r, fields_bytes_one. reflexivity.
    + apply plain_enc_wire; auto; [not11|apply ConnectProperties_of_items|apply ConnectProperties_items_wk].
    + apply will_enc_wire; assumption.
    + apply login_enc_wire; assumption.
  - (* ConnAck *) split; [reflexivity|]. cbn [body_fields] in *. encs. rewrite fields_bytes_app.
    exists (bit (ck_session_present a) 1). eexists. exists [].
    cbn [ck_code ck_session_present ck_properties].
    split; [rewrite app_nil_r; reflexivity|]. split; [destruct (ck_session_present a); reflexivity|].
    split; [constructor|]. split; [apply negb_true_iff; exact Hlc|]. split; [destruct (ck_session_present a); reflexivity|].
    apply plain_enc_wire; auto; [not11|apply ConnAckProperties_of_items|apply ConnAckProperties_items_wk].
  - (* Publish *) destruct (publish_first_byte p) as (_ & B & _). split; [exact B|].
    refine (publish_enc_wire ft p (opt_items PublishProperties_items (pu_properties p)) [] _ _ Hr He _ _ _ _).
    + cbn [body_fields] in He. encs. destruct Hr as (_ & _ & _ & Hi).
      change (varint _ ++ _) with (fields_bytes (section_fields (opt_items PublishProperties_items (pu_properties p)))).
      apply props_enc_wire; auto; [apply PublishProperties_of_items|apply PublishProperties_items_wk|].
      intros q Eq Hne. apply publish_covers; [exact Hne|]. cbn [publish_safe] in Hps. rewrite Eq in Hps. exact Hps.
    + rewrite app_nil_r. reflexivity.
    + apply Hr.
    + reflexivity.
  - (* PubAck *) split; [reflexivity|]. destruct Hr as [Hk Hi]. cbn [pa_pkid pa_reason pa_properties body_fields] in *.
    apply ack_enc_wire; auto; [apply PubAckProperties_of_items|apply PubAckProperties_items_wk].
  - split; [reflexivity|constructor].
  - split; [reflexivity|constructor].
  - (* Subscribe *) split; [reflexivity|]. destruct Hr as (Hk & Hi & Hf). cbn [body_fields] in *. encs.
    rewrite !fields_bytes_app. do 3 eexists. cbn [su_pkid su_filters su_properties].
    split; [rewrite fields_bytes_one; reflexivity|]. split; [split; [exact Hk|reflexivity]|]. split; [|split].
    + apply props_enc_wire; auto; [apply SubscribeProperties_of_items|apply SubscribeProperties_items_wk|].
      intros q _. apply subscribe_covers.
    + apply filters_enc_wire; assumption.
    + apply nonempty_not_nil. exact Hls.
  - (* SubAck *) split; [reflexivity|]. destruct Hr as (Hk & Hi). cbn [body_fields] in *. encs.
    rewrite !fields_bytes_app, codes_bytes. do 2 eexists. cbn [sa_pkid sa_return_codes sa_properties].
    split; [rewrite fields_bytes_one; reflexivity|]. split; [split; [exact Hk|reflexivity]|]. split.
    + apply plain_enc_wire; auto; [not11|apply SubAckProperties_of_items|apply SubAckProperties_items_wk].
    + apply nonempty_not_nil. exact Hls.
  - (* PubRec *) split; [reflexivity|]. destruct Hr as [Hk Hi]. cbn [pr_pkid pr_reason pr_properties body_fields] in *.
    apply ack_enc_wire; auto; [apply PubRecProperties_of_items|apply PubRecProperties_items_wk].
  - (* PubRel *) split; [reflexivity|]. destruct Hr as [Hk Hi]. cbn [pl_pkid pl_reason pl_properties body_fields] in *.
    apply ack_enc_wire; auto; [apply PubRelProperties_of_items|apply PubRelProperties_items_wk].
  - (* PubComp *) split; [reflexivity|]. destruct Hr as [Hk Hi]. cbn [pc_pkid pc_reason pc_properties body_fields] in *.
    apply ack_enc_wire; auto; [apply PubCompProperties_of_items|apply PubCompProperties_items_wk].
  - (* Unsubscribe *) split; [reflexivity|]. destruct Hr as (Hk & Hi & Hf). cbn [body_fields] in *. encs.
    rewrite !fields_bytes_app. do 3 eexists. cbn [un_pkid un_filters un_properties].
    split; [rewrite fields_bytes_one; reflexivity|]. split; [split; [exact Hk|reflexivity]|]. split.
    + apply plain_enc_wire; auto; [not11|apply UnsubscribeProperties_of_items|apply UnsubscribeProperties_items_wk].
    + apply topics_enc_wire; assumption.
  - (* UnsubAck *) split; [reflexivity|]. destruct Hr as (Hk & Hi). cbn [body_fields] in *. encs.
    rewrite !fields_bytes_app, codes_bytes. do 2 eexists. cbn [ua_pkid ua_reasons ua_properties].
    split; [rewrite fields_bytes_one; reflexivity|]. split; [split; [exact Hk|reflexivity]|]. split.
    + apply plain_enc_wire; auto; [not11|apply UnsubAckProperties_of_items|apply UnsubAckProperties_items_wk].
    + apply nonempty_not_nil. exact Hls.
  - (* Disconnect *) unfold disconnect_wire. split; [reflexivity|]. cbn [bad_disconnect body_fields] in *.
    cbn [di_reason_code di_properties].
    destruct (disconnect_code (di_reason_code d) =? 0) eqn:Ec; cbn [negb andb] in *.
    + apply N.eqb_eq in Ec.
      assert (Er : di_reason_code d = DRC_NormalDisconnection) by (destruct (di_reason_code d); try discriminate; reflexivity).
      destruct (nonempty (opt_items DisconnectProperties_items (di_properties d))) eqn:En; cbn [negb] in *.
      * right. rewrite fields_bytes_app. eexists. exists []. encs.
        split; [rewrite fields_bytes_one, app_nil_r; reflexivity|]. split; [constructor|].
        apply plain_enc_wire; auto; [not11|apply DisconnectProperties_of_items|apply DisconnectProperties_items_wk].
      * left. split; [reflexivity|]. rewrite Er. destruct (di_properties d) as [q|]; cbn [drop_empty opt_items] in *; [rewrite En|]; reflexivity.
    + right. rewrite fields_bytes_app. eexists. exists []. encs.
      split; [rewrite fields_bytes_one, app_nil_r; reflexivity|]. split; [constructor|].
      apply plain_enc_wire; auto; [not11|apply DisconnectProperties_of_items|apply DisconnectProperties_items_wk].
Qed.

Lemma first_byte_ok p : first_byte p < 256.
Proof. destruct p; try reflexivity. apply publish_first_byte. Qed.
Lemma encode_split p : encode p = first_byte p :: varint (blen (fields_bytes (body_fields p))) ++ fields_bytes (body_fields p).
Proof. reflexivity. Qed.
Lemma encodable_body p : encodable p -> enc (body_fields p) /\ blen (fields_bytes (body_fields p)) <= max_varint.
Proof.
  unfold encodable, packet_fields, frame_fields. intros H. fold (enc (FByte (first_byte p) :: FVar (blen (fields_bytes (body_fields p))) :: body_fields p)) in H.
  encs. split; [assumption|]. apply var_small. assumption.
Qed.
Lemma encode_framed p : encodable p -> framed (first_byte p) (fields_bytes (body_fields p)) (encode p).
Proof.
  intros H. apply encodable_body in H. destruct H as [_ H]. eexists. split; [apply encode_split|].
  apply varint_is_wire. exact H.
Qed.
Lemma encode_frame_wire ft p : rust_packet ft p -> encodable p -> roundtrip_safe p = true ->
  frame_wire ft (normalize p) (encode p).
Proof.
  intros Hr He Hs. pose proof (encodable_body _ He) as [Hb Hn].
  exists (first_byte p), (varint (blen (fields_bytes (body_fields p)))), (fields_bytes (body_fields p)).
  split; [reflexivity|]. split; [apply first_byte_ok|]. split; [apply varint_is_wire; exact Hn|].
  apply body_enc_wire; assumption.
Qed.
