(** The leniences of the reader: exactly the frames on the list of Lenient.v are accepted although
    they are not frames of the standard (C71). *)
From Verif Require Import Types Model Spec Wire Standard Content Driver Lenient PBase PVarint PUtf8 PRead PItems PProps PFrame PWire PTotal
  PWrite PRound PBack TFraming TWrite TRound TBack TProps TStandard TPeer Samples.

(** ** Lists *)

Lemma bytes_dec (a b : bytes) : a = b \/ a <> b.
Proof. destruct (list_eq_dec N.eq_dec a b); auto. Qed.
Lemma texts_dec l : Forall utf8 l \/ exists s, In s l /\ ~ utf8 s.
Proof.
  induction l as [|s l [IH|(x & Hx & N)]]; [left; constructor| |right; exists x; split; [right|]; assumption].
  destruct (utf8_dec s) as [U|U]; [left; constructor; assumption|right; exists s; split; [left; reflexivity|exact U]].
Qed.
Lemma occurs_items id sp : occurrences id sp = length (filter (has_id id) (map fst sp)).
Proof.
  unfold occurrences. induction sp as [|[[j v] l] sp IH]; [reflexivity|]. cbn [filter map fst]. unfold has_id at 1. cbn [fst].
  destruct (j =? id); cbn [length]; congruence.
Qed.
Lemma once_dec many sp : (forall id, ~ In id many -> (occurrences id sp <= 1)%nat) \/ exists id, ~ In id many /\ (2 <= occurrences id sp)%nat.
Proof.
  assert (D : forall ids, (forall id, In id ids -> ~ In id many -> (occurrences id sp <= 1)%nat) \/ exists id, ~ In id many /\ (2 <= occurrences id sp)%nat).
  { induction ids as [|i ids [IH|IH]]; [left; intros ? []| |right; exact IH].
    destruct (in_dec N.eq_dec i many) as [H|H]; [left; intros id [<-|X] Y; [contradiction|auto]|].
    destruct (Compare_dec.le_lt_dec (occurrences i sp) 1) as [L|L]; [left; intros id [<-|X] Y; auto|right; exists i; split; [exact H|exact L]]. }
  destruct (D (map (fun s => fst (fst s)) sp)) as [H|H]; [left|right; exact H].
  intros id Hm. destruct (in_dec N.eq_dec id (map (fun s => fst (fst s)) sp)) as [X|X]; [auto|].
  unfold occurrences. replace (filter _ sp) with (@nil spelled); [cbn; lia|]. symmetry. clear - X. induction sp as [|s sp IH]; [reflexivity|].
  cbn [filter map] in *. match goal with |- (if ?b then _ else _) = _ => destruct b eqn:E end; [exfalso; apply X; left; apply N.eqb_eq; exact E|]. apply IH. intros Y. apply X. right. exact Y.
Qed.

(** ** Sections *)

(** Spelled as the standard has it, or a subscription identifier in a longer form. *)
Lemma spelling_dec ft allowed sp : Forall (spelled_wire ft allowed) sp ->
  sp = spell (map fst sp) \/ exists id n l, In ((id, VVar n), l) sp /\ l <> id :: varint n.
Proof.
  induction 1 as [|[[id v] l] sp H Hs [IH|(i & n & x & Hi & Hx)]]; [left; reflexivity| |right; exists i, n, x; split; [right|]; assumption].
  assert (D : l = fields_bytes (item_fields (id, v)) \/ exists n, v = VVar n /\ l <> id :: varint n).
  { destruct H as (_ & _ & vl & -> & V). change (fields_bytes (item_fields (id, v))) with (id :: fields_bytes (value_fields v)).
    destruct v; cbn [value_wire value_fields] in *.
    - left. destruct V as [_ ->]. reflexivity.
    - left. destruct V as [_ ->]. reflexivity.
    - left. destruct V as [_ ->]. reflexivity.
    - destruct (bytes_dec vl (varint n)) as [->|N]; [left; rewrite fields_bytes_one; reflexivity|right]. exists n. split; [reflexivity|]. intros E. apply N. injection E as E. exact E.
    - left. destruct V as (_ & _ & _ & ->). rewrite fields_bytes_one. reflexivity.
    - left. destruct V as (_ & _ & ->). rewrite fields_bytes_one. reflexivity.
    - left. destruct V as (l1 & l2 & -> & (_ & _ & _ & ->) & (_ & _ & _ & ->)). rewrite fields_bytes_cons, fields_bytes_one. reflexivity. }
  destruct D as [->|(n & -> & N)]; [left|right; exists id, n, l; split; [left; reflexivity|exact N]].
  cbn [map fst]. unfold spell. cbn [map]. f_equal. exact IH.
Qed.
Lemma parts_well_formed ft allowed many sp : Forall (spelled_wire ft allowed) sp -> sp = spell (map fst sp) ->
  (forall id, ~ In id many -> (occurrences id sp <= 1)%nat) -> Forall utf8 (items_texts (map fst sp)) ->
  blen (concat (map snd sp)) <= max_varint -> well_formed_props allowed many (map fst sp).
Proof.
  intros Hw Hsp Ho Hu Hl. split; [|split].
  - apply Forall_map. clear Hsp Ho Hl. induction Hw as [|[[id v] l] sp H Hs IH]; [constructor|].
    cbn [map fst] in Hu. unfold items_texts in Hu. cbn [flat_map] in Hu. apply Forall_app in Hu. destruct Hu as [U Hu].
    constructor; [|apply IH; exact Hu]. destruct H as (Ha & Hk & vl & _ & V). cbn [fst snd] in *. split; [exact Ha|]. split; [exact Hk|].
    destruct v; cbn [value_wire value_texts well_formed_value] in *.
    + apply V.
    + apply V.
    + apply V.
    + apply varint_wire_bound in V. unfold max_varint. tauto.
    + destruct V as (_ & _ & L & _). split; [apply Forall_inv in U; exact U|lia].
    + destruct V as (B & L & _). split; [exact B|lia].
    + destruct V as (l1 & l2 & _ & (_ & _ & L1 & _) & (_ & _ & L2 & _)). rewrite !Forall_cons_iff in U. unfold mqtt_string. split; split; try tauto; lia.
  - intros id Hm. rewrite <- occurs_items. auto.
  - rewrite Hsp, spell_bytes in Hl. exact Hl.
Qed.

Lemma wire_parts ft allowed o ls : section_wire ft allowed o ls ->
  exists declared lb sp, section_parts ft allowed declared lb sp ls /\ map fst sp = match o with Some l => l | None => [] end
    /\ (o = None <-> sp = []).
Proof.
  intros (d & lb & V & H). destruct o as [items|].
  - destruct H as (Hd & sp & -> & -> & Hs & C). exists d, lb, sp. split; [|split; [reflexivity|]].
    + split; [exact V|]. split; [reflexivity|]. split; [exact Hs|]. right. auto.
    + split; [discriminate|]. intros ->. destruct C as [_ C]. cbn in C. lia.
  - destruct H as [-> ->]. exists 0, lb, []. split; [|split; [reflexivity|split; auto]].
    split; [exact V|]. split; [cbn; rewrite app_nil_r; reflexivity|]. split; [constructor|]. left. auto.
Qed.
Lemma section_accepted {A} ft allowed many (of : list item -> A) (items : A -> list item) o ls :
  (forall l, well_formed_props allowed many l -> same_props (items (of l)) l) ->
  props_wire ft allowed of o ls ->
  lenient_section ft allowed many ls
  \/ exists props, well_formed_props allowed many props /\ ls = fields_bytes (section_fields props) /\ same_props (opt_items items o) props.
Proof.
  intros Hof (oi & Hs & ->). destruct (wire_parts _ _ _ _ Hs) as (d & lb & sp & P & Ei & En).
  assert (L : section_lenience many d lb sp -> lenient_section ft allowed many ls) by (intros X; exists d, lb, sp; auto).
  pose proof P as (V & -> & Hw & C).
  destruct (bytes_dec lb (varint d)) as [->|N]; [|left; apply L; constructor 1; exact N].
  destruct (N.eq_dec d (blen (concat (map snd sp)))) as [->|N]; [|left; apply L; constructor 2; exact N].
  destruct (spelling_dec _ _ _ Hw) as [Sp|(id & n & l & Hi & N)]; [|left; apply L; econstructor 3; eassumption].
  destruct (once_dec many sp) as [O|(id & Hi & N)]; [|left; apply L; econstructor 4; eassumption].
  destruct (texts_dec (items_texts (map fst sp))) as [U|(s & Hi & N)]; [|left; apply L; econstructor 5; eassumption].
  right. exists (map fst sp). apply varint_wire_bound in V. fold max_varint in V.
  assert (W : well_formed_props allowed many (map fst sp)) by (apply (parts_well_formed ft); try assumption; unfold max_varint; tauto).
  split; [exact W|]. split.
  - unfold section_fields. rewrite fields_bytes_cons. cbn [field_bytes]. rewrite <- spell_bytes, <- Sp. reflexivity.
  - destruct oi as [l|]; cbn [option_map opt_items].
    + rewrite Ei in *. apply Hof. exact W.
    + rewrite Ei. intros id. reflexivity.
Qed.

(** ** Bodies that are accepted *)

Lemma each_byte (P : N -> bool) : forallb P (map N.of_nat (seq 0 256)) = true -> forall n, n < 256 -> P n = true.
Proof.
  intros H n Hn. rewrite forallb_forall in H. apply H. apply in_map_iff. exists (N.to_nat n). split; [lia|]. apply in_seq. lia.
Qed.
Lemma flags_of_bits n : n < 256 ->
  n = bit (N.testbit n 0) 1 + bit (N.testbit n 1) 2 + bit (N.testbit n 2) 4 + 8 * ((n / 8) mod 4) + bit (N.testbit n 5) 32
      + bit (N.testbit n 6) 64 + bit (N.testbit n 7) 128
  /\ ((n / 8) mod 8 = 0 -> (n / 8) mod 4 = 0 /\ N.testbit n 5 = false).
Proof.
  intros H.
  pose proof (each_byte (fun n => (n =? bit (N.testbit n 0) 1 + bit (N.testbit n 1) 2 + bit (N.testbit n 2) 4 + 8 * ((n / 8) mod 4) + bit (N.testbit n 5) 32
      + bit (N.testbit n 6) 64 + bit (N.testbit n 7) 128) && (negb ((n / 8) mod 8 =? 0) || (((n / 8) mod 4 =? 0) && negb (N.testbit n 5))))
      ltac:(vm_compute; reflexivity) n H) as X. cbv beta in X.
  apply andb_true_iff in X. destruct X as [X Y]. apply N.eqb_eq in X. split; [exact X|]. intros Z. rewrite Z in Y. cbn [N.eqb negb orb] in Y.
  apply andb_true_iff in Y. destruct Y as [Y1 Y2]. apply N.eqb_eq in Y1. apply negb_true_iff in Y2. auto.
Qed.
Lemma options_of_bits n : n < 256 ->
  n = n mod 4 + bit (N.testbit n 2) 4 + bit (N.testbit n 3) 8 + 16 * ((n / 16) mod 4) + 64 * (n / 64).
Proof.
  intros H. apply N.eqb_eq. revert n H. apply (each_byte (fun n => n =? n mod 4 + bit (N.testbit n 2) 4 + bit (N.testbit n 3) 8 + 16 * ((n / 16) mod 4) + 64 * (n / 64))).
  vm_compute. reflexivity.
Qed.

Lemma string_accepted ft s l : str_wire ft s l -> l = field_bytes (FBin s) /\ (utf8 s -> mqtt_string s).
Proof. intros (_ & _ & L & ->). split; [reflexivity|]. intros U. split; [exact U|lia]. Qed.
Lemma binary_accepted s l : bin_wire s l -> l = field_bytes (FBin s) /\ mqtt_binary s.
Proof. intros (B & L & ->). split; [reflexivity|]. split; [exact B|lia]. Qed.
Lemma filters_accepted ft fs l : list_wire (filter_wire ft) fs l ->
  lenient_filters ft fs l
  \/ exists subs, Forall well_formed_subscription subs /\ Forall2 says_filter fs subs
       /\ l = fields_bytes (flat_map (fun s => [FBin (sb_filter s); FByte (options_byte s)]) subs).
Proof.
  induction 1 as [|f fs la ll Hf Hl IH]; [right; exists []; repeat split; constructor|].
  pose proof Hf as (lp & options & -> & Ho & Hp & Hq & Hn & Hr & Hh).
  destruct (N.le_gt_cases 64 options) as [G|G].
  { left. exists [], f, fs, [], lp, options, ll. cbn [app]. repeat split; try assumption; try apply Hp; [constructor|left; exact G]. }
  destruct (utf8_dec (fi_path f)) as [U|U].
  2: { left. exists [], f, fs, [], lp, options, ll. cbn [app]. repeat split; try assumption; try apply Hp; [constructor|right; exact U]. }
  destruct IH as [(fs1 & g & fs2 & l1 & lq & op & l2 & -> & -> & H1 & H2 & H3 & H4)|(subs & W & S & ->)].
  - left. exists (f :: fs1), g, fs2, ((lp ++ [options]) ++ l1), lq, op, l2. split; [reflexivity|]. split; [rewrite <- !app_assoc; reflexivity|].
    split; [constructor; assumption|]. auto.
  - right. destruct (string_accepted _ _ _ Hp) as [-> M].
    set (rh := match fi_retain_forward_rule f with OnEverySubscribe => 0 | OnNewSubscribe => 1 | Never => 2 end) in *.
    exists (mkSubscription (fi_path f) (qos_num (fi_qos f)) (fi_nolocal f) (fi_preserve_retain f) rh :: subs).
    assert (R : rh <= 2) by (unfold rh; destruct (fi_retain_forward_rule f); lia).
    split; [constructor; [|exact W]; split; [apply M; exact U|]; cbn [sb_qos sb_retain_handling]; split; [destruct (fi_qos f); cbn; lia|exact R]|].
    split; [constructor; [|exact S]; repeat split|].
    cbn [flat_map]. rewrite fields_bytes_app. f_equal. cbn [sb_filter]. rewrite fields_bytes_cons, fields_bytes_one. f_equal. cbn [field_bytes].
    f_equal. unfold options_byte. cbn [sb_qos sb_no_local sb_retain_as_published sb_retain_handling].
    rewrite (options_of_bits _ Ho) at 1. rewrite Hq, Hn, Hr, <- Hh. assert (E : options / 64 = 0) by (apply N.div_small; exact G). rewrite E. lia.
Qed.
Lemma topics_accepted ft fs l : list_wire (str_wire ft) fs l ->
  Exists (fun f => ~ utf8 f) fs \/ Forall mqtt_string fs /\ l = fields_bytes (map FBin fs).
Proof.
  induction 1 as [|f fs la ll Hf Hl IH]; [right; split; [constructor|reflexivity]|].
  destruct (string_accepted _ _ _ Hf) as [-> M]. destruct (utf8_dec f) as [U|U]; [|left; constructor 1; exact U].
  destruct IH as [IH|[W ->]]; [left; constructor 2; exact IH|]. right. split; [constructor; auto|]. reflexivity.
Qed.
Lemma junk_dec (junk : bytes) : junk = [] \/ junk <> [].
Proof. destruct junk; [left; reflexivity|right; discriminate]. Qed.

Definition stands_for (p : Packet) (body : bytes) : Prop :=
  exists m l, well_formed m /\ layout m l /\ fields_bytes l = body /\ type_and_flags m = first_byte p /\ says p m.
Lemma ack_accepted {A} ft (of : list item -> A) (items : A -> list item) t pkid code o body :
  (forall l, well_formed_props ack_allowed [38] l -> same_props (items (of l)) l) ->
  In code (ack_codes t) -> ack_wire ft of pkid code o body ->
  lenient_ack ft pkid code body
  \/ exists props l, well_formed (MAck t pkid code props) /\ layout (MAck t pkid code props) l /\ fields_bytes l = body
       /\ same_props (opt_items items o) props.
Proof.
  intros Hof Hc (lk & [Hk ->] & H).
  assert (W0 : well_formed (MAck t pkid code [])).
  { split; [exact Hk|]. split; [exact Hc|]. split; [constructor|]. split; [intros; cbn; lia|]. vm_compute. discriminate. }
  destruct H as [(-> & -> & ->)|[(-> & ->)|(ls & junk & -> & J & P)]].
  - right. exists [], [FTwo pkid]. split; [exact W0|]. split; [constructor|]. split; [apply fields_bytes_one|]. intros id. reflexivity.
  - right. exists [], [FTwo pkid; FByte code]. split; [exact W0|]. split; [constructor|]. split; [reflexivity|]. intros id. reflexivity.
  - destruct (junk_dec junk) as [->|N].
    + destruct (section_accepted ft ack_allowed [38] of items o ls Hof P) as [L|(props & W & -> & S)].
      * left. exists ls, []. split; [reflexivity|]. split; [destruct P as (oi & P & _); eauto|]. right. exact L.
      * right. exists props, ([FTwo pkid; FByte code] ++ section_fields props). split; [split; [exact Hk|split; [exact Hc|exact W]]|].
        split; [constructor|]. split; [rewrite fields_bytes_app, app_nil_r; reflexivity|exact S].
    + left. exists ls, junk. split; [reflexivity|]. split; [destruct P as (oi & P & _); eauto|]. left. exact N.
Qed.
Lemma section_of_props {A} ft allowed (of : list item -> A) o ls : props_wire ft allowed of o ls -> exists oi, section_wire ft allowed oi ls.
Proof. intros (oi & P & _). eauto. Qed.
Lemma codes_bytes {A} (f : A -> N) l : fields_bytes (map FByte (map f l)) = map f l.
Proof. apply bytes_of_codes. Qed.

Lemma will_accepted ft flags w l : will_wire ft flags w l ->
  lenient_will ft w l
  \/ exists w', if_some well_formed_will w' /\ says_will w w'
       /\ l = fields_bytes match w' with
                           | Some w => section_fields (wi_props w) ++ [FBin (wi_topic w); FBin (wi_payload w)]
                           | None => [] end
       /\ match w' with
          | Some w' => N.testbit flags 2 = true /\ wi_qos w' = (flags / 8) mod 4 /\ wi_retain w' = N.testbit flags 5
          | None => N.testbit flags 2 = false /\ (flags / 8) mod 8 = 0
          end.
Proof.
  destruct w as [w|]; cbn [will_wire].
  - intros (F2 & Fq & Fr & ls & lt & lm & -> & P & T & M).
    destruct (utf8_dec (lw_topic w)) as [U|U]; [|left; exists w, ls, lt, lm; auto 8].
    destruct (section_accepted ft will_allowed [38] LastWillProperties_of LastWillProperties_items _ ls LastWillProperties_same P) as [L|(props & W & -> & S)].
    + left. exists w, ls, lt, lm. auto 8.
    + right. destruct (binary_accepted _ _ T) as [-> BT]. destruct (binary_accepted _ _ M) as [-> BM].
      exists (Some (mkWill (qos_num (lw_qos w)) (lw_retain w) props (lw_topic w) (lw_message w))).
      cbn [if_some says_will wi_qos wi_retain wi_props wi_topic wi_payload]. unfold well_formed_will.
      cbn [wi_qos wi_retain wi_props wi_topic wi_payload]. split; [|split; [auto|split; [|auto]]].
      * split; [destruct (lw_qos w); cbn; lia|]. split; [exact W|]. split; [split; [exact U|apply BT]|exact BM].
      * rewrite fields_bytes_app, fields_bytes_cons, fields_bytes_one. reflexivity.
  - intros (F2 & F3 & ->). right. exists None. cbn [if_some says_will]. auto.
Qed.
Lemma login_accepted ft flags o l : login_wire ft flags o l ->
  (exists lo, o = Some lo /\ ~ utf8 (lo_username lo))
  \/ exists user password, if_some mqtt_string user /\ if_some mqtt_binary password /\ says_login o user password
       /\ l = fields_bytes (opt_bin user ++ opt_bin password)
       /\ N.testbit flags 7 = is_some user /\ N.testbit flags 6 = is_some password.
Proof.
  intros (u & p & lu & lp & -> & Hu & Hp & ->).
  assert (U : u = [] \/ utf8 u \/ exists lo, (if nonempty u || nonempty p then Some (mkLogin u p) else None) = Some lo /\ ~ utf8 (lo_username lo)).
  { destruct (utf8_dec u) as [U|U]; [auto|]. destruct u as [|x u]; [auto|]. right. right. eexists. split; [reflexivity|exact U]. }
  assert (U0 : utf8 []) by (exists []; split; [constructor|reflexivity]).
  assert (U' : utf8 u \/ exists lo, (if nonempty u || nonempty p then Some (mkLogin u p) else None) = Some lo /\ ~ utf8 (lo_username lo)).
  { destruct U as [->|U]; auto. }
  clear U. destruct U' as [U|L]; [right|left; exact L].
  exists (if N.testbit flags 7 then Some u else None), (if N.testbit flags 6 then Some p else None).
  assert (E : or_empty (if N.testbit flags 7 then Some u else None) = u /\ or_empty (if N.testbit flags 6 then Some p else None) = p).
  { unfold optional_str_wire in *. destruct (N.testbit flags 7), (N.testbit flags 6); cbn [or_empty]; intuition congruence. }
  destruct E as [E1 E2]. unfold optional_str_wire in *.
  assert (A : if_some mqtt_string (if N.testbit flags 7 then Some u else None)
              /\ lu = fields_bytes (opt_bin (if N.testbit flags 7 then Some u else None))).
  { destruct (N.testbit flags 7); cbn [if_some opt_bin]; [|split; [exact I|apply Hu]].
    destruct (string_accepted _ _ _ Hu) as [-> M]. split; [auto|]. rewrite fields_bytes_one. reflexivity. }
  assert (B : if_some mqtt_binary (if N.testbit flags 6 then Some p else None)
              /\ lp = fields_bytes (opt_bin (if N.testbit flags 6 then Some p else None))).
  { destruct (N.testbit flags 6); cbn [if_some opt_bin]; [|split; [exact I|apply Hp]].
    destruct Hp as [_ Hp]. destruct (binary_accepted _ _ Hp) as [-> M]. split; [exact M|]. rewrite fields_bytes_one. reflexivity. }
  split; [apply A|]. split; [apply B|]. split; [|split; [|split]].
  - destruct u as [|x u]; destruct p as [|y p]; cbn [nonempty orb says_login lo_username lo_password]; auto.
  - rewrite fields_bytes_app. destruct A as [_ <-], B as [_ <-]. reflexivity.
  - destruct (N.testbit flags 7); reflexivity.
  - destruct (N.testbit flags 6); reflexivity.
Qed.
Lemma connect_accepted ft c w l body : connect_wire ft c w l body ->
  lenient_body ft (P_Connect c w l) body \/ stands_for (P_Connect c w l) body.
Proof.
  intros (flags & lk & ls & lc & lw & ll & junk & -> & Hf & J & C & [Hk ->] & P & I & Wi & L).
  assert (Len : (N.testbit flags 0 = true \/ lenient_section ft connect_allowed [38] ls \/ ~ utf8 (co_client_id c)
      \/ lenient_will ft w lw \/ (exists lo, l = Some lo /\ ~ utf8 (lo_username lo)) \/ junk <> []) ->
    lenient_body ft (P_Connect c w l) ((u16be 4 ++ mqtt) ++ [5; flags] ++ u16be (co_keep_alive c) ++ ls ++ lc ++ lw ++ ll ++ junk)).
  { intros X. exists flags, ls, lc, lw, ll, junk. split; [reflexivity|]. split; [eapply section_of_props; exact P|].
    split; [exact I|]. split; [exact Wi|]. split; [exact L|exact X]. }
  destruct (N.testbit flags 0) eqn:F0; [left; apply Len; auto|].
  destruct (section_accepted ft connect_allowed [38] ConnectProperties_of ConnectProperties_items _ ls ConnectProperties_same P) as [X|(props & W & -> & S)];
    [left; apply Len; auto|].
  destruct (utf8_dec (co_client_id c)) as [U|U]; [|left; apply Len; auto].
  destruct (will_accepted _ _ _ _ Wi) as [X|(w' & Ww & Sw & -> & Fw)]; [left; apply Len; auto|].
  destruct (login_accepted _ _ _ _ L) as [X|(user & password & Wu & Wp & Sl & -> & F7 & F6)]; [left; apply Len; auto 8|].
  destruct (junk_dec junk) as [->|N]; [|left; apply Len; auto 8]. right.
  destruct (string_accepted _ _ _ I) as [-> M].
  assert (Fl : flags_byte (co_clean_start c) w' user password = flags).
  { destruct (flags_of_bits _ Hf) as [E Z]. rewrite E, F0, F7, F6, <- C. unfold flags_byte. cbn [bit].
    destruct w' as [w'|].
    - destruct Fw as (-> & -> & ->). cbn [bit]. lia.
    - destruct Fw as (-> & Z'). destruct (Z Z') as [-> ->]. cbn [bit]. lia. }
  eexists (MConnect (co_clean_start c) (co_keep_alive c) props (co_client_id c) w' user password), _.
  split; [|split; [apply lay_connect|split; [|split; [reflexivity|]]]].
  - cbn [well_formed]. repeat (split; [solve [auto]|]). exact Wp.
  - rewrite Fl, !fields_bytes_app, app_nil_r. rewrite fields_bytes_one. rewrite <- !app_assoc. reflexivity.
  - cbn [says]. auto 8.
Qed.
Lemma body_accepted ft b1 p body : body_wire ft b1 p body -> lenient_body ft p body \/ stands_for p body.
Proof.
  destruct p as [c w l|a|p|a| | |s|a|a|a|a|u|a|d]; cbn [body_wire].
  - intros [_ B]. apply (connect_accepted ft c w l body B).
  - intros [_ (flags & ls & junk & -> & Hf & J & Hl & Hs & P)].
    destruct (N.le_gt_cases 2 flags) as [G|G].
    { left. exists flags, ls, junk. split; [reflexivity|]. split; [eapply section_of_props; exact P|auto]. }
    destruct (junk_dec junk) as [->|N].
    2: { left. exists flags, ls, junk. split; [reflexivity|]. split; [eapply section_of_props; exact P|]. right. left. exact N. }
    destruct (section_accepted ft connack_allowed [38] ConnAckProperties_of ConnAckProperties_items _ ls ConnAckProperties_same P) as [X|(props & W & -> & S)].
    { left. exists flags, ls, []. split; [reflexivity|]. split; [eapply section_of_props; exact P|]. right. right. exact X. }
    right. eexists (MConnAck (ck_session_present a) (connack_code (ck_code a)) props), _.
    split; [split; [apply connack_table; exact Hl|exact W]|]. split; [apply lay_connack|]. split; [|split; [reflexivity|cbn [says]; auto]].
    rewrite fields_bytes_app, app_nil_r. f_equal. rewrite Hs.
    assert (E : flags = 0 \/ flags = 1) by lia. destruct E as [-> | ->]; reflexivity.
  - intros [_ (D & R & Q & Y & lt & li & ls & -> & T & I & P)].
    assert (EI : li = match pu_qos p with AtMostOnce => [] | _ => u16be (pu_pkid p) end).
    { destruct (pu_qos p); [apply I|destruct I as [_ [_ I]]; exact I..]. }
    assert (L : lenient_section ft publish_allowed [11; 38] ls \/ ~ utf8 (pu_topic p) -> lenient_body ft (P_Publish p) (lt ++ li ++ ls ++ pu_payload p)).
    { intros X. exists lt, li, ls. auto. }
    destruct (utf8_dec (pu_topic p)) as [U|U]; [|left; apply L; auto].
    destruct (section_accepted ft publish_allowed [11; 38] PublishProperties_of PublishProperties_items _ ls PublishProperties_same P) as [X|(props & W & -> & S)];
      [left; apply L; auto|].
    right. destruct (string_accepted _ _ _ T) as [-> M].
    eexists (MPublish (pu_dup p) (qos_num (pu_qos p)) (pu_retain p) (pu_topic p)
      match pu_qos p with AtMostOnce => None | _ => Some (pu_pkid p) end props (pu_payload p)), _.
    split; [|split; [apply lay_publish|split; [|split; [reflexivity|]]]].
    + cbn [well_formed]. split; [destruct (pu_qos p); cbn; lia|]. split; [auto|]. split; [|auto].
      destruct (pu_qos p); [reflexivity|destruct I as (I1 & I2 & _); cbn [qos_num]; repeat split; [discriminate|exact I1|exact I2]..].
    + rewrite !fields_bytes_app, !fields_bytes_one, EI. f_equal. destruct (pu_qos p); reflexivity.
    + cbn [says]. repeat (split; [reflexivity|]). split; [|auto]. destruct (pu_qos p); [apply I|reflexivity..].
  - intros [_ B]. assert (T : In (puback_code (pa_reason a)) (ack_codes TPubAck)) by (destruct (pa_reason a); cbn; tauto).
    destruct (ack_accepted ft PubAckProperties_of PubAckProperties_items TPubAck _ _ _ _ PubAckProperties_same T B)
      as [L|(props & l & W & Y & E & S)]; [left; exact L|right; eexists _, l; split; [exact W|split; [exact Y|split; [exact E|split; [reflexivity|cbn [says]; auto]]]]].
  - intros [_ J]. destruct (junk_dec body) as [->|N]; [right|left; exact N]. exists MPingReq, []. repeat split. constructor.
  - intros [_ J]. destruct (junk_dec body) as [->|N]; [right|left; exact N]. exists MPingResp, []. repeat split. constructor.
  - intros [_ (lk & ls & lf & -> & [Hk ->] & P & F & Ne)].
    destruct (section_accepted ft subscribe_allowed [38] SubscribeProperties_of SubscribeProperties_items _ ls SubscribeProperties_same P) as [X|(props & W & E & S)].
    { left. exists ls, lf. split; [reflexivity|]. split; [eapply section_of_props; exact P|auto]. }
    destruct (filters_accepted _ _ _ F) as [X|(subs & Ws & Ss & ->)].
    { left. exists ls, lf. split; [reflexivity|]. split; [eapply section_of_props; exact P|auto]. }
    right. subst ls. eexists (MSubscribe (su_pkid s) props subs), _. split; [|split; [apply lay_subscribe|split; [|split; [reflexivity|]]]].
    + cbn [well_formed]. repeat (split; [solve [auto]|]). intros ->. inversion Ss. congruence.
    + rewrite !fields_bytes_app, fields_bytes_one. reflexivity.
    + cbn [says]. auto.
  - intros [_ (lk & ls & -> & [Hk ->] & P & Ne)].
    destruct (section_accepted ft ack_allowed [38] SubAckProperties_of SubAckProperties_items _ ls SubAckProperties_same P) as [X|(props & W & E & S)].
    { left. exists ls. auto. }
    right. subst ls. eexists (MSubAck (sa_pkid a) props (map suback_code (sa_return_codes a))), _. split; [|split; [apply lay_suback|split; [|split; [reflexivity|]]]].
    + cbn [well_formed]. repeat (split; [solve [auto]|]). split; [apply Forall_map, Forall_forall; intros r _; apply suback_table|].
      intros X. apply map_eq_nil in X. auto.
    + rewrite !fields_bytes_app, fields_bytes_one, codes_bytes. reflexivity.
    + cbn [says]. auto.
  - intros [_ B]. assert (T : In (pubrec_code (pr_reason a)) (ack_codes TPubRec)) by (destruct (pr_reason a); cbn; tauto).
    destruct (ack_accepted ft PubRecProperties_of PubRecProperties_items TPubRec _ _ _ _ PubRecProperties_same T B)
      as [L|(props & l & W & Y & E & S)]; [left; exact L|right; eexists _, l; split; [exact W|split; [exact Y|split; [exact E|split; [reflexivity|cbn [says]; auto]]]]].
  - intros [_ B]. assert (T : In (pubrel_code (pl_reason a)) (ack_codes TPubRel)) by (destruct (pl_reason a); cbn; tauto).
    destruct (ack_accepted ft PubRelProperties_of PubRelProperties_items TPubRel _ _ _ _ PubRelProperties_same T B)
      as [L|(props & l & W & Y & E & S)]; [left; exact L|right; eexists _, l; split; [exact W|split; [exact Y|split; [exact E|split; [reflexivity|cbn [says]; auto]]]]].
  - intros [_ B]. assert (T : In (pubcomp_code (pc_reason a)) (ack_codes TPubComp)) by (destruct (pc_reason a); cbn; tauto).
    destruct (ack_accepted ft PubCompProperties_of PubCompProperties_items TPubComp _ _ _ _ PubCompProperties_same T B)
      as [L|(props & l & W & Y & E & S)]; [left; exact L|right; eexists _, l; split; [exact W|split; [exact Y|split; [exact E|split; [reflexivity|cbn [says]; auto]]]]].
  - intros [_ (lk & ls & lf & -> & [Hk ->] & P & F)].
    assert (L : lenient_section ft unsubscribe_allowed [38] ls \/ un_filters u = [] \/ Exists (fun f => ~ utf8 f) (un_filters u) ->
      lenient_body ft (P_Unsubscribe u) (u16be (un_pkid u) ++ ls ++ lf)).
    { intros X. exists ls, lf. split; [reflexivity|]. split; [eapply section_of_props; exact P|exact X]. }
    destruct (section_accepted ft unsubscribe_allowed [38] UnsubscribeProperties_of UnsubscribeProperties_items _ ls UnsubscribeProperties_same P) as [X|(props & W & -> & S)];
      [left; apply L; auto|].
    destruct (topics_accepted _ _ _ F) as [X|[Wf ->]]; [left; apply L; auto|].
    destruct (un_filters u) as [|x fs] eqn:Ef; [left; apply L; auto|]. right. rewrite <- Ef in *.
    eexists (MUnsubscribe (un_pkid u) props (un_filters u)), _. split; [|split; [apply lay_unsubscribe|split; [|split; [reflexivity|]]]].
    + cbn [well_formed]. repeat (split; [solve [auto]|]). congruence.
    + rewrite !fields_bytes_app, fields_bytes_one. reflexivity.
    + cbn [says]. auto.
  - intros [_ (lk & ls & -> & [Hk ->] & P & Ne)].
    destruct (section_accepted ft ack_allowed [38] UnsubAckProperties_of UnsubAckProperties_items _ ls UnsubAckProperties_same P) as [X|(props & W & E & S)].
    { left. exists ls. auto. }
    right. subst ls. eexists (MUnsubAck (ua_pkid a) props (map unsuback_code (ua_reasons a))), _. split; [|split; [apply lay_unsuback|split; [|split; [reflexivity|]]]].
    + cbn [well_formed]. repeat (split; [solve [auto]|]). split; [apply Forall_map, Forall_forall; intros r _; apply unsuback_table|].
      intros X. apply map_eq_nil in X. auto.
    + rewrite !fields_bytes_app, fields_bytes_one, codes_bytes. reflexivity.
    + cbn [says]. auto.
  - intros [_ [(-> & ->)|(ls & junk & -> & J & P)]].
    { right. exists (MDisconnect 0 []), []. split; [split; [left; reflexivity|]|].
      - split; [constructor|]. split; [intros; cbn; lia|]. vm_compute. discriminate.
      - split; [constructor|]. split; [reflexivity|]. split; [reflexivity|]. split; [reflexivity|]. intros id. reflexivity. }
    destruct (junk_dec junk) as [->|N].
    2: { left. exists ls, junk. split; [reflexivity|]. split; [eapply section_of_props; exact P|]. left. exact N. }
    destruct (section_accepted ft disconnect_allowed [38] DisconnectProperties_of DisconnectProperties_items _ ls DisconnectProperties_same P) as [X|(props & W & -> & S)].
    { left. exists ls, []. split; [reflexivity|]. split; [eapply section_of_props; exact P|]. right. exact X. }
    right. eexists (MDisconnect (disconnect_code (di_reason_code d)) props), _. split; [split; [apply disconnect_table|exact W]|].
    split; [apply lay_disconnect|]. split; [rewrite fields_bytes_app, app_nil_r; reflexivity|]. split; [reflexivity|cbn [says]; auto].
Qed.

(** ** Accepted frames *)

Theorem C71_accepted_is_standard_or_listed ft max f rest p :
  bytes_ok (f ++ rest) -> Packet_read ft (f ++ rest) max = (Ok p, rest) ->
  (exists m, standard_frame m f /\ says p m) \/ lenient ft p f.
Proof.
  intros Hs E. apply C37_read_is_the_wire_language in E; [|exact Hs].
  destruct E as (b1 & body & f' & E & (lb & -> & V) & B & _). apply app_inv_tail in E. subst f.
  destruct (N.eq_dec b1 (first_byte p)) as [->|N]; [|right; exists b1, lb, body; auto].
  destruct (bytes_dec lb (varint (blen body))) as [->|N]; [|right; exists (first_byte p), lb, body; auto].
  destruct (body_accepted ft _ p body B) as [L|(m & l & W & Y & <- & T & S)]; [right; exists (first_byte p), (varint (blen body)), body; auto|].
  left. exists m. split; [|exact S]. split; [exact W|]. exists l. split; [exact Y|]. split.
  - apply varint_wire_bound in V. unfold max_varint. tauto.
  - rewrite T. reflexivity.
Qed.

(** ** Sections of a standard frame *)

Lemma text_value_wire ft s l r s' r' : str_wire ft s l -> mqtt_string s' -> l ++ r = field_bytes (FBin s') ++ r' -> s = s' /\ r = r'.
Proof. intros (_ & _ & L & ->) (_ & L') E. apply (bin_prefix s s') in E; [exact E|lia|exact L']. Qed.
Lemma bin_value_wire s l r s' r' : bin_wire s l -> blen s' <= 65535 -> l ++ r = field_bytes (FBin s') ++ r' -> s = s' /\ r = r'.
Proof. intros (_ & L & ->) L' E. apply (bin_prefix s s') in E; [exact E|lia|exact L']. Qed.
Lemma spelled_prefix ft allowed i l j r r' : spelled_wire ft allowed (i, l) -> item_good j ->
  l ++ r = fields_bytes (item_fields j) ++ r' -> i = j /\ l = fields_bytes (item_fields j) /\ r = r'.
Proof.
  destruct i as [id v], j as [id' v']. intros (_ & K & vl & -> & V) [K' V'] E. cbn [fst snd] in *.
  change (fields_bytes (item_fields (id', v'))) with (id' :: fields_bytes (value_fields v')) in *. cbn [app] in E. injection E as <- E.
  rewrite K in K'. destruct v as [n|n|n|n|s|s|k s], v' as [n'|n'|n'|n'|s'|s'|k' s']; try discriminate K';
    cbn [value_wire value_fields well_formed_value] in *; rewrite ?fields_bytes_one, ?fields_bytes_cons in *.
  - destruct V as [_ ->]. cbn [field_bytes fields_bytes flat_map] in *. cbn [app] in E. injection E as -> ->. auto.
  - destruct V as [B ->]. cbn [field_bytes] in *. apply two_prefix in E; [destruct E as [-> ->]; auto|assumption..].
  - destruct V as [B ->]. cbn [field_bytes] in *. apply four_prefix in E; [destruct E as [-> ->]; auto|assumption..].
  - cbn [field_bytes] in *. destruct (varint_prefix _ _ _ _ _ _ V (varint_is_wire _ V') E) as (-> & -> & ->). auto.
  - pose proof (text_value_wire _ _ _ _ _ _ V V' E) as [-> ->]. destruct V as (_ & _ & _ & ->). auto.
  - pose proof (bin_value_wire _ _ _ _ _ V (proj2 V') E) as [-> ->]. destruct V as (_ & _ & ->). auto.
  - destruct V as (l1 & l2 & -> & V1 & V2). destruct V' as [W1 W2]. rewrite <- !app_assoc in E.
    pose proof (text_value_wire _ _ _ _ _ _ V1 W1 E) as [-> E2]. pose proof (text_value_wire _ _ _ _ _ _ V2 W2 E2) as [-> ->].
    destruct V1 as (_ & _ & _ & ->), V2 as (_ & _ & _ & ->). change (fields_bytes []) with (@nil N). rewrite app_nil_r. auto.
Qed.
Lemma total_app' a b : total (a ++ b) = total a + total b.
Proof. induction a as [|s a IH]; [reflexivity|]. cbn [app total]. rewrite IH. lia. Qed.
Lemma covers_no_more d sp s more : covers d sp -> ~ covers d (sp ++ s :: more).
Proof.
  intros [_ H] [H' _]. destruct (exists_last (l := s :: more)) as (b & x & E); [discriminate|]. rewrite E, app_assoc, removelast_last, total_app' in H'. lia.
Qed.
(** Two ways to read properties: one is the beginning of the other. *)
Lemma spelled_split ft allowed sp : forall props r r', Forall (spelled_wire ft allowed) sp -> Forall item_good props ->
  concat (map snd sp) ++ r = fields_bytes (items_fields props) ++ r' ->
  (exists s more, sp = spell props ++ s :: more) \/ (exists a j b, props = a ++ j :: b /\ sp = spell a) \/ sp = spell props /\ r = r'.
Proof.
  induction sp as [|[i l] sp IH]; intros props r r' Hs Hp E.
  - destruct props as [|j props]; [right; right; auto|]. right. left. exists [], j, props. auto.
  - destruct props as [|j props]; [left; exists (i, l), sp; reflexivity|].
    apply Forall_cons_iff in Hs, Hp. destruct Hs as [Hi Hs], Hp as [Hj Hp]. cbn [map concat snd items_fields flat_map] in E.
    fold (items_fields props) in E. rewrite fields_bytes_app, <- !app_assoc in E.
    destruct (spelled_prefix _ _ _ _ _ _ _ Hi Hj E) as (-> & -> & E').
    destruct (IH _ _ _ Hs Hp E') as [(s & more & ->)|[(a & j' & b & -> & ->)|[-> ->]]].
    + left. exists s, more. reflexivity.
    + right. left. exists (j :: a), j', b. auto.
    + auto.
Qed.
Lemma standard_covers allowed many props : well_formed_props allowed many props -> identifiers_fit_in props -> props <> [] ->
  covers (blen (fields_bytes (items_fields props))) (spell props).
Proof.
  intros Hw Hf Hne. destruct (props_items_ok F_default _ _ _ Hw) as (Hk & _ & _). destruct (exists_last Hne) as (before & x & ->).
  apply covers_spell_snoc. specialize (Hf before x eq_refl). unfold nvars. unfold isize. cbn [items_fields flat_map]. rewrite app_nil_r.
  erewrite filter_ext_in; [exact Hf|]. intros i Hin. rewrite Forall_forall in Hk.
  destruct (Hk i (in_or_app _ _ _ (or_introl Hin))) as [_ K]. unfold is_var, has_id. destruct i as [id v]. cbn [fst snd] in *.
  destruct (N.eqb_spec id 11) as [->|Ne].
  - cbn in K. destruct v; try discriminate K. reflexivity.
  - destruct v; try reflexivity. exfalso. apply Ne. apply kvar_11. exact K.
Qed.
Lemma section_unique ft allowed allowed' many props d lb sp ls r r' :
  well_formed_props allowed' many props -> identifiers_fit_in props -> section_parts ft allowed d lb sp ls ->
  ls ++ r = fields_bytes (section_fields props) ++ r' ->
  lb = varint d /\ d = blen (concat (map snd sp)) /\ sp = spell props /\ r = r'.
Proof.
  intros Hw Hf (V & -> & Hs & C) E. unfold section_fields in E. rewrite fields_bytes_cons in E. cbn [field_bytes] in E. rewrite <- !app_assoc in E.
  pose proof Hw as (H1 & _ & H3). destruct (varint_prefix _ _ _ _ _ _ V (varint_is_wire _ H3) E) as (-> & -> & E').
  assert (G : Forall item_good props) by (eapply Forall_impl; [|exact H1]; cbn; intros i (_ & A & B); split; assumption).
  destruct (spelled_split _ _ _ _ _ _ Hs G E') as [(s & more & ->)|[(a & j & b & -> & ->)|[-> ->]]].
  - exfalso. destruct props as [|j props].
    + destruct C as [[_ C]|[C _]]; [discriminate C|]. vm_compute in C. discriminate C.
    + destruct C as [[_ C]|[_ C]]; [discriminate C|]. eapply covers_no_more; [|exact C]. eapply standard_covers; [eassumption..|discriminate].
  - exfalso. assert (Ne : a ++ j :: b <> []) by (destruct a; discriminate). pose proof (standard_covers _ _ _ Hw Hf Ne) as SC.
    rewrite spell_app in SC. destruct C as [[C _]|[_ C]].
    + rewrite C in SC. destruct SC as [SC _]. revert SC. apply N.nlt_0_r.
    + exact (covers_no_more _ _ _ _ C SC).
  - rewrite spell_bytes. auto.
Qed.
Lemma section_rest ft allowed allowed' many props o ls r r' :
  well_formed_props allowed' many props -> identifiers_fit_in props -> section_wire ft allowed o ls ->
  ls ++ r = fields_bytes (section_fields props) ++ r' -> r = r'.
Proof. intros Hw Hf Hs E. destruct (wire_parts _ _ _ _ Hs) as (d & lb & sp & P & _). eapply section_unique; eassumption. Qed.
Lemma standard_section_not_lenient ft allowed many props ls r r' :
  well_formed_props allowed many props -> identifiers_fit_in props -> lenient_section ft allowed many ls ->
  ls ++ r = fields_bytes (section_fields props) ++ r' -> False.
Proof.
  intros Hw Hf (d & lb & sp & P & L) E. destruct (section_unique _ _ _ _ _ _ _ _ _ _ _ Hw Hf P E) as (-> & E2 & -> & _).
  assert (Es : map fst (spell props) = props) by (unfold spell; rewrite map_map; apply map_id). destruct Hw as (H1 & H2 & _).
  destruct L as [N|N|id n l Hi N|id Hi N|s Hi N].
  - apply N. reflexivity.
  - apply N. exact E2.
  - unfold spell in Hi. apply in_map_iff in Hi. destruct Hi as (j & Ej & _). injection Ej as -> <-. apply N. change (fields_bytes (item_fields (id, VVar n))) with (id :: fields_bytes [FVar n]).
    cbn [fst snd value_fields]. rewrite fields_bytes_one. reflexivity.
  - rewrite occurs_items, Es in N. specialize (H2 id Hi). lia.
  - rewrite Es in Hi. unfold items_texts in Hi. apply in_flat_map in Hi. destruct Hi as (i & Hi & Hv). rewrite Forall_forall in H1. destruct (H1 i Hi) as (_ & _ & W).
    apply N. destruct i as [id v]. cbn [snd] in *. destruct v; cbn [value_texts] in Hv; cbn [well_formed_value] in W; try (destruct Hv; fail).
    + destruct Hv as [<-|[]]. apply W.
    + destruct Hv as [<-|[<-|[]]]; apply W.
Qed.

(** ** Bodies of standard frames *)

Lemma says_type p m : says p m -> type_and_flags m = first_byte p.
Proof.
  destruct p, m; cbn [says]; try contradiction; try reflexivity; try (destruct t; try contradiction; reflexivity).
  intros (<- & <- & <- & _). reflexivity.
Qed.
Lemma bin_rest s l r s' r' : bin_wire s l -> mqtt_binary s' -> l ++ r = field_bytes (FBin s') ++ r' -> r = r'.
Proof. intros V (_ & B) E. eapply bin_value_wire; eassumption. Qed.

Lemma ack_not_lenient ft t pkid code props l : well_formed (MAck t pkid code props) -> layout (MAck t pkid code props) l ->
  lenient_ack ft pkid code (fields_bytes l) -> False.
Proof.
  intros (_ & _ & W) Y (ls & junk & E & (o & P) & L).
  assert (F : identifiers_fit_in props) by (eapply no_identifiers; [|exact W]; not11).
  assert (Ls : ls <> []).
  { destruct P as (d & lb & V & P). intros ->. assert (lb = []).
    { destruct o; [destruct P as (_ & sp & _ & P & _)|destruct P as [_ P]]; symmetry in P; [apply app_eq_nil in P; apply P|exact P]. }
    subst lb. destruct V as (_ & [] & _). }
  inversion Y; subst.
  - rewrite fields_bytes_app in E. change (fields_bytes [FTwo pkid; FByte code]) with (u16be pkid ++ [code]) in E. rewrite <- app_assoc in E.
    apply app_inv_head, app_inv_head in E. rewrite <- (app_nil_r (fields_bytes _)) in E.
    destruct L as [N|L].
    + apply N. eapply section_rest; [exact W|exact F|exact P|symmetry; exact E].
    + eapply standard_section_not_lenient; [exact W|exact F|exact L|symmetry; exact E].
  - change (fields_bytes _) with (u16be pkid ++ [code]) in E. apply app_inv_head in E. injection E as E. destruct ls; [congruence|discriminate E].
  - rewrite fields_bytes_one in E. cbn [field_bytes] in E. rewrite <- (app_nil_r (u16be pkid)) in E at 1. apply app_inv_head in E. discriminate E.
Qed.

Lemma options_bound s : well_formed_subscription s -> options_byte s < 64.
Proof. intros (_ & Hq & Hr). unfold options_byte. destruct (sb_no_local s), (sb_retain_as_published s); cbn [bit]; lia. Qed.
Definition subs_bytes (subs : list subscription) : bytes :=
  fields_bytes (flat_map (fun s => [FBin (sb_filter s); FByte (options_byte s)]) subs).
Lemma subs_cons s subs : subs_bytes (s :: subs) = field_bytes (FBin (sb_filter s)) ++ [options_byte s] ++ subs_bytes subs.
Proof. unfold subs_bytes. cbn [flat_map]. rewrite fields_bytes_app, fields_bytes_cons, fields_bytes_one, <- app_assoc. reflexivity. Qed.
Lemma subs_app a b : subs_bytes (a ++ b) = subs_bytes a ++ subs_bytes b.
Proof. unfold subs_bytes. rewrite flat_map_app. apply fields_bytes_app. Qed.
Lemma filters_rest ft fs l : list_wire (filter_wire ft) fs l -> forall subs r r', Forall2 says_filter fs subs -> Forall well_formed_subscription subs ->
  l ++ r = subs_bytes subs ++ r' -> r = r'.
Proof.
  induction 1 as [|f fs la ll Hf Hl IH]; intros subs r r' S W E; inversion S; subst; [exact E|].
  apply Forall_cons_iff in W. destruct W as [W Ws]. destruct Hf as (lp & op & -> & _ & V & _).
  rewrite subs_cons, <- !app_assoc in E. apply (text_value_wire _ _ _ _ _ _ V (proj1 W)) in E. destruct E as [_ E].
  cbn [app] in E. injection E as _ E. eapply IH; eassumption.
Qed.
Lemma filters_not_lenient ft fs subs : Forall2 says_filter fs subs -> Forall well_formed_subscription subs ->
  lenient_filters ft fs (subs_bytes subs) -> False.
Proof.
  intros S W (fs1 & f & fs2 & l1 & lp & op & l2 & -> & E & L1 & V & _ & D).
  apply Forall2_app_inv_l in S. destruct S as (s1 & s2' & S1 & S2 & ->). inversion S2 as [|? s ? s2 Sf S2' E1 E2]. subst.
  apply Forall_app in W. destruct W as [W1 W2]. apply Forall_cons_iff in W2. destruct W2 as [Ws W2].
  rewrite subs_app in E. symmetry in E. eapply filters_rest in E; [|eassumption..].
  rewrite subs_cons, <- app_assoc in E. eapply text_value_wire in E; [|exact V|exact (proj1 Ws)]. destruct E as [Ep E].
  cbn [app] in E. injection E as E _. destruct D as [D|D].
  - pose proof (options_bound s Ws). lia.
  - apply D. rewrite Ep. apply Ws.
Qed.

Lemma two_rest n n' a b : n = n' -> u16be n ++ a = u16be n' ++ b -> a = b.
Proof. intros ->. apply app_inv_head. Qed.

Lemma connect_not_lenient ft c w l m lay : well_formed m -> layout m lay -> says (P_Connect c w l) m ->
  lenient_body ft (P_Connect c w l) (fields_bytes lay) -> False.
Proof.
  intros Wf Y S. destruct m as [clean ka props cid w' user pw| | | | | | | | | | |]; cbn [says] in S; try contradiction.
  inversion Y; subst. destruct Wf as (_ & Wp & Wc & Ww & Wu & Wpw). destruct S as (Sc & Sk & Si & _ & Sw & Sl).
  intros (flags & ls & lc & lw & ll & junk & E & (o & P) & I & Vw & Vl & D).
  assert (F : identifiers_fit_in props) by (eapply no_identifiers; [|exact Wp]; not11).
  rewrite (fields_bytes_app [_; _; _; _]), !fields_bytes_app, fields_bytes_one in E.
  change (fields_bytes [FBin mqtt; FByte 5; FByte ?f; FTwo ?k]) with ((u16be 4 ++ mqtt) ++ [5; f] ++ u16be k) in E.
  rewrite <- !app_assoc in E. apply app_inv_head, app_inv_head in E. clear Y. destruct (blen_app_inv_tail _ _ _ _ E eq_refl) as [Ef E']. clear E. rename E' into E. injection Ef as Ef. rewrite <- Sk in E. apply app_inv_head in E.
  symmetry in E. assert (E1 := section_rest _ _ _ _ _ _ _ _ _ Wp F P E).
  destruct (text_value_wire _ _ _ _ _ _ I Wc E1) as [_ E2].
  assert (HW : exists q, match w' with Some w => qos_num q = wi_qos w | None => True end).
  { destruct w' as [w'|]; [|exists AtMostOnce; exact Logic.I]. apply qos_found. apply Ww. }
  destruct HW as [q Hq]. destruct (flags_standard clean w' user pw q Hq) as (_ & _ & _ & F7 & F6). rewrite Ef in F7, F6.
  assert (F0 : N.testbit flags 0 = false).
  { rewrite <- Ef. unfold flags_byte. destruct w' as [w'|]; [rewrite <- Hq; destruct (wi_retain w'), q|]; destruct clean, (is_some user), (is_some pw); reflexivity. }
  assert (E3 : ll ++ junk = fields_bytes (opt_bin user) ++ fields_bytes (opt_bin pw) ++ []
    /\ (lenient_will ft w lw -> False)).
  { rewrite app_nil_r. destruct w as [w|], w' as [w'|]; cbn [says_will] in Sw; try contradiction.
    - destruct Sw as (_ & _ & _ & St & Sm). destruct Ww as (_ & Wwp & Wt & Wm).
      assert (Fw : identifiers_fit_in (wi_props w')) by (eapply no_identifiers; [|exact Wwp]; not11).
      rewrite fields_bytes_app, fields_bytes_cons, fields_bytes_one in E2.
      split.
      + destruct Vw as (_ & _ & _ & ls2 & lt & lm & -> & (o2 & P2 & _) & T & M). rewrite <- !app_assoc in E2.
        assert (E3 := section_rest _ _ _ _ _ _ _ _ _ Wwp Fw P2 E2).
        assert (E4 := bin_rest _ _ _ _ _ T (string_binary _ Wt) E3). exact (bin_rest _ _ _ _ _ M Wm E4).
      + intros (w2 & ls2 & lt & lm & Ew & -> & T & M & D2). injection Ew as <-. rewrite <- !app_assoc in E2. destruct D2 as [D2|D2].
        * eapply standard_section_not_lenient; [exact Wwp|exact Fw|exact D2|exact E2].
        * apply D2. rewrite St. apply Wt.
    - destruct Vw as (_ & _ & ->). split; [exact E2|]. intros (w2 & ls2 & lt & lm & Ew & _). discriminate Ew. }
  destruct E3 as [E3 NW].
  destruct D as [D|[D|[D|[D|[(lo & -> & D)|D]]]]].
  - congruence.
  - eapply standard_section_not_lenient; [exact Wp|exact F|exact D|exact E].
  - apply D. rewrite Si. apply Wc.
  - exact (NW D).
  - destruct Sl as [Sl _]. apply D. rewrite Sl. destruct user as [u|]; [apply Wu|]. exists []. split; [constructor|reflexivity].
  - apply D. destruct Vl as (u & p & lu & lp & -> & Hu & Hp & _). rewrite F7 in Hu. rewrite F6 in Hp. rewrite <- app_assoc in E3.
    assert (E4 : lp ++ junk = fields_bytes (opt_bin pw) ++ []).
    { destruct user as [u'|]; cbn [is_some optional_str_wire opt_bin] in *.
      - rewrite fields_bytes_one in E3. eapply text_value_wire; [exact Hu|exact Wu|exact E3].
      - destruct Hu as [_ ->]. exact E3. }
    destruct pw as [p'|]; cbn [is_some optional_str_wire opt_bin] in *.
    + rewrite fields_bytes_one in E4. destruct Hp as [_ Hp]. eapply bin_rest; [exact Hp|exact Wpw|exact E4].
    + destruct Hp as [_ ->]. exact E4.
Qed.

Lemma standard_not_lenient ft p m l : well_formed m -> layout m l -> says p m -> supported ft m (type_and_flags m :: varint (blen (fields_bytes l)) ++ fields_bytes l) ->
  lenient_body ft p (fields_bytes l) -> False.
Proof.
  destruct p as [c w lo|a|p|a| | |s|a|a|a|a|u|a|d].
  - intros W Y S _. apply (connect_not_lenient ft c w lo m l W Y S).
  - destruct m as [|present code props| | | | | | | | | |]; try contradiction. intros [_ W] Y (Sp & Sc & _ & _) _ (flags & ls & junk & E & (o & P) & D).
    inversion Y; subst. assert (F : identifiers_fit_in props) by (eapply no_identifiers; [|exact W]; not11).
    rewrite fields_bytes_app in E. destruct (blen_app_inv_tail _ _ _ _ E eq_refl) as [Ef E']. clear E. rename E' into E.
    change (fields_bytes [FByte ?a; FByte ?b]) with [a; b] in Ef. injection Ef as Ef. rewrite <- (app_nil_r (fields_bytes _)) in E. symmetry in E.
    destruct D as [D|[D|D]].
    + rewrite <- Ef in D. destruct (ck_session_present a); cbn in D; lia.
    + apply D. eapply section_rest; [exact W|exact F|exact P|exact E].
    + eapply standard_section_not_lenient; [exact W|exact F|exact D|exact E].
  - destruct m as [| |dup qos retain topic id props payload| | | | | | | | |]; try contradiction.
    intros (_ & Wt & Wi & W & _) Y (_ & Sq & _ & St & Sid & _ & _) F (lt & li & ls & E & T & I & D). cbn [supported] in F. inversion Y; subst.
    destruct D as [D|D]; [|apply D; apply Wt].
    rewrite !fields_bytes_app, !fields_bytes_one in E. symmetry in E. apply (text_value_wire _ _ _ _ _ _ T Wt) in E. destruct E as [_ E].
    assert (E' : ls ++ pu_payload p = fields_bytes (section_fields props) ++ payload).
    { destruct id as [n|].
      - destruct Wi as [Nz _]. destruct (pu_qos p); [contradiction|rewrite fields_bytes_one in E; rewrite Sid in E; cbn [field_bytes] in *; apply app_inv_head in E; exact E..].
      - destruct (pu_qos p); try discriminate Wi. exact E. }
    eapply standard_section_not_lenient; [exact W|exact F|exact D|exact E'].
  - destruct m as [| | |[] id code props| | | | | | | |]; try contradiction. intros W Y (<- & <- & _) _. apply (ack_not_lenient _ _ _ _ _ _ W Y).
  - destruct m; try contradiction. intros _ Y _ _ N. inversion Y; subst. apply N. reflexivity.
  - destruct m; try contradiction. intros _ Y _ _ N. inversion Y; subst. apply N. reflexivity.
  - destruct m as [| | | |id props subs| | | | | | |]; try contradiction. intros (_ & W & Ws & _) Y (Si & _ & Sf) _ (ls & lf & E & (o & P) & D). inversion Y; subst.
    assert (F : identifiers_fit_in props) by (eapply one_identifier; [|exact W]; cbn; lia).
    rewrite !fields_bytes_app, fields_bytes_one in E. cbn [field_bytes] in E. apply app_inv_head in E. fold (subs_bytes subs) in E. symmetry in E.
    destruct D as [D|D]; [eapply standard_section_not_lenient; [exact W|exact F|exact D|exact E]|].
    assert (E' := section_rest _ _ _ _ _ _ _ _ _ W F P E). subst lf. exact (filters_not_lenient _ _ _ Sf Ws D).
  - destruct m as [| | | | |id props codes| | | | | |]; try contradiction. intros (_ & W & _) Y (Si & _ & _) _ (ls & E & D). inversion Y; subst.
    assert (F : identifiers_fit_in props) by (eapply no_identifiers; [|exact W]; not11).
    rewrite !fields_bytes_app, fields_bytes_one in E. cbn [field_bytes] in E. apply app_inv_head in E. symmetry in E.
    eapply standard_section_not_lenient; [exact W|exact F|exact D|exact E].
  - destruct m as [| | |[] id code props| | | | | | | |]; try contradiction. intros W Y (<- & <- & _) _. apply (ack_not_lenient _ _ _ _ _ _ W Y).
  - destruct m as [| | |[] id code props| | | | | | | |]; try contradiction. intros W Y (<- & <- & _) _. apply (ack_not_lenient _ _ _ _ _ _ W Y).
  - destruct m as [| | |[] id code props| | | | | | | |]; try contradiction. intros W Y (<- & <- & _) _. apply (ack_not_lenient _ _ _ _ _ _ W Y).
  - destruct m as [| | | | | |id props fs| | | | |]; try contradiction. intros (_ & W & Ws & Ne) Y (Si & _ & Sf) _ (ls & lf & E & (o & P) & D). inversion Y; subst.
    assert (F : identifiers_fit_in props) by (eapply no_identifiers; [|exact W]; not11).
    rewrite !fields_bytes_app, fields_bytes_one in E. cbn [field_bytes] in E. apply app_inv_head in E. symmetry in E.
    destruct D as [D|[D|D]]; [eapply standard_section_not_lenient; [exact W|exact F|exact D|exact E]|exact (Ne D)|].
    apply Exists_exists in D. destruct D as (x & Hx & D). rewrite Forall_forall in Ws. apply D, Ws, Hx.
  - destruct m as [| | | | | | |id props codes| | | |]; try contradiction. intros (_ & W & _) Y (Si & _ & _) _ (ls & E & D). inversion Y; subst.
    assert (F : identifiers_fit_in props) by (eapply no_identifiers; [|exact W]; not11).
    rewrite !fields_bytes_app, fields_bytes_one in E. cbn [field_bytes] in E. apply app_inv_head in E. symmetry in E.
    eapply standard_section_not_lenient; [exact W|exact F|exact D|exact E].
  - destruct m as [| | | | | | | | | |code props|]; try contradiction. intros (_ & W) Y (Sc & _) _ (ls & junk & E & (o & P) & D).
    assert (F : identifiers_fit_in props) by (eapply no_identifiers; [|exact W]; not11).
    assert (Ls : ls <> []).
    { destruct P as (dd & lb & V & P). intros ->. assert (lb = []).
      { destruct o; [destruct P as (_ & sp & _ & P & _)|destruct P as [_ P]]; symmetry in P; [apply app_eq_nil in P; apply P|exact P]. }
      subst lb. destruct V as (_ & [] & _). }
    inversion Y; subst.
    + rewrite fields_bytes_app in E. destruct (blen_app_inv_tail _ _ _ _ E eq_refl) as [_ E']. clear E. rename E' into E. rewrite <- (app_nil_r (fields_bytes _)) in E. symmetry in E. destruct D as [D|D].
      * apply D. eapply section_rest; [exact W|exact F|exact P|exact E].
      * eapply standard_section_not_lenient; [exact W|exact F|exact D|exact E].
    + injection E as E. destruct ls; [congruence|discriminate E].
    + discriminate E.
Qed.

(** No frame on the list is a frame of the standard that says what the packet says. *)
Theorem C71_listed_is_not_standard ft max f rest p m :
  bytes_ok (f ++ rest) -> Packet_read ft (f ++ rest) max = (Ok p, rest) ->
  lenient ft p f -> says p m -> ~ standard_frame m f.
Proof.
  intros Hs E (b1 & lb & body & -> & V & D) S Hf.
  apply C37_read_is_the_wire_language in E; [|exact Hs]. destruct E as (b1' & body' & f' & Ef & Fr & B & _). apply app_inv_tail in Ef. subst f'.
  assert (Hr : bytes_ok rest) by (apply Forall_app in Hs; apply Hs).
  assert (Sup : supported ft m (b1 :: lb ++ body)).
  { apply (C51_exactly_the_supported_frames ft m (b1 :: lb ++ body) rest None Hf Hr Logic.I). exists p. split; [|exact S].
    apply C37_read_is_the_wire_language; [exact Hs|]. exists b1', body', (b1 :: lb ++ body). split; [reflexivity|]. split; [exact Fr|]. split; [exact B|exact Logic.I]. }
  destruct Hf as (W & l & Y & Hn & Ef). cbn [app] in Ef. injection Ef as E1 E2.
  destruct (varint_prefix _ _ _ _ _ _ V (varint_is_wire _ Hn) E2) as (E3 & -> & ->).
  destruct D as [D|[D|D]].
  - apply D. rewrite E1. apply says_type. exact S.
  - apply D. reflexivity.
  - eapply standard_not_lenient; [exact W|exact Y|exact S| |exact D]. rewrite <- E1. exact Sup.
Qed.

(** So the list is exact. *)
Theorem C71_the_list_is_exact ft max f rest p :
  bytes_ok (f ++ rest) -> Packet_read ft (f ++ rest) max = (Ok p, rest) ->
  lenient ft p f <-> ~ exists m, standard_frame m f /\ says p m.
Proof.
  intros Hs E. split.
  - intros L (m & Hf & S). exact (C71_listed_is_not_standard ft max f rest p m Hs E L S Hf).
  - intros N. destruct (C71_accepted_is_standard_or_listed ft max f rest p Hs E) as [X|L]; [contradiction|exact L].
Qed.
(** A frame of the standard is understood as what it says or it is on the list of what was read
    from it. *)
Theorem C71_misread_frames_are_listed ft max f rest p m :
  bytes_ok (f ++ rest) -> Packet_read ft (f ++ rest) max = (Ok p, rest) ->
  standard_frame m f -> (says p m <-> ~ lenient ft p f).
Proof.
  intros Hs E Hf. split.
  - intros S L. exact (C71_listed_is_not_standard ft max f rest p m Hs E L S Hf).
  - intros N. destruct (C71_accepted_is_standard_or_listed ft max f rest p Hs E) as [(m' & Hf' & S)|L]; [|contradiction].
    rewrite (C51_one_frame_one_message m m' f Hf Hf'). exact S.
Qed.

(** ** Instances *)

(** A frame with its packet, accepted and on the list. *)
Definition listed (ft : feature) (f : bytes) (p : Packet) : Prop := Packet_read ft f None = (Ok p, []) /\ lenient ft p f.
Lemma listed_no_message ft f p : bytes_ok f -> listed ft f p -> ~ exists m, standard_frame m f /\ says p m.
Proof.
  intros Hf [E L]. apply (C71_the_list_is_exact ft None f [] p); [rewrite app_nil_r; exact Hf|rewrite app_nil_r; exact E|exact L].
Qed.
Ltac pieces := split; [vm_compute; reflexivity|].
Lemma wire1 n : n < 128 -> varint_wire n [n].
Proof. intros H. split; [cbn; lia|]. split; [exact H|]. cbn [varint_value]. rewrite N.mod_small by exact H. lia. Qed.
Lemma empty_section ft allowed : exists o, section_wire ft allowed o [0].
Proof. exists None, 0, [0]. split; [apply wire1; reflexivity|auto]. Qed.

Definition a_connack (pr : option ConnAckProperties) : ConnAck := mkConnAck false CRC_Success pr.

(** Reserved bits in the first byte: PINGREQ with flags 1; the overlong remaining length. *)
Example C71_first_byte_instance : listed F_default [193; 0] P_PingReq.
Proof. pieces. exists 193, [0], []. split; [reflexivity|]. split; [apply wire1; reflexivity|]. left. discriminate. Qed.
Example C71_remaining_length_instance : listed F_default [192; 128; 0] P_PingReq.
Proof. pieces. exists 192, [128; 0], []. split; [reflexivity|]. split; [split; [cbn; lia|split; [cbn; lia|reflexivity]]|]. right. left. discriminate. Qed.
(** PINGREQ with a body; CONNACK with a byte behind its properties, and with flag bit 1. *)
Example C71_ping_body_instance : listed F_default [192; 1; 7] P_PingReq.
Proof. pieces. exists 192, [1], [7]. split; [reflexivity|]. split; [apply wire1; reflexivity|]. right. right. discriminate. Qed.
Example C71_left_over_instance : listed F_default [32; 4; 0; 0; 0; 9] (P_ConnAck (a_connack None)).
Proof.
  pieces. exists 32, [4], [0; 0; 0; 9]. split; [reflexivity|]. split; [apply wire1; reflexivity|]. right. right.
  exists 0, [0], [9]. split; [reflexivity|]. split; [apply empty_section|]. right. left. discriminate.
Qed.
Example C71_connack_flags_instance : listed F_default [32; 3; 2; 0; 0] (P_ConnAck (a_connack None)).
Proof.
  pieces. exists 32, [3], [2; 0; 0]. split; [reflexivity|]. split; [apply wire1; reflexivity|]. right. right.
  exists 2, [0], []. split; [reflexivity|]. split; [apply empty_section|]. left. reflexivity.
Qed.
(** CONNECT with its reserved flag. *)
Example C71_connect_flag_instance :
  listed F_default [16; 13; 0; 4; 77; 81; 84; 84; 5; 1; 0; 0; 0; 0; 0] (P_Connect (mkConnect 0 [] false None) None None).
Proof.
  pieces. exists 16, [13], [0; 4; 77; 81; 84; 84; 5; 1; 0; 0; 0; 0; 0]. split; [reflexivity|]. split; [apply wire1; reflexivity|]. right. right.
  exists 1, [0], [0; 0], [], [], []. split; [reflexivity|]. split; [apply empty_section|].
  split; [split; [apply ascii_text; reflexivity|split; [constructor|split; [reflexivity|reflexivity]]]|].
  split; [split; [reflexivity|split; reflexivity]|]. split; [|left; reflexivity].
  exists [], [], [], []. split; [reflexivity|]. split; [split; reflexivity|]. split; [split; reflexivity|reflexivity].
Qed.
(** A property twice: the last one counts. *)
Definition receive_maximum (n : N) : spelled := ((33, VTwo n), [33; 0; n]).
Lemma receive_maximum_wire ft n : n < 256 -> spelled_wire ft connack_allowed (receive_maximum n).
Proof.
  intros H. split; [cbn; tauto|]. split; [reflexivity|]. exists [0; n]. split; [reflexivity|]. split; [lia|].
  unfold u16be. rewrite N.div_small, N.mod_small by exact H. reflexivity.
Qed.
Definition connack_receive_maximum (n : N) : ConnAckProperties :=
  mkConnAckProperties None (Some n) None None None None None None [] None None None None None None None None.
Example C71_repeated_property_instance :
  listed F_default [32; 9; 0; 0; 6; 33; 0; 5; 33; 0; 7] (P_ConnAck (a_connack (Some (connack_receive_maximum 7)))).
Proof.
  pieces. exists 32, [9], [0; 0; 6; 33; 0; 5; 33; 0; 7]. split; [reflexivity|]. split; [apply wire1; reflexivity|]. right. right.
  assert (W : Forall (spelled_wire F_default connack_allowed) [receive_maximum 5; receive_maximum 7]).
  { repeat constructor; apply receive_maximum_wire; reflexivity. }
  assert (C : covers 6 [receive_maximum 5; receive_maximum 7]) by (split; vm_compute; [reflexivity|discriminate]).
  exists 0, [6; 33; 0; 5; 33; 0; 7], []. split; [reflexivity|]. split.
  - exists (Some (map fst [receive_maximum 5; receive_maximum 7])), 6, [6]. split; [apply wire1; reflexivity|]. split; [reflexivity|].
    exists [receive_maximum 5; receive_maximum 7]. auto.
  - right. right. exists 6, [6], [receive_maximum 5; receive_maximum 7]. split.
    + split; [apply wire1; reflexivity|]. split; [reflexivity|]. split; [exact W|]. right. split; [reflexivity|exact C].
    + apply (property_repeated _ _ _ _ 33); [cbn; intros [X|[]]; discriminate X|vm_compute; lia].
Qed.
(** The property length 1 for a property of three bytes. *)
Example C71_property_length_instance :
  listed F_default [32; 6; 0; 0; 1; 33; 0; 5] (P_ConnAck (a_connack (Some (connack_receive_maximum 5)))).
Proof.
  pieces. exists 32, [6], [0; 0; 1; 33; 0; 5]. split; [reflexivity|]. split; [apply wire1; reflexivity|]. right. right.
  assert (W : Forall (spelled_wire F_default connack_allowed) [receive_maximum 5]).
  { repeat constructor; apply receive_maximum_wire; reflexivity. }
  assert (C : covers 1 [receive_maximum 5]) by (split; vm_compute; [reflexivity|discriminate]).
  exists 0, [1; 33; 0; 5], []. split; [reflexivity|]. split.
  - exists (Some (map fst [receive_maximum 5])), 1, [1]. split; [apply wire1; reflexivity|]. split; [reflexivity|].
    exists [receive_maximum 5]. auto.
  - right. right. exists 1, [1], [receive_maximum 5]. split.
    + split; [apply wire1; reflexivity|]. split; [reflexivity|]. split; [exact W|]. right. split; [reflexivity|exact C].
    + apply length_wrong. vm_compute. discriminate.
Qed.
(** UNSUBSCRIBE without filters; SUBSCRIBE with a reserved bit in the options. *)
Example C71_no_filters_instance : listed F_default [162; 3; 0; 1; 0] (P_Unsubscribe (mkUnsubscribe 1 [] None)).
Proof.
  pieces. exists 162, [3], [0; 1; 0]. split; [reflexivity|]. split; [apply wire1; reflexivity|]. right. right.
  exists [0], []. split; [reflexivity|]. split; [apply empty_section|]. right. left. reflexivity.
Qed.
Example C71_subscription_options_instance :
  listed F_default [130; 7; 0; 1; 0; 0; 1; 97; 64]
    (P_Subscribe (mkSubscribe 1 [mkFilter [97] AtMostOnce false false OnEverySubscribe] None)).
Proof.
  pieces. exists 130, [7], [0; 1; 0; 0; 1; 97; 64]. split; [reflexivity|]. split; [apply wire1; reflexivity|]. right. right.
  exists [0], [0; 1; 97; 64]. split; [reflexivity|]. split; [apply empty_section|]. right.
  exists [], (mkFilter [97] AtMostOnce false false OnEverySubscribe), [], [], [0; 1; 97], 64, [].
  split; [reflexivity|]. split; [reflexivity|]. split; [constructor|]. split.
  - split; [apply ascii_text; reflexivity|]. split; [repeat constructor|]. split; reflexivity.
  - split; [constructor|]. left. vm_compute. discriminate.
Qed.
(** A build with binary strings lets a topic pass that is not UTF-8. *)
Example C71_not_text_instance :
  listed F_binary [48; 4; 0; 1; 255; 0] (P_Publish (mkPublish false AtMostOnce false [255] 0 [] None))
  /\ exists e r, Packet_read F_default [48; 4; 0; 1; 255; 0] None = (Err e, r).
Proof.
  split; [|vm_compute; eauto]. pieces. exists 48, [4], [0; 1; 255; 0]. split; [reflexivity|]. split; [apply wire1; reflexivity|]. right. right.
  exists [0; 1; 255], [], [0]. split; [reflexivity|].
  split; [split; [split; [repeat constructor|exact Logic.I]|split; [repeat constructor|split; reflexivity]]|].
  split; [reflexivity|]. right. cbn [pu_topic]. rewrite <- from_utf8_iff. discriminate.
Qed.
(** So none of these frames is a frame of the standard saying that. *)
Example C71_instances_no_message :
  (~ exists m, standard_frame m [193; 0] /\ says P_PingReq m)
  /\ (~ exists m, standard_frame m [32; 6; 0; 0; 1; 33; 0; 5] /\ says (P_ConnAck (a_connack (Some (connack_receive_maximum 5)))) m).
Proof.
  split; eapply listed_no_message; try apply C71_first_byte_instance; try apply C71_property_length_instance; repeat constructor.
Qed.
(** A frame that is not on the list. *)
Example C71_standard_instance : Packet_read F_default [32; 3; 1; 0; 0] None = (Ok (P_ConnAck (mkConnAck true CRC_Success None)), [])
  /\ ~ lenient F_default (P_ConnAck (mkConnAck true CRC_Success None)) [32; 3; 1; 0; 0].
Proof.
  split; [vm_compute; reflexivity|]. intros L.
  assert (Hf : standard_frame (MConnAck true 0 []) [32; 3; 1; 0; 0]).
  { split; [split; [cbn; tauto|split; [constructor|split; [intros; cbn; lia|vm_compute; discriminate]]]|]. eexists. split; [apply lay_connack|].
    split; [vm_compute; discriminate|reflexivity]. }
  eapply (C71_listed_is_not_standard F_default None [32; 3; 1; 0; 0] []); [| |exact L| |exact Hf].
  - repeat constructor.
  - vm_compute. reflexivity.
  - cbn [says]. split; [reflexivity|]. split; [reflexivity|]. split; [reflexivity|]. intros id. reflexivity.
Qed.

(** ** Streams and rewriting *)

(** Every packet drained from a stream has its own frame there, one after the other; without
    entries on the list a receiver that follows the standard to the letter sees the same stream. *)
Theorem C71_streams_are_standard_or_listed ft max s ps e rest :
  bytes_ok s -> drains ft max s ps e rest ->
  exists fs tail, s = concat fs ++ tail /\ Packet_read ft tail max = (Err e, rest)
    /\ Forall2 (fun p f => (exists m, standard_frame m f /\ says p m) \/ lenient ft p f) ps fs.
Proof.
  intros Hs D. induction D as [s e rest E|s p s' ps e rest E D IH].
  - exists [], s. split; [reflexivity|]. split; [exact E|constructor].
  - pose proof E as E'. apply C37_read_is_the_wire_language in E'; [|exact Hs]. destruct E' as (b1 & body & f & -> & _).
    destruct (C71_accepted_is_standard_or_listed ft max f s' p Hs E) as [X|X].
    + destruct IH as (fs & tl & -> & Et & F2); [apply Forall_app in Hs; apply Hs|]. exists (f :: fs), tl.
      split; [cbn [concat]; rewrite <- app_assoc; reflexivity|]. split; [exact Et|]. constructor; [left; exact X|exact F2].
    + destruct IH as (fs & tl & -> & Et & F2); [apply Forall_app in Hs; apply Hs|]. exists (f :: fs), tl.
      split; [cbn [concat]; rewrite <- app_assoc; reflexivity|]. split; [exact Et|]. constructor; [right; exact X|exact F2].
Qed.

(** Writing a packet that was read takes its frame off the list: a relay hands on frames of the
    standard, except for what cannot be said in one (the will topic that is not UTF-8, UNSUBSCRIBE
    without filters) and the DISCONNECT of C30. *)
Theorem C71_rewritten_frames_are_standard ft max s p rest n out :
  bytes_ok s -> ft <> F_binary -> Packet_read ft s max = (Ok p, rest) ->
  Packet_write p [] = (Ok n, out) -> bad_disconnect p = false -> expressible p ->
  n = blen out /\ exists m, standard_frame m out /\ says p m.
Proof.
  intros Hs Hb E W B X. destruct (C31_decoded_is_normal _ _ _ _ _ Hs E) as (R & N & L & _).
  assert (He : encodable p) by (apply (C14_write_ok_iff_encodable p [] L B); exists n; rewrite W; reflexivity).
  assert (R' : rust_packet F_default p) by (destruct ft; [exact R|exact R|exact R|contradiction]).
  destruct (C52_written_frames_are_standard p R' He B L X) as (m & n' & f & W' & Hn & F & S). rewrite W in W'. injection W' as <- <-.
  rewrite N in S. split; [exact Hn|]. exists m. auto.
Qed.
(** The two exceptions: what is read cannot be written in a frame of the standard. *)
Theorem C71_rewritten_without_filters_refuted ft :
  Packet_read ft [162; 3; 0; 1; 0] None = (Ok (P_Unsubscribe (mkUnsubscribe 1 [] None)), [])
  /\ Packet_write (P_Unsubscribe (mkUnsubscribe 1 [] None)) [] = (Ok 5, [162; 3; 0; 1; 0])
  /\ forall m, ~ standard_frame m [162; 3; 0; 1; 0].
Proof.
  split; [destruct ft; reflexivity|]. split; [reflexivity|]. intros m.
  apply (C52_inexpressible_packets_have_no_standard_frame (P_Unsubscribe (mkUnsubscribe 1 [] None))).
  - cbn. split; [reflexivity|]. split; [constructor|constructor].
  - apply first_error_forall. reflexivity.
  - reflexivity.
  - reflexivity.
  - intros X. apply X. reflexivity.
Qed.
Example C71_rewritten_instance :
  Packet_read F_default [32; 9; 0; 0; 6; 33; 0; 5; 33; 0; 7] None = (Ok (P_ConnAck (a_connack (Some (connack_receive_maximum 7)))), [])
  /\ Packet_write (P_ConnAck (a_connack (Some (connack_receive_maximum 7)))) [] = (Ok 8, [32; 6; 0; 0; 3; 33; 0; 7]).
Proof. split; vm_compute; reflexivity. Qed.
