(** Conversations with any peer that follows the standard (C58), and what makes [says] meaningful:
    a frame of the standard says one thing (C51). *)
From Verif Require Import Types Model Spec Wire Sites Faults Content Driver Standard PBase PVarint PUtf8 PRead PItems PProps PFrame PWire
  PTotal PWrite PRound PBack PFaults TFraming TWrite TRound TDriver TBack TStandard Samples.
Ltac Zify.zify_post_hook ::= Z.div_mod_to_equations.

(** ** C51: one frame, one message *)

Lemma two_prefix a b x y : a < 65536 -> b < 65536 -> u16be a ++ x = u16be b ++ y -> a = b /\ x = y.
Proof. intros Ha Hb E. unfold u16be in E. cbn [app] in E. injection E as E1 E2 E3. split; [lia|exact E3]. Qed.
Lemma four_prefix a b x y : a < 4294967296 -> b < 4294967296 -> u32be a ++ x = u32be b ++ y -> a = b /\ x = y.
Proof.
  intros Ha Hb E. unfold u32be in E. cbn [app] in E. injection E as E1 E2 E3 E4 E5. split; [|exact E5].
  rewrite (N.div_mod a 16777216), (N.div_mod b 16777216) by lia. lia.
Qed.
Lemma bin_prefix s t x y : blen s <= 65535 -> blen t <= 65535 ->
  field_bytes (FBin s) ++ x = field_bytes (FBin t) ++ y -> s = t /\ x = y.
Proof.
  intros Hs Ht E. cbn [field_bytes] in E. rewrite <- !app_assoc in E. apply two_prefix in E; [|lia|lia]. destruct E as [E1 E2].
  apply blen_app_inv_tail in E2; assumption.
Qed.
Lemma var_prefix a b x y : a <= max_varint -> b <= max_varint -> varint a ++ x = varint b ++ y -> a = b /\ x = y.
Proof. intros Ha Hb E. destruct (varint_prefix _ _ _ _ _ _ (varint_is_wire _ Ha) (varint_is_wire _ Hb) E) as (-> & _ & ->). auto. Qed.

Definition item_good (i : item) : Prop := property_kind (fst i) = Some (value_kind (snd i)) /\ well_formed_value (snd i).
Lemma item_prefix i j x y : item_good i -> item_good j ->
  fields_bytes (item_fields i) ++ x = fields_bytes (item_fields j) ++ y -> i = j /\ x = y.
Proof.
  destruct i as [id v], j as [id' v']. unfold item_good, item_fields. cbn [fst snd]. intros [K1 W1] [K2 W2] E.
  rewrite !fields_bytes_cons in E. cbn [field_bytes app] in E. injection E as -> E.
  rewrite K1 in K2. injection K2 as K. 
  destruct v, v'; try discriminate K; cbn [value_fields well_formed_value] in *; rewrite ?fields_bytes_cons in E;
    change (fields_bytes []) with (@nil N) in E; rewrite ?app_nil_r in E; rewrite <- ?app_assoc in E.
  - cbn [field_bytes app] in E. injection E as -> ->. auto.
  - apply two_prefix in E; [destruct E as [-> ->]; auto|assumption..].
  - apply four_prefix in E; [destruct E as [-> ->]; auto|assumption..].
  - apply var_prefix in E; [destruct E as [-> ->]; auto|assumption..].
  - destruct W1, W2. apply bin_prefix in E; [destruct E as [-> ->]; auto|assumption..].
  - destruct W1, W2. apply bin_prefix in E; [destruct E as [-> ->]; auto|assumption..].
  - destruct W1 as [[_ A1] [_ A2]], W2 as [[_ B1] [_ B2]]. apply bin_prefix in E; [|assumption..]. destruct E as [-> E].
    apply bin_prefix in E; [destruct E as [-> ->]; auto|assumption..].
Qed.
Lemma item_not_nil i : fields_bytes (item_fields i) <> [].
Proof. unfold item_fields. rewrite fields_bytes_cons. discriminate. Qed.
Lemma items_unique p : forall q, Forall item_good p -> Forall item_good q ->
  fields_bytes (items_fields p) = fields_bytes (items_fields q) -> p = q.
Proof.
  induction p as [|i p IH]; intros [|j q] Hp Hq E; [reflexivity|..].
  - exfalso. symmetry in E. unfold items_fields in E. cbn [flat_map] in E. rewrite fields_bytes_app in E. apply app_eq_nil in E.
    apply (item_not_nil j). tauto.
  - exfalso. unfold items_fields in E. cbn [flat_map] in E. rewrite fields_bytes_app in E. apply app_eq_nil in E.
    apply (item_not_nil i). tauto.
  - apply Forall_cons_iff in Hp, Hq. destruct Hp as [Hi Hp], Hq as [Hj Hq].
    unfold items_fields in E. cbn [flat_map] in E. rewrite !fields_bytes_app in E.
    apply item_prefix in E; [|assumption..]. destruct E as [-> E]. f_equal. apply IH; assumption.
Qed.
Lemma props_good allowed many l : well_formed_props allowed many l -> Forall item_good l.
Proof. intros (H & _). eapply Forall_impl; [|exact H]. intros i (_ & H1 & H2). split; assumption. Qed.
Lemma section_prefix a b m n p q x y : well_formed_props a m p -> well_formed_props b n q ->
  fields_bytes (section_fields p) ++ x = fields_bytes (section_fields q) ++ y -> p = q /\ x = y.
Proof.
  intros Hp Hq E. pose proof Hp as (_ & _ & Np). pose proof Hq as (_ & _ & Nq).
  unfold section_fields in E. rewrite !fields_bytes_cons in E. cbn [field_bytes] in E. rewrite <- !app_assoc in E.
  apply var_prefix in E; [|assumption..]. destruct E as [E1 E]. apply blen_app_inv_tail in E; [|exact E1].
  destruct E as [E ->]. split; [|reflexivity]. apply items_unique; [eapply props_good; eassumption..|exact E].
Qed.
Lemma section_not_nil p x : fields_bytes (section_fields p) ++ x <> [].
Proof.
  unfold section_fields. rewrite fields_bytes_cons. cbn [field_bytes]. unfold varint.
  repeat match goal with |- context [if ?c then _ else _] => destruct c end; discriminate.
Qed.
Lemma codes_unique : forall l l', fields_bytes (map FByte l) = fields_bytes (map FByte l') -> l = l'.
Proof.
  assert (X : forall l, fields_bytes (map FByte l) = l).
  { induction l as [|c l IH]; [reflexivity|]. cbn [map]. rewrite fields_bytes_cons, IH. reflexivity. }
  intros l l'. rewrite !X. auto.
Qed.
Lemma filters_unique : forall l l', Forall mqtt_string l -> Forall mqtt_string l' ->
  fields_bytes (map FBin l) = fields_bytes (map FBin l') -> l = l'.
Proof.
  induction l as [|s l IH]; intros [|t l'] H H' E; [reflexivity|discriminate E|discriminate E|].
  apply Forall_cons_iff in H, H'. destruct H as [[_ Hs] H], H' as [[_ Ht] H']. cbn [map] in E. rewrite !fields_bytes_cons in E.
  apply bin_prefix in E; [|assumption..]. destruct E as [-> E]. f_equal. apply IH; assumption.
Qed.
Lemma options_unique s t : well_formed_subscription s -> well_formed_subscription t ->
  sb_filter s = sb_filter t -> options_byte s = options_byte t -> s = t.
Proof.
  destruct s as [f q n r h], t as [f' q' n' r' h']. intros (_ & Hq & Hh) (_ & Hq' & Hh') E1 E2. cbn [sb_filter sb_qos sb_retain_handling] in *. subst f'.
  unfold options_byte in E2. cbn [sb_qos sb_no_local sb_retain_as_published sb_retain_handling] in E2. unfold bit in E2.
  assert (h = h' /\ n = n' /\ r = r' /\ q = q') as (-> & -> & -> & ->); [|reflexivity].
  destruct n, n', r, r'; repeat split; try reflexivity; lia.
Qed.
Lemma subs_unique : forall l l', Forall well_formed_subscription l -> Forall well_formed_subscription l' ->
  let f := flat_map (fun s => [FBin (sb_filter s); FByte (options_byte s)]) in
  fields_bytes (f l) = fields_bytes (f l') -> l = l'.
Proof.
  intros l l' H H'. cbv zeta. revert l' H H'.
  induction l as [|s l IH]; intros [|t l'] H H' E; [reflexivity|discriminate E|discriminate E|].
  apply Forall_cons_iff in H, H'. destruct H as [Hs H], H' as [Ht H']. cbn [flat_map app] in E. rewrite !fields_bytes_cons in E.
  apply bin_prefix in E; [|apply Hs|apply Ht]. destruct E as [E1 E]. cbn [field_bytes app] in E. injection E as E2 E3.
  f_equal; [apply options_unique; assumption|apply IH; assumption].
Qed.
Lemma flags_unique c c' w w' u u' p p' : if_some well_formed_will w -> if_some well_formed_will w' ->
  flags_byte c w u p = flags_byte c' w' u' p' ->
  c = c' /\ is_some u = is_some u' /\ is_some p = is_some p'
  /\ match w, w' with Some a, Some b => wi_qos a = wi_qos b /\ wi_retain a = wi_retain b | None, None => True | _, _ => False end.
Proof.
  unfold flags_byte, bit. intros Hw Hw' E.
  assert (Q : match w with Some a => wi_qos a <= 2 | None => True end) by (destruct w; [apply Hw|exact I]).
  assert (Q' : match w' with Some a => wi_qos a <= 2 | None => True end) by (destruct w'; [apply Hw'|exact I]).
  destruct c, c', (is_some u), (is_some u'), (is_some p), (is_some p'); destruct w as [[q r ? ? ?]|], w' as [[q' r' ? ? ?]|];
    cbn [wi_qos wi_retain] in *; try (destruct r); try (destruct r'); repeat split; try reflexivity; lia.
Qed.

Definition kind (m : message) : N :=
  match m with
  | MConnect _ _ _ _ _ _ _ => 1 | MConnAck _ _ _ => 2 | MPublish _ _ _ _ _ _ _ => 3
  | MAck t _ _ _ => match t with TPubAck => 4 | TPubRec => 5 | TPubRel => 6 | TPubComp => 7 end
  | MSubscribe _ _ _ => 8 | MSubAck _ _ _ => 9 | MUnsubscribe _ _ _ => 10 | MUnsubAck _ _ _ => 11
  | MPingReq => 12 | MPingResp => 13 | MDisconnect _ _ => 14 | MAuth _ _ => 15
  end.
Lemma kind_type m : well_formed m -> kind m = type_and_flags m / 16.
Proof.
  destruct m as [ | |dup qos retain topic id props payload|t ? ? ?| | | | | | | | ]; try reflexivity; [|destruct t; reflexivity].
  intros (Hq & _). cbn [kind type_and_flags]. unfold bit. destruct dup, retain; lia.
Qed.
Lemma publish_flags d q r d' q' r' : q <= 2 -> q' <= 2 ->
  48 + bit d 8 + 2 * q + bit r 1 = 48 + bit d' 8 + 2 * q' + bit r' 1 -> d = d' /\ q = q' /\ r = r'.
Proof. unfold bit. intros. destruct d, d', r, r'; repeat split; try reflexivity; lia. Qed.

(** What [layout] says about each message. *)
Definition laid (m : message) (b : bytes) : Prop :=
  let sec := fun p => fields_bytes (section_fields p) in
  match m with
  | MConnect clean keep_alive props client_id w user password =>
      b = field_bytes (FBin mqtt) ++ [5] ++ [flags_byte clean w user password] ++ u16be keep_alive ++ sec props
          ++ field_bytes (FBin client_id)
          ++ match w with Some w => sec (wi_props w) ++ field_bytes (FBin (wi_topic w)) ++ field_bytes (FBin (wi_payload w)) | None => [] end
          ++ fields_bytes (opt_bin user) ++ fields_bytes (opt_bin password)
  | MConnAck present code props => b = [bit present 1] ++ [code] ++ sec props
  | MPublish _ _ _ topic id props payload =>
      b = field_bytes (FBin topic) ++ match id with Some n => u16be n | None => [] end ++ sec props ++ payload
  | MAck t id code props =>
      b = u16be id ++ [code] ++ sec props \/ (props = [] /\ b = u16be id ++ [code]) \/ (props = [] /\ code = 0 /\ b = u16be id)
  | MSubscribe id props subs =>
      b = u16be id ++ sec props ++ fields_bytes (flat_map (fun s => [FBin (sb_filter s); FByte (options_byte s)]) subs)
  | MSubAck id props codes | MUnsubAck id props codes => b = u16be id ++ sec props ++ fields_bytes (map FByte codes)
  | MUnsubscribe id props filters => b = u16be id ++ sec props ++ fields_bytes (map FBin filters)
  | MPingReq | MPingResp => True
  | MDisconnect code props | MAuth code props =>
      b = [code] ++ sec props \/ (props = [] /\ b = [code]) \/ (props = [] /\ code = 0 /\ b = [])
  end.
Lemma layout_laid m l : layout m l -> laid m (fields_bytes l).
Proof.
  destruct 1; unfold laid; cbv zeta; try exact I;
    try (right; left; split; reflexivity); try (right; right; repeat split; reflexivity); try left;
    rewrite ?fields_bytes_app, ?fields_bytes_cons; change (fields_bytes []) with (@nil N); cbn [field_bytes];
    rewrite <- ?app_assoc, ?app_nil_r; try reflexivity.
  - destruct w; rewrite ?fields_bytes_app, ?fields_bytes_cons; change (fields_bytes []) with (@nil N);
      cbn [field_bytes]; rewrite <- ?app_assoc, ?app_nil_r; reflexivity.
  - destruct id; rewrite ?fields_bytes_cons; change (fields_bytes []) with (@nil N); cbn [field_bytes]; rewrite ?app_nil_r; reflexivity.
Qed.
Lemma short_or_long c c' p p' b m n a q :
  well_formed_props a m p -> well_formed_props q n p' ->
  (b = [c] ++ fields_bytes (section_fields p) \/ (p = [] /\ b = [c]) \/ (p = [] /\ c = 0 /\ b = [])) ->
  (b = [c'] ++ fields_bytes (section_fields p') \/ (p' = [] /\ b = [c']) \/ (p' = [] /\ c' = 0 /\ b = [])) ->
  c = c' /\ p = p'.
Proof.
  intros Hp Hp' H H'.
  destruct H as [-> | [[-> ->] | (-> & -> & ->)]]; destruct H' as [E | [[-> E] | (-> & -> & E)]]; cbn [app] in E; try discriminate E.
  - split; [congruence|]. injection E as _ E. destruct (section_prefix _ _ _ _ _ _ [] [] Hp Hp'); [rewrite !app_nil_r; exact E|assumption].
  - exfalso. injection E as _ E. apply (section_not_nil p []). rewrite app_nil_r. exact E.
  - exfalso. injection E as _ E. apply (section_not_nil p' []). rewrite app_nil_r. symmetry. exact E.
  - split; [congruence|reflexivity].
  - auto.
Qed.
Lemma ack_short_or_long i i' c c' p p' b m n a q : i < 65536 -> i' < 65536 ->
  well_formed_props a m p -> well_formed_props q n p' ->
  (b = u16be i ++ [c] ++ fields_bytes (section_fields p) \/ (p = [] /\ b = u16be i ++ [c]) \/ (p = [] /\ c = 0 /\ b = u16be i)) ->
  (b = u16be i' ++ [c'] ++ fields_bytes (section_fields p') \/ (p' = [] /\ b = u16be i' ++ [c']) \/ (p' = [] /\ c' = 0 /\ b = u16be i')) ->
  i = i' /\ c = c' /\ p = p'.
Proof.
  intros Hi Hi' Hp Hp' H H'.
  assert (exists r, b = u16be i ++ r /\ (r = [c] ++ fields_bytes (section_fields p) \/ (p = [] /\ r = [c]) \/ (p = [] /\ c = 0 /\ r = []))) as (r & E & R).
  { destruct H as [-> | [[-> ->] | (-> & -> & ->)]]; eexists; (split; [reflexivity|]) || (split; [symmetry; apply app_nil_r|]); auto. }
  assert (exists r, b = u16be i' ++ r /\ (r = [c'] ++ fields_bytes (section_fields p') \/ (p' = [] /\ r = [c']) \/ (p' = [] /\ c' = 0 /\ r = []))) as (r' & E' & R').
  { destruct H' as [-> | [[-> ->] | (-> & -> & ->)]]; eexists; (split; [reflexivity|]) || (split; [symmetry; apply app_nil_r|]); auto. }
  rewrite E in E'. apply two_prefix in E'; [|assumption..]. destruct E' as [-> <-]. split; [reflexivity|].
  exact (short_or_long _ _ _ _ _ _ _ _ _ Hp Hp' R R').
Qed.
Lemma cons_both (x y : N) a b : x :: a = y :: b -> x = y /\ a = b.
Proof. intros E. injection E as -> ->. auto. Qed.
Lemma connect_unique c k ps id w u pw c' k' ps' id' w' u' pw' b :
  well_formed (MConnect c k ps id w u pw) -> well_formed (MConnect c' k' ps' id' w' u' pw') ->
  laid (MConnect c k ps id w u pw) b -> laid (MConnect c' k' ps' id' w' u' pw') b ->
  MConnect c k ps id w u pw = MConnect c' k' ps' id' w' u' pw'.
Proof.
  cbn [well_formed]. unfold laid. cbv zeta. intros (Hk & Hp & Hi & Hw & Hu & Hpw) (Hk' & Hp' & Hi' & Hw' & Hu' & Hpw') -> E.
  apply app_inv_head in E. cbn [app] in E. apply cons_both in E. destruct E as [_ E]. apply cons_both in E. destruct E as [F E]. destruct (flags_unique _ _ _ _ _ _ _ _ Hw Hw' F) as (-> & U & P & W).
  apply two_prefix in E; [|assumption..]. destruct E as [-> E].
  apply (section_prefix _ _ _ _ _ _ _ _ Hp Hp') in E. destruct E as [-> E].
  apply bin_prefix in E; [|apply Hi|apply Hi']. destruct E as [-> E].
  assert (X : w = w' /\ fields_bytes (opt_bin u) ++ fields_bytes (opt_bin pw) = fields_bytes (opt_bin u') ++ fields_bytes (opt_bin pw')).
  { destruct w as [[q r wp wt wm]|], w' as [[q' r' wp' wt' wm']|]; try contradiction; [|auto].
    cbn [wi_qos wi_retain wi_props wi_topic wi_payload] in *. destruct W as [-> ->].
    destruct Hw as (_ & Hwp & Ht & Hm), Hw' as (_ & Hwp' & Ht' & Hm'). cbn [wi_qos wi_retain wi_props wi_topic wi_payload] in *.
    rewrite <- !app_assoc in E. apply (section_prefix _ _ _ _ _ _ _ _ Hwp Hwp') in E. destruct E as [-> E].
    apply bin_prefix in E; [|apply Ht|apply Ht']. destruct E as [-> E].
    apply bin_prefix in E; [|apply Hm|apply Hm']. destruct E as [-> E]. auto. }
  destruct X as [-> X]. clear E W Hw Hw' F.
  assert (Y : u = u' /\ fields_bytes (opt_bin pw) = fields_bytes (opt_bin pw')).
  { destruct u as [u|], u' as [u'|]; try discriminate U; [|auto]. cbn [opt_bin if_some] in *. rewrite !fields_bytes_cons in X.
    change (fields_bytes []) with (@nil N) in X. rewrite !app_nil_r in X.
    apply bin_prefix in X; [|apply Hu|apply Hu']. destruct X as [-> X]. auto. }
  destruct Y as [-> Y].
  assert (Z : pw = pw').
  { destruct pw as [u|], pw' as [v|]; try discriminate P; [|auto]. cbn [opt_bin if_some] in *. rewrite !fields_bytes_cons in Y.
    apply bin_prefix in Y; [|apply Hpw|apply Hpw']. destruct Y as [-> Y]. auto. }
  rewrite Z. reflexivity.
Qed.

(** A frame of the standard has one meaning: two messages with a frame in common are the same.
    With [says] in C51 and C52 this fixes which message the crate has to read or write. *)
Theorem C51_one_frame_one_message m m' f : standard_frame m f -> standard_frame m' f -> m = m'.
Proof.
  intros F1 F2. destruct (standard_framed _ _ F1) as (Hw & l & Hl & F & _ & _ & _).
  destruct (standard_body _ _ _ _ F2 F) as (Hw' & T & l' & Hl' & E).
  pose proof (layout_laid _ _ Hl) as L. pose proof (layout_laid _ _ Hl') as L'. rewrite E in L'.
  assert (K : kind m' = kind m) by (rewrite !kind_type by assumption; rewrite T; reflexivity).
  clear F1 F2 F Hl Hl' E l'. remember (fields_bytes l) as b eqn:Eb. clear Eb l f.
  destruct m as [c k ps id w u pw|pres code props|dup qos retain topic id props payload|t id code props
    |id props subs|id props codes|id props fs|id props codes| | |code props|code props];
  destruct m' as [c' k' ps' id' w' u' pw'|pres' code' props'|dup' qos' retain' topic' id' props' payload'|t' id' code' props'
    |id' props' subs'|id' props' codes'|id' props' fs'|id' props' codes'| | |code' props'|code' props'];
    cbn [kind] in K; try discriminate K; try (destruct t; discriminate K); try (destruct t'; discriminate K); try reflexivity.
  - exact (connect_unique _ _ _ _ _ _ _ _ _ _ _ _ _ _ _ Hw Hw' L L').
  - destruct Hw as [_ Hp], Hw' as [_ Hp']. unfold laid in L, L'. cbv zeta in L, L'. subst b. cbn [app] in L'. injection L' as E1 E2 E3.
    destruct (section_prefix _ _ _ _ _ _ [] [] Hp Hp'); [rewrite !app_nil_r; exact E3|].
    subst. f_equal. destruct pres, pres'; (reflexivity || discriminate E1).
  - destruct Hw as (Hq & Ht & Hid & Hp & _), Hw' as (Hq' & Ht' & Hid' & Hp' & _). cbn [type_and_flags] in T.
    destruct (publish_flags _ _ _ _ _ _ Hq' Hq T) as (-> & -> & ->). unfold laid in L, L'. cbv zeta in L, L'. rewrite L' in L.
    apply bin_prefix in L; [|apply Ht'|apply Ht]. destruct L as [-> L].
    assert (X : id' = id /\ fields_bytes (section_fields props') ++ payload' = fields_bytes (section_fields props) ++ payload).
    { destruct id as [i|], id' as [i'|]; try (exfalso; tauto); [|auto]. apply two_prefix in L; [|tauto..]. destruct L as [-> L]. auto. }
    destruct X as [-> X]. apply (section_prefix _ _ _ _ _ _ _ _ Hp' Hp) in X. destruct X as [-> ->]. reflexivity.
  - destruct Hw as (Hi & _ & Hp), Hw' as (Hi' & _ & Hp').
    destruct (ack_short_or_long _ _ _ _ _ _ _ _ _ _ _ Hi Hi' Hp Hp' L L') as (-> & -> & ->).
    destruct t, t'; (reflexivity || discriminate K).
  - destruct Hw as (Hi & Hp & Hs & _), Hw' as (Hi' & Hp' & Hs' & _). unfold laid in L, L'. cbv zeta in L, L'. rewrite L' in L.
    apply two_prefix in L; [|assumption..]. destruct L as [-> L]. apply (section_prefix _ _ _ _ _ _ _ _ Hp' Hp) in L. destruct L as [-> L].
    rewrite (subs_unique _ _ Hs' Hs L). reflexivity.
  - destruct Hw as (Hi & Hp & Hs & _), Hw' as (Hi' & Hp' & Hs' & _). unfold laid in L, L'. cbv zeta in L, L'. rewrite L' in L.
    apply two_prefix in L; [|assumption..]. destruct L as [-> L]. apply (section_prefix _ _ _ _ _ _ _ _ Hp' Hp) in L. destruct L as [-> L].
    rewrite (codes_unique _ _ L). reflexivity.
  - destruct Hw as (Hi & Hp & Hs & _), Hw' as (Hi' & Hp' & Hs' & _). unfold laid in L, L'. cbv zeta in L, L'. rewrite L' in L.
    apply two_prefix in L; [|assumption..]. destruct L as [-> L]. apply (section_prefix _ _ _ _ _ _ _ _ Hp' Hp) in L. destruct L as [-> L].
    rewrite (filters_unique _ _ Hs' Hs L). reflexivity.
  - destruct Hw as (Hi & Hp & Hs & _), Hw' as (Hi' & Hp' & Hs' & _). unfold laid in L, L'. cbv zeta in L, L'. rewrite L' in L.
    apply two_prefix in L; [|assumption..]. destruct L as [-> L]. apply (section_prefix _ _ _ _ _ _ _ _ Hp' Hp) in L. destruct L as [-> L].
    rewrite (codes_unique _ _ L). reflexivity.
  - destruct Hw as (_ & Hp), Hw' as (_ & Hp').
    destruct (short_or_long _ _ _ _ _ _ _ _ _ Hp Hp' L L') as (-> & ->). reflexivity.
  - destruct Hw as (_ & Hp), Hw' as (_ & Hp').
    destruct (short_or_long _ _ _ _ _ _ _ _ _ Hp Hp' L L') as (-> & ->). reflexivity.
Qed.
(** The meaning of the example frame of C51 is [example_publish] and nothing else. *)
Example C51_one_message_instance m : standard_frame m example_frame -> m = example_publish.
Proof. intros H. exact (C51_one_frame_one_message _ _ _ H (proj1 C51_example)). Qed.

(** ** C58: a conforming peer, in any chunks *)

(** What has arrived of a frame whose last byte has not: the beginning of a frame of the
    standard that fits the limit (or nothing at all). *)
Definition unfinished (max : option N) (tail : bytes) : Prop :=
  tail = [] \/ exists m f more, standard_frame m f /\ within max (blen f) /\ f = tail ++ more /\ more <> [].

Lemma standard_ok m f : standard_frame m f -> bytes_ok f.
Proof.
  intros H. destruct (standard_framed _ _ H) as (Hw & l & Hl & F & Hb & Ht & ->). apply Forall_app. split; [repeat constructor; exact Ht|].
  apply Forall_app. split; [|exact Hb]. eapply varint_wire_ok, varint_is_wire. destruct F as (lb & _ & V). eapply varint_wire_bound; exact V.
Qed.
Lemma standard_is_frame m f : standard_frame m f -> is_frame f.
Proof. intros H. destruct (standard_framed _ _ H) as (_ & l & _ & F & _). do 2 eexists. exact F. Qed.
Lemma unfinished_read ft max tail : unfinished max tail ->
  bytes_ok tail /\ (exists n, Packet_read ft tail max = (Err (InsufficientBytes n), tail) /\ 1 <= n)
  /\ forall f rest, is_frame f -> tail <> f ++ rest.
Proof.
  intros [-> | (m & f & more & Hf & Hm & E & Hne)].
  - split; [constructor|]. split; [exists 2; split; [reflexivity|lia]|]. intros f rest (b & body & lb & -> & _). discriminate.
  - pose proof (standard_ok _ _ Hf) as Hok. destruct (standard_framed _ _ Hf) as (_ & l & _ & F & _). rewrite E in *.
    split; [apply Forall_app in Hok; tauto|]. split.
    + destruct (C05_incomplete_asks_for_more ft max _ _ tail more F Hok Hne) as (n & R & N & _).
      { intros _. eapply within_frame; [exact F|exact Hm]. }
      exists n. split; [exact R|lia].
    + intros g rest Hg E'. 
      assert (X : concat [tail ++ more] ++ [] = concat [g] ++ (rest ++ more)).
      { cbn [concat]. rewrite !app_nil_r, E', <- app_assoc. reflexivity. }
      destruct (frames_split [tail ++ more] [g] [] (rest ++ more)) as [(a & A1 & A2)|(a & A1 & A2)]; try exact X.
      * constructor; [|constructor]. eapply standard_is_frame; exact Hf.
      * constructor; [exact Hg|constructor].
      * cbn [concat]. rewrite !app_nil_r. exact Hok.
      * cbn [app] in A1. injection A1 as A1 <-. cbn [concat app] in A2. apply app_eq_nil in A2. tauto.
      * cbn [app] in A1. injection A1 as A1 <-. cbn [concat app] in A2. symmetry in A2. apply app_eq_nil in A2. tauto.
Qed.
Lemma conforming_drains ft max ms fs tail qs e rest :
  Forall2 standard_frame ms fs -> Forall2 (supported ft) ms fs -> Forall (fun f => within max (blen f)) fs -> bytes_ok tail ->
  drains ft max tail qs e rest ->
  exists ps, Forall2 says ps ms /\ drains ft max (concat fs ++ tail) (ps ++ qs) e rest.
Proof.
  intros H Hs Hm Ht Hd. revert Hs Hm. induction H as [|m f ms fs Hf H IH]; intros Hs Hm; [exists []; auto|].
  inversion Hs as [|? ? ? ? S1 S2]; subst. inversion Hm as [|? ? M1 M2]; subst. destruct (IH S2 M2) as (ps & P1 & P2).
  assert (Hok : bytes_ok (concat fs ++ tail)).
  { apply Forall_app. split; [|exact Ht]. apply concat_ok. clear -H. induction H; constructor; [eapply standard_ok; eassumption|assumption]. }
  destruct (C51_standard_frames_are_understood ft m f (concat fs ++ tail) max Hf S1 Hok M1) as (p & R & S).
  exists (p :: ps). split; [constructor; assumption|]. cbn [concat app]. rewrite <- app_assoc. eapply drains_packet; eassumption.
Qed.

(** A peer that follows the standard sends frames that say [ms], all of them [supported], and has
    begun another.  Whatever the chunks in which the bytes arrive, the receive loop ends with
    packets that say [ms], in order, asks for more bytes and holds the bytes of the unfinished
    frame; this is its only outcome. *)
Theorem C58_conforming_stream ft max ms fs tail chunks :
  Forall2 standard_frame ms fs -> Forall2 (supported ft) ms fs -> Forall (fun f => within max (blen f)) fs ->
  unfinished max tail -> concat chunks = concat fs ++ tail ->
  exists ps n, Forall2 says ps ms /\ 1 <= n
    /\ forall ps' e rest, receives ft max [] chunks ps' e rest <-> (ps' = ps /\ e = InsufficientBytes n /\ rest = tail).
Proof.
  intros H Hs Hm Hu Hc. destruct (unfinished_read ft max tail Hu) as (Ht & (n & R & N) & Hno).
  assert (D : drains ft max tail [] (InsufficientBytes n) tail) by (apply drains_stop; exact R).
  destruct (conforming_drains ft max ms fs tail [] _ _ H Hs Hm Ht D) as (ps & P1 & P2). rewrite app_nil_r in P2.
  exists ps, n. split; [exact P1|]. split; [exact N|].
  assert (Hfs : Forall (fun f => is_frame f /\ bytes_ok f /\ forall k, fst (Packet_read ft f max) <> Err (InsufficientBytes k)) fs).
  { clear -H Hs Hm. revert Hs Hm. induction H as [|m f ms fs Hf H IH]; intros Hs Hm; [constructor|].
    inversion Hs as [|? ? ? ? S1 S2]; subst. inversion Hm as [|? ? M1 M2]; subst. constructor; [|apply IH; assumption].
    split; [eapply standard_is_frame; exact Hf|]. split; [eapply standard_ok; exact Hf|]. intros k E.
    destruct (C51_standard_frames_are_understood ft m f [] max Hf S1 (Forall_nil _) M1) as (p & R & _).
    rewrite app_nil_r in R. rewrite R in E. discriminate E. }
  assert (Hcs : Forall bytes_ok chunks).
  { assert (Hok : bytes_ok (concat chunks)).
    { rewrite Hc. apply Forall_app. split; [|exact Ht]. apply concat_ok. eapply Forall_impl; [|exact Hfs]. cbn. tauto. }
    clear -Hok. induction chunks as [|c cs IH]; constructor; cbn [concat] in Hok; apply Forall_app in Hok; tauto. }
  intros ps' e rest.
  rewrite (C08_chunks_are_read_as_one_stream ft max chunks [] (Forall_nil _) Hcs); cbn [app]; rewrite Hc;
    [|apply decodable_stream_no_false_alarm; assumption].
  split; [|intros (-> & -> & ->); exact P2]. intros D'.
  destruct (drains_det _ _ _ _ _ _ _ _ _ D' P2) as (-> & -> & ->). auto.
Qed.

(** The other direction: packets written one after the other into one buffer are frames of the
    standard, one for each packet, that say what the packets say.  (A CONNECT must be first, C13;
    [bad_disconnect], [legacy_connack] and [expressible] are as in C52.) *)
Definition writable (p : Packet) : Prop :=
  rust_packet F_default p /\ encodable p /\ bad_disconnect p = false /\ legacy_connack p = false /\ expressible p.
Theorem C58_written_stream_is_standard ps :
  Forall writable ps -> Forall (fun p => is_connect p = false) (tl ps) ->
  exists ms fs, write_all ps [] = (Ok tt, concat fs) /\ Forall2 standard_frame ms fs /\ Forall2 says (map normalize ps) ms.
Proof.
  assert (X : forall ps, Forall writable ps -> exists ms, Forall2 standard_frame ms (map encode ps) /\ Forall2 says (map normalize ps) ms).
  { clear. intros ps Hs. induction ps as [|p ps IH]; [exists []; split; constructor|]. apply Forall_cons_iff in Hs.
    destruct Hs as [(Hr & He & Hb & Hl & Hx) Hs]. destruct (IH Hs) as (ms & M1 & M2).
    destruct (C52_written_frames_are_standard p Hr He Hb Hl Hx) as (m & n & f & W & _ & F & S).
    assert (f = encode p) as ->.
    { pose proof (C13_write_is_the_encoding p [] He (fun _ => eq_refl) Hb Hl) as W'. cbn [app] in W'. congruence. }
    exists (m :: ms). split; constructor; assumption. }
  assert (Y : forall ps buf, Forall writable ps -> Forall (fun p => is_connect p = false) ps ->
    write_all ps buf = (Ok tt, buf ++ concat (map encode ps))).
  { clear. induction ps as [|p ps IH]; intros buf Hs Hc; [cbn [write_all map concat]; rewrite app_nil_r; reflexivity|].
    apply Forall_cons_iff in Hs, Hc. destruct Hs as [(Hr & He & Hb & Hl & Hx) Hs], Hc as [Hc Hcs].
    cbn [write_all map concat]. unfold wbind. rewrite (C13_write_is_the_encoding p buf He) by (assumption || congruence).
    rewrite IH by assumption. rewrite <- app_assoc. reflexivity. }
  intros Hs Hc. destruct (X ps Hs) as (ms & M1 & M2). exists ms, (map encode ps). split; [|auto].
  destruct ps as [|p ps]; [reflexivity|]. cbn [tl] in Hc. apply Forall_cons_iff in Hs. destruct Hs as [(Hr & He & Hb & Hl & Hx) Hs].
  cbn [write_all map concat]. unfold wbind. rewrite (C13_write_is_the_encoding p [] He) by auto. cbn [app].
  apply Y; assumption.
Qed.

(** A conversation in three chunks that cut frames: the PUBLISH of C51, a PINGREQ, and the
    beginning of another PUBLISH. *)
Example C58_instance :
  let ms := [example_publish; MPingReq] in
  let fs := [example_frame; [192; 0]] in
  let tail := firstn 10 example_frame in
  Forall2 standard_frame ms fs /\ Forall2 (supported F_default) ms fs
  /\ Forall (fun f => within (Some 100) (blen f)) fs /\ unfinished (Some 100) tail
  /\ concat [firstn 3 example_frame; skipn 3 example_frame ++ [192]; [0] ++ tail] = concat fs ++ tail.
Proof.
  cbv zeta. destruct C51_example as [E1 E2].
  assert (P : standard_frame MPingReq [192; 0]).
  { split; [exact I|]. eexists. split; [apply lay_pingreq|]. split; [vm_compute; discriminate|reflexivity]. }
  split; [constructor; [exact E1|constructor; [exact P|constructor]]|].
  split; [constructor; [exact E2|constructor; [exact I|constructor]]|].
  split; [repeat constructor; vm_compute; discriminate|].
  split; [|reflexivity]. right. exists example_publish, example_frame, (skipn 10 example_frame).
  split; [exact E1|]. split; [vm_compute; discriminate|]. split; [reflexivity|discriminate].
Qed.
Example C58_written_instance :
  let p := P_Subscribe (mkSubscribe 5 [mkFilter [116] ExactlyOnce true false Never] (Some (mkSubscribeProperties (Some 300) [([107], [118])]))) in
  Forall writable [p; P_PingReq] /\ Forall (fun p => is_connect p = false) (tl [p; P_PingReq]).
Proof.
  cbv zeta. destruct C52_example as (A & B & C & D & E & _). split; [|repeat constructor].
  constructor; [repeat split; auto|constructor; [|constructor]]; try apply A. repeat split; repeat constructor.
Qed.
