(** C61, C62: the topic helpers of /repo/mod.rs (a file outside the crate) against MQTT 5.0, 4.7. *)
From Verif Require Import Types MLib MTopics Topics Spec Wire PBase PUtf8.

(** ---------- bytes, levels ---------- *)

Lemma contains_in c s : contains c s = true <-> In c s.
Proof.
  unfold contains. rewrite existsb_exists. split.
  - intros (x & H & E). apply N.eqb_eq in E. subst. exact H.
  - intros H. exists c. split; [exact H|apply N.eqb_refl].
Qed.
Lemma contains_not c s : contains c s = false <-> ~ In c s.
Proof. rewrite <- contains_in. destruct (contains c s); split; intros; congruence. Qed.
Lemma str_eq_iff a : forall b, str_eq a b = true <-> a = b.
Proof.
  induction a as [|x a IH]; intros [|y b]; cbn [str_eq]; try (split; congruence).
  rewrite Bool.andb_true_iff, IH, N.eqb_eq. split; [intros [-> ->]; reflexivity|].
  intros E; injection E as -> ->; auto.
Qed.
Lemma str_eq_not a b : str_eq a b = false <-> a <> b.
Proof. rewrite <- str_eq_iff. destruct (str_eq a b); split; intros; congruence. Qed.

Lemma split_nonempty s : split_slash s <> [].
Proof.
  destruct s as [|b s]; cbn [split_slash]; [discriminate|].
  destruct (b =? 47); [discriminate|]. destruct (split_slash s); discriminate.
Qed.
Lemma join_cons l ls : ls <> [] -> join (l :: ls) = l ++ 47 :: join ls.
Proof. destruct ls; [intros H; destruct (H eq_refl)|reflexivity]. Qed.
Lemma split_levels s : levels s (split_slash s).
Proof.
  split; [apply split_nonempty|].
  induction s as [|b s [IH1 IH2]]; cbn [split_slash].
  - split; [constructor; [intros []|constructor]|reflexivity].
  - pose proof (split_nonempty s) as N0. destruct (b =? 47) eqn:E.
    + apply N.eqb_eq in E; subst b. split; [constructor; [intros []|exact IH1]|].
      rewrite join_cons by exact N0. rewrite <- IH2. reflexivity.
    + apply N.eqb_neq in E. destruct (split_slash s) as [|l ls]; [destruct (N0 eq_refl)|].
      inversion IH1 as [|? ? A B]; subst. split.
      * constructor; [|exact B]. intros [H|H]; [congruence|exact (A H)].
      * destruct ls as [|l' ls]; [cbn [join]; reflexivity|]. reflexivity.
Qed.
Lemma split_app l s : ~ In 47 l -> split_slash (l ++ 47 :: s) = l :: split_slash s.
Proof.
  induction l as [|b l IH]; intros H; [reflexivity|]. cbn [app split_slash].
  destruct (b =? 47) eqn:E; [apply N.eqb_eq in E; destruct H; left; exact E|].
  rewrite IH by (intros I; apply H; right; exact I). reflexivity.
Qed.
Lemma split_plain l : ~ In 47 l -> split_slash l = [l].
Proof.
  induction l as [|b l IH]; intros H; [reflexivity|]. cbn [split_slash].
  destruct (b =? 47) eqn:E; [apply N.eqb_eq in E; destruct H; left; exact E|].
  rewrite IH by (intros I; apply H; right; exact I). reflexivity.
Qed.
Lemma split_join ls : ls <> [] -> Forall (fun l => ~ In 47 l) ls -> split_slash (join ls) = ls.
Proof.
  intros H F. induction F as [|l ls A F IH]; [destruct (H eq_refl)|].
  destruct ls as [|l' ls]; [apply split_plain, A|].
  rewrite join_cons by discriminate. rewrite split_app by exact A. rewrite IH by discriminate. reflexivity.
Qed.
Lemma levels_split s ls : levels s ls <-> ls = split_slash s.
Proof.
  split; [|intros ->; apply split_levels].
  intros (H & F & ->). symmetry. apply split_join; assumption.
Qed.
Lemma split_in c s l : In l (split_slash s) -> In c l -> In c s.
Proof.
  revert l. induction s as [|b s IH]; intros l; cbn [split_slash].
  - intros [<-|[]] [].
  - destruct (b =? 47).
    + intros [<-|H] I; [destruct I|]. right. exact (IH _ H I).
    + destruct (split_slash s) as [|l0 ls].
      * intros [<-|[]] [<-|[]]. left; reflexivity.
      * intros [<-|H] I.
        -- destruct I as [<-|I]; [left; reflexivity|]. right. apply (IH l0); [left; reflexivity|exact I].
        -- right. apply (IH l); [right; exact H|exact I].
Qed.
Lemma plain_levels s : plain s -> Forall plain (split_slash s).
Proof.
  intros [A B]. apply Forall_forall. intros l H. split; intros I.
  - exact (A (split_in _ _ _ H I)).
  - exact (B (split_in _ _ _ H I)).
Qed.

(** Every string has exactly one sequence of levels: the specification's notion is a function. *)
Theorem C61_levels_unique s : exists ls, levels s ls /\ forall ls', levels s ls' -> ls' = ls.
Proof. exists (split_slash s). split; [apply split_levels|]. intros ls' H. apply levels_split, H. Qed.

(** An ASCII character occurs in a sequence of characters exactly where its byte occurs in the UTF-8
    bytes, so that looking for '+', '#', '/', '$' among bytes is looking for the characters. *)
Theorem C61_ascii_search c cs :
  c < 128 -> Forall scalar cs -> (In c (flat_map utf8_encode cs) <-> In c cs).
Proof.
  intros L F. induction F as [|x cs S F IH]; [reflexivity|]. cbn [flat_map In]. rewrite in_app_iff, IH.
  assert (In c (utf8_encode x) <-> x = c) as ->; [|tauto].
  unfold utf8_encode. destruct (x <? 128) eqn:E1; [cbn [In]; tauto|].
  apply N.ltb_ge in E1. split.
  - destruct (x <? 2048); [|destruct (x <? 65536)]; cbn [In]; intros H; exfalso;
      repeat match goal with H : _ \/ _ |- _ => destruct H end; try contradiction; lia.
  - intros ->. lia.
Qed.

(** ---------- valid_filter ---------- *)

Lemma wf_cons l ls : ls <> [] -> (well_formed (l :: ls) <-> (plain l \/ l = [43]) /\ well_formed ls).
Proof.
  intros N0. split.
  - intros H. inversion H; subst; try (destruct (N0 eq_refl)); auto.
  - intros [[P| ->] W]; constructor; assumption.
Qed.
Lemma wf_one l : well_formed [l] <-> plain l \/ l = [43] \/ l = [35].
Proof.
  split.
  - intros H. inversion H; subst; auto; match goal with W : well_formed [] |- _ => inversion W end.
  - intros [P|[->| ->]]; constructor; assumption.
Qed.
Lemma entries_app a b : filter_entries (a ++ b) = filter_entries a && filter_entries b.
Proof.
  induction a as [|x a IH]; [reflexivity|]. cbn [app filter_entries].
  destruct (contains 35 x); [reflexivity|]. destruct (_ && contains 43 x); [reflexivity|exact IH].
Qed.
Lemma entry_one l : filter_entries [l] = true <-> plain l \/ l = [43].
Proof.
  cbn [filter_entries]. destruct (contains 35 l) eqn:H.
  - apply contains_in in H. split; [discriminate|]. intros [[_ P]| ->]; [destruct (P H)|].
    destruct H as [H|[]]; discriminate.
  - apply contains_not in H. destruct (contains 43 l) eqn:P.
    + apply contains_in in P. rewrite Bool.andb_true_r. destruct (1 <? blen l) eqn:B.
      * split; [discriminate|]. intros [[Q _]| ->]; [destruct (Q P)|vm_compute in B; discriminate].
      * apply N.ltb_ge in B. split; [intros _; right|reflexivity].
        destruct l as [|x [|y l]]; [destruct P| |rewrite !blen_cons in B; lia].
        destruct P as [->|[]]. reflexivity.
    + apply contains_not in P. rewrite Bool.andb_false_r. split; [left; split; assumption|reflexivity].
Qed.
Lemma last_one l :
  negb (blen l =? 1) && (contains 35 l || contains 43 l) = false <-> plain l \/ l = [43] \/ l = [35].
Proof.
  destruct (contains 35 l || contains 43 l) eqn:C.
  - rewrite Bool.andb_true_r, Bool.negb_false_iff, N.eqb_eq.
    apply Bool.orb_true_iff in C. rewrite !contains_in in C. split.
    + intros B. right. destruct l as [|x [|y l]]; [discriminate| |rewrite !blen_cons in B; lia].
      destruct C as [[->|[]]|[->|[]]]; auto.
    + intros [[P Q]|[->| ->]]; [destruct C; contradiction|reflexivity|reflexivity].
  - rewrite Bool.andb_false_r. apply Bool.orb_false_iff in C. rewrite !contains_not in C.
    split; [left; split; tauto|reflexivity].
Qed.
Lemma entries_wf last : forall hs,
  (well_formed [last] /\ filter_entries hs = true) <-> well_formed (rev hs ++ [last]).
Proof.
  induction hs as [|h hs IH] using rev_ind; [cbn; tauto|].
  rewrite entries_app, Bool.andb_true_iff, rev_app_distr. cbn [rev app].
  rewrite (wf_cons h) by (destruct (rev hs); discriminate). rewrite <- IH, <- entry_one. tauto.
Qed.

(** valid_filter says whether the string is a topic filter of the standard: at least one character, '#'
    only alone and last, '+' only alone. *)
Theorem C61_filter_valid f :
  exists b, valid_filter f = Ok b /\ (b = true <-> topic_filter f).
Proof.
  unfold valid_filter, topic_filter. destruct f as [|x f].
  - exists false. split; [reflexivity|]. split; [discriminate|]. intros [H _]; destruct (H eq_refl).
  - set (s := x :: f). pose proof (split_nonempty s) as N0.
    destruct (rev (split_slash s)) as [|last hs] eqn:R.
    { apply (f_equal (@rev _)) in R. rewrite rev_involutive in R. destruct (N0 R). }
    assert (split_slash s = rev hs ++ [last]) as Hs.
    { rewrite <- (rev_involutive (split_slash s)), R. reflexivity. }
    assert ((s <> [] /\ exists ls, levels s ls /\ well_formed ls) <->
            well_formed [last] /\ filter_entries hs = true) as Q.
    { rewrite entries_wf, <- Hs. split.
      - intros (_ & ls & L & W). apply levels_split in L. subst ls. exact W.
      - intros W. split; [discriminate|]. exists (split_slash s). split; [apply split_levels|exact W]. }
    rewrite wf_one, <- last_one in Q. destruct (negb _ && _).
    + exists false. split; [reflexivity|]. rewrite Q. split; [discriminate|]. intros [H _]; discriminate.
    + exists (filter_entries hs). split; [reflexivity|]. rewrite Q. tauto.
Qed.
(** The `unwrap` in it is safe. *)
Theorem C61_filter_never_panics f : valid_filter f <> Panic.
Proof. destruct (C61_filter_valid f) as (b & -> & _). discriminate. Qed.

(** valid_topic and has_wildcards say whether a wildcard character occurs, and are each other's
    negation; so a topic name of the standard is valid, and what is valid is one or is empty. *)
Theorem C61_topic_valid t :
  (valid_topic t = true <-> plain t) /\ has_wildcards t = negb (valid_topic t) /\
  (topic_name t <-> valid_topic t = true /\ t <> []).
Proof.
  assert (valid_topic t = true <-> plain t) as H.
  { unfold valid_topic, plain. destruct (contains 43 t || contains 35 t) eqn:C.
    - apply Bool.orb_true_iff in C. rewrite !contains_in in C. split; [discriminate|]. tauto.
    - apply Bool.orb_false_iff in C. rewrite !contains_not in C. tauto. }
  split; [exact H|]. split.
  - unfold has_wildcards, valid_topic. destruct (_ || _); reflexivity.
  - unfold topic_name. rewrite H. tauto.
Qed.
(** The empty string is taken for a valid topic; the standard asks for at least one character. *)
Theorem C61_empty_topic_refuted : valid_topic [] = true /\ ~ topic_name [].
Proof. split; [reflexivity|]. intros [H _]. exact (H eq_refl). Qed.
(** A valid topic that is not empty is a valid filter. *)
Theorem C61_topics_are_filters t : topic_name t -> valid_filter t = Ok true.
Proof.
  intros [N0 P]. destruct (C61_filter_valid t) as (b & -> & E). f_equal. apply E. split; [exact N0|].
  exists (split_slash t). split; [apply split_levels|]. pose proof (plain_levels t P) as F.
  pose proof (split_nonempty t) as N1. induction F as [|l ls A F IH]; [destruct (N1 eq_refl)|].
  destruct ls; [apply wf_end, A|]. apply wf_level; [exact A|]. apply IH; discriminate.
Qed.

(** The `qos` there is the crate's. *)
Theorem C61_qos n : mod_qos n = option_map qos_u8 (qos n) /\ (mod_qos n = Some n <-> n < 3).
Proof.
  destruct n as [|[q|[q|q|]|]]; split; try reflexivity; split; intros H; try reflexivity; try discriminate; lia.
Qed.

(** "sport/tennis/#", "+/tennis/#", "sport/+", "/" are valid; "sport/tennis#", "sport/#/x", "a+",
    "++" are not. *)
Example C61_example :
  valid_filter [115;47;116;47;35] = Ok true /\ valid_filter [43;47;116;47;35] = Ok true /\
  valid_filter [115;47;43] = Ok true /\ valid_filter [47] = Ok true /\
  valid_filter [115;47;116;35] = Ok false /\ valid_filter [115;47;35;47;120] = Ok false /\
  valid_filter [97;43] = Ok false /\ valid_filter [43;43] = Ok false /\ valid_filter [] = Ok false.
Proof. repeat split; reflexivity. Qed.

(** ---------- matches ---------- *)

Lemma fits_nil fs : fits fs [] <-> fs = [] \/ fs = [[35]].
Proof. split; [intros H; inversion H; auto|intros [->| ->]; constructor]. Qed.
Lemma plain_not_wild l : plain l -> l <> [35] /\ l <> [43].
Proof.
  intros [A B]. split; intros ->; [apply B|apply A]; left; reflexivity.
Qed.
Lemma plus_not_hash : [43] <> [35]. Proof. discriminate. Qed.

(** The loop on well-formed filters and topics without wildcards. *)
Definition wf0 (fs : list bytes) : Prop := fs = [] \/ well_formed fs.
Lemma wf0_cons f fs : wf0 (f :: fs) -> f = [35] /\ fs = [] \/ (plain f \/ f = [43]) /\ wf0 fs.
Proof.
  intros [H|H]; [discriminate|]. unfold wf0. inversion H; subst; auto.
Qed.
Lemma loop_fits : forall fs ts, wf0 fs -> Forall plain ts ->
  (matches_loop fs ts = true <-> fits fs ts).
Proof.
  induction fs as [|f fs IH]; intros ts W F; cbn [matches_loop].
  - destruct ts; split; intros H; try discriminate; try constructor; inversion H.
  - destruct (wf0_cons _ _ W) as [[-> ->]|[P W']].
    { split; [intros _; constructor|reflexivity]. }
    assert (f <> [35]) as Nh by (destruct P as [P| ->]; [apply (plain_not_wild _ P)|discriminate]).
    rewrite (proj2 (str_eq_not f [35]) Nh).
    destruct F as [|t ts A F].
    { split; [discriminate|]. intros H. apply fits_nil in H. destruct H; congruence. }
    rewrite (proj2 (str_eq_not t [35]) (proj1 (plain_not_wild _ A))).
    specialize (IH ts W' F). destruct (str_eq f [43]) eqn:E.
    + apply str_eq_iff in E; subst f. rewrite IH. split; [intros H; constructor; exact H|].
      intros H; inversion H; subst; [|assumption]. destruct (plain_not_wild [43]) as [_ Q]; [assumption|congruence].
    + apply str_eq_not in E. destruct P as [P|P]; [|congruence].
      destruct (str_eq f t) eqn:E'; cbn [negb].
      * apply str_eq_iff in E'; subst t. rewrite IH. split; [intros H; constructor; assumption|].
        intros H; inversion H; subst; first [assumption|congruence].
      * apply str_eq_not in E'. split; [discriminate|]. intros H; inversion H; congruence.
Qed.

Lemma encode_first c : scalar c -> 128 <= c ->
  exists a b r, utf8_encode c = a :: b :: r /\ 128 <= a /\ cont_byte b = true.
Proof.
  intros S L. unfold utf8_encode. rewrite (proj2 (N.ltb_ge c 128)) by exact L.
  unfold scalar in S.
  destruct (c <? 2048) eqn:E; [|destruct (c <? 65536) eqn:E2];
    do 3 eexists; (split; [reflexivity|]); (split; [lia|]); apply cont_t; lia.
Qed.
Lemma encode_head c : scalar c -> exists a r, utf8_encode c = a :: r /\ cont_byte a = false.
Proof.
  intros S. unfold utf8_encode, cont_byte. unfold scalar in S.
  destruct (c <? 128) eqn:E0; [|destruct (c <? 2048) eqn:E; [|destruct (c <? 65536) eqn:E2]];
    do 2 eexists; (split; [reflexivity|]); apply Bool.andb_false_iff; rewrite !N.leb_gt; lia.
Qed.
Lemma slice_utf8 x t : utf8 (x :: t) ->
  (128 <= x -> first_byte_slice (x :: t) = Panic) /\ (x < 128 -> first_byte_slice (x :: t) = Ok [x]).
Proof.
  intros (cs & F & E). destruct F as [|c cs S F]; [discriminate|]. cbn [flat_map] in E.
  destruct (N.lt_ge_cases c 128) as [L|L].
  - assert (utf8_encode c = [c]) as Q by (unfold utf8_encode; rewrite (proj2 (N.ltb_lt _ _) L); reflexivity).
    rewrite Q in E. injection E as -> ->. split; [lia|]. intros _. unfold first_byte_slice.
    destruct F as [|c2 cs S2 F]; [reflexivity|]. cbn [flat_map].
    destruct (encode_head c2 S2) as (a & r & -> & B). cbn [app]. rewrite B. reflexivity.
  - destruct (encode_first c S L) as (a & b & r & Q & A & B). rewrite Q in E.
    cbn [app] in E. injection E as -> ->. split; [|lia]. intros _. cbn [first_byte_slice]. rewrite B. reflexivity.
Qed.

(** What `matches` does before the loop, for every string: a topic whose first character is not
    ASCII makes it panic, one that starts with '$' makes it answer false. *)
Theorem C62_outcome t f : utf8 t ->
  (matches t f = Panic <-> exists x r, t = x :: r /\ 128 <= x) /\
  (starts_with 36 t -> matches t f = Ok false) /\
  (matches t f <> Panic -> exists b, matches t f = Ok b).
Proof.
  intros U. unfold matches, starts_with. destruct t as [|x t].
  - cbn [rbind]. split; [|split].
    + split; [discriminate|]. intros (? & ? & H & _); discriminate.
    + intros [r H]; discriminate.
    + intros _. eexists; reflexivity.
  - destruct (slice_utf8 x t U) as [A B]. destruct (N.lt_ge_cases x 128) as [L|L].
    + rewrite (B L). cbn [rbind]. split; [|split].
      * split; [destruct (contains 36 [x]); discriminate|]. intros (? & ? & H & L'); injection H as -> ->; lia.
      * intros [r H]; injection H as -> ->. reflexivity.
      * intros _. destruct (contains 36 [x]); eexists; reflexivity.
    + rewrite (A L). cbn [rbind]. split; [|split].
      * split; [intros _; exists x, t; auto|reflexivity].
      * intros [r H]; injection H as -> ->; lia.
      * intros H; destruct (H eq_refl).
Qed.

Lemma matches_loop_eq t f b :
  matches t f = Ok b -> ~ starts_with 36 t -> b = matches_loop (split_slash f) (split_slash t).
Proof.
  unfold matches. intros E D. destruct t as [|x t]; cbn [rbind] in E; [congruence|].
  destruct (first_byte_slice (x :: t)) as [s| | |] eqn:S; cbn [rbind] in E; try discriminate.
  destruct (contains 36 s) eqn:C; [|congruence]. exfalso. apply D. exists t.
  assert (s = [x]) as ->.
  { cbn [first_byte_slice] in S. destruct t as [|y t]; [|destruct (cont_byte y)]; congruence. }
  apply contains_in in C. destruct C as [->|[]]. reflexivity.
Qed.

(** For a filter that valid_filter accepts and a topic that valid_topic accepts, `matches` answers
    true exactly for the topics that the filter selects in the standard and that do not start
    with '$', whenever it answers. *)
Theorem C62_matches t f b :
  valid_topic t = true -> valid_filter f = Ok true -> matches t f = Ok b ->
  (b = true <-> selects f t /\ ~ starts_with 36 t).
Proof.
  intros V1 V2 E. apply C61_topic_valid in V1.
  destruct (C61_filter_valid f) as (b' & Ef & V). rewrite Ef in V2. injection V2 as ->.
  destruct (proj1 V eq_refl) as (_ & fs & L & W). apply levels_split in L. subst fs.
  assert (starts_with 36 t \/ ~ starts_with 36 t) as [D|D].
  { destruct t as [|x t]; [right; intros [? H]; discriminate|].
    destruct (N.eq_dec x 36) as [->|H]; [left; eexists; reflexivity|right; intros [? Q]; congruence]. }
  - assert (b = false) as ->.
    { unfold matches in E. destruct D as [r ->]. cbn [rbind] in E.
      destruct (first_byte_slice (36 :: r)) as [s| | |] eqn:S; cbn [rbind] in E; try discriminate.
      assert (s = [36]) as -> by (cbn [first_byte_slice] in S; destruct r as [|y r]; [|destruct (cont_byte y)]; congruence).
      change (contains 36 [36]) with true in E. congruence. }
    split; [discriminate|tauto].
  - pose proof (matches_loop_eq _ _ _ E D) as ->. rewrite loop_fits;
      [|right; exact W|apply plain_levels, V1].
    unfold selects. split.
    + intros H. split; [|exact D]. split; [|tauto]. exists (split_slash f), (split_slash t).
      repeat split; try apply split_levels; exact H.
    + intros [[(fs & ts & L1 & L2 & C) _] _]. apply levels_split in L1, L2. subst. exact C.
Qed.

(** So in the standard's terms: true only where the filter selects the topic (never a wrong
    delivery); for topics that do not start with '$' also whenever it does. *)
Theorem C62_never_too_much t f :
  valid_topic t = true -> valid_filter f = Ok true -> matches t f = Ok true -> selects f t.
Proof. intros A B E. apply (C62_matches t f true A B E). reflexivity. Qed.
Theorem C62_exact_for_ascii x t f :
  utf8 (x :: t) -> x < 128 -> x <> 36 -> valid_topic (x :: t) = true -> valid_filter f = Ok true ->
  (matches (x :: t) f = Ok true <-> selects f (x :: t)) /\
  (matches (x :: t) f = Ok false <-> ~ selects f (x :: t)).
Proof.
  intros U L D A B. destruct (C62_outcome (x :: t) f U) as (P & _ & O).
  destruct O as [b E].
  { intros H. apply P in H. destruct H as (? & ? & H & L'). injection H as -> ->. lia. }
  pose proof (C62_matches _ _ _ A B E) as M.
  assert (~ starts_with 36 (x :: t)) as Nd by (intros [? H]; congruence).
  rewrite E. assert (b = true <-> selects f (x :: t)) as M' by tauto.
  destruct b.
  - split; [tauto|]. split; [discriminate|]. intros H. destruct H. apply M'. reflexivity.
  - split.
    + split; [discriminate|]. intros H. apply M' in H. discriminate.
    + split; [|reflexivity]. intros _ H. apply M' in H. discriminate.
Qed.
(** Subscribing to "$SYS/a" does not get the topic "$SYS/a", which the standard's filter selects. *)
Theorem C62_dollar_refuted :
  let t := [36;83;47;97] in
  utf8 t /\ valid_topic t = true /\ valid_filter t = Ok true /\ matches t t = Ok false /\ selects t t.
Proof.
  cbv zeta. split; [apply from_utf8_iff; reflexivity|]. repeat split; try reflexivity.
  - exists [[36;83];[97]], [[36;83];[97]]. repeat split; try discriminate; try reflexivity.
    + repeat constructor; cbn; intuition discriminate.
    + repeat constructor; cbn; intuition discriminate.
    + repeat constructor; cbn; intuition discriminate.
  - intros [_ [[r H]|[r H]]]; discriminate.
Qed.
(** A broker that asks it about the topic "é" panics, whatever the filter. *)
Theorem C62_non_ascii_refuted f :
  utf8 [195;169] /\ valid_topic [195;169] = true /\ matches [195;169] f = Panic.
Proof. split; [apply from_utf8_iff; reflexivity|]. split; reflexivity. Qed.
(** Valid topics and filters on both sides: "a/b" against "a/+", "a/b/#" (no further level), "#" and
    "a/c"; "é" is harmless behind an ASCII character. *)
Example C62_example :
  matches [97;47;98] [97;47;43] = Ok true /\ matches [97;47;98] [97;47;98;47;35] = Ok true /\
  matches [97;47;98] [35] = Ok true /\ matches [97;47;98] [97;47;99] = Ok false /\
  matches [97;47;98] [97] = Ok false /\ matches [97;47;98] [97;47;98;47;43] = Ok false /\
  matches [97;195;169] [43] = Ok true /\ utf8 [97;195;169].
Proof. repeat split; try reflexivity. apply from_utf8_iff; reflexivity. Qed.

(** ---------- two filters ---------- *)

Definition good (l : bytes) : Prop := plain l /\ ~ In 47 l.
Lemma good_a l : good l -> good (97 :: l).
Proof.
  intros [[A B] C]. repeat split; intros [H|H]; try discriminate; contradiction.
Qed.
Lemma good_nil : good []. Proof. repeat split; intros []. Qed.
Lemma wf0_witness ts : wf0 ts -> Forall (fun l => ~ In 47 l) ts ->
  exists xs, Forall good xs /\ fits ts xs /\ (ts <> [] -> xs <> []).
Proof.
  induction ts as [|t ts IH]; intros W F.
  - exists []. repeat split; try constructor. intros H; exact H.
  - inversion F as [|? ? A F']; subst. destruct (wf0_cons _ _ W) as [[-> ->]|[P W']].
    + exists [[]]. repeat split; try constructor; try discriminate; [apply good_nil|constructor].
    + destruct (IH W' F') as (xs & G & Q & _). destruct P as [P| ->].
      * exists (t :: xs). repeat split; try discriminate; constructor; auto. split; assumption.
      * exists ([] :: xs). repeat split; try discriminate; constructor; auto. apply good_nil.
Qed.
Lemma fits_plus_inv fs x xs : fits ([43] :: fs) (x :: xs) -> fits fs xs.
Proof.
  intros H; inversion H; subst; [|assumption].
  destruct (plain_not_wild [43]) as [_ Q]; [assumption|congruence].
Qed.
Lemma fits_plain_inv f fs x xs : plain f -> fits (f :: fs) (x :: xs) -> x = f /\ fits fs xs.
Proof.
  intros P H; inversion H; subst; auto; destruct (plain_not_wild _ P); congruence.
Qed.
Lemma loop_sound : forall fs ts, wf0 fs -> wf0 ts -> matches_loop fs ts = true ->
  forall xs, fits ts xs -> fits fs xs.
Proof.
  induction fs as [|f fs IH]; intros ts Wf Wt; cbn [matches_loop].
  - destruct ts; [auto|discriminate].
  - destruct (wf0_cons _ _ Wf) as [[-> ->]|[P W']]; [intros; constructor|].
    assert (f <> [35]) as Nh by (destruct P as [P| ->]; [apply (plain_not_wild _ P)|discriminate]).
    rewrite (proj2 (str_eq_not f [35]) Nh). destruct ts as [|t ts]; [discriminate|].
    destruct (wf0_cons _ _ Wt) as [[-> ->]|[Q Wt']]; [discriminate|].
    assert (t <> [35]) as Nt by (destruct Q as [Q| ->]; [apply (plain_not_wild _ Q)|discriminate]).
    rewrite (proj2 (str_eq_not t [35]) Nt). destruct (str_eq f [43]) eqn:E.
    + apply str_eq_iff in E; subst f. intros M xs H.
      destruct xs as [|x xs]; [apply fits_nil in H; destruct H; congruence|]. constructor.
      apply (IH ts W' Wt' M). destruct Q as [Q| ->]; [apply (fits_plain_inv _ _ _ _ Q H)|exact (fits_plus_inv _ _ _ H)].
    + apply str_eq_not in E. destruct (str_eq f t) eqn:E'; cbn [negb]; [|discriminate].
      apply str_eq_iff in E'; subst t. intros M xs H. destruct P as [P|P]; [|congruence].
      destruct xs as [|x xs]; [apply fits_nil in H; destruct H; congruence|].
      apply fits_plain_inv in H; [|exact P]. destruct H as [-> H]. constructor; [exact P|].
      exact (IH ts W' Wt' M xs H).
Qed.
Lemma cons_neq {A} (x : A) l : x :: l <> l.
Proof. intros H. apply (f_equal (@length _)) in H. cbn [length] in H. lia. Qed.
Lemma loop_complete : forall fs ts, wf0 fs -> wf0 ts ->
  Forall (fun l => ~ In 47 l) fs -> Forall (fun l => ~ In 47 l) ts ->
  (forall xs, Forall good xs -> fits ts xs -> fits fs xs) -> matches_loop fs ts = true.
Proof.
  induction fs as [|f fs IH]; intros ts Wf Wt Sf St H; cbn [matches_loop].
  - destruct ts as [|t ts]; [reflexivity|]. destruct (wf0_witness _ Wt St) as (xs & G & Q & Ne).
    apply H in Q; [|exact G]. inversion Q; subst. destruct Ne; [discriminate|reflexivity].
  - destruct (wf0_cons _ _ Wf) as [[-> ->]|[P W']]; [reflexivity|].
    inversion Sf as [|? ? Af Sf']; subst.
    assert (f <> [35]) as Nh by (destruct P as [P| ->]; [apply (plain_not_wild _ P)|discriminate]).
    rewrite (proj2 (str_eq_not f [35]) Nh).
    assert (~ fits (f :: fs) []) as Nn by (intros Q; apply fits_nil in Q; destruct Q; congruence).
    destruct ts as [|t ts]; [destruct (Nn (H [] (Forall_nil _) fit_end))|].
    inversion St as [|? ? At St']; subst.
    destruct (wf0_cons _ _ Wt) as [[-> ->]|[Q Wt']]; [destruct (Nn (H [] (Forall_nil _) (fit_hash _)))|].
    assert (t <> [35]) as Nt by (destruct Q as [Q| ->]; [apply (plain_not_wild _ Q)|discriminate]).
    rewrite (proj2 (str_eq_not t [35]) Nt). destruct (str_eq f [43]) eqn:E.
    + apply str_eq_iff in E; subst f. apply IH; try assumption. intros xs G X.
      destruct Q as [Q| ->].
      * apply (fits_plus_inv _ t). apply H; [constructor; [split; assumption|exact G]|]. constructor; assumption.
      * apply (fits_plus_inv _ []). apply H; [constructor; [apply good_nil|exact G]|]. constructor; assumption.
    + apply str_eq_not in E. destruct P as [P|P]; [|congruence].
      destruct (wf0_witness _ Wt' St') as (xs & G & X & _).
      destruct Q as [Q| ->].
      * assert (t = f) as ->.
        { apply (fits_plain_inv f fs t xs P). apply H; [constructor; [split; assumption|exact G]|]. constructor; assumption. }
        rewrite (proj2 (str_eq_iff f f) eq_refl). cbn [negb]. apply IH; try assumption.
        intros ys Gy Y. apply (fits_plain_inv f fs f ys P). apply H; [constructor; [split; assumption|exact Gy]|].
        constructor; assumption.
      * exfalso. assert (97 :: f = f) as C; [|exact (cons_neq _ _ C)].
        apply (fits_plain_inv f fs _ xs P). apply H; [|constructor; exact X].
        constructor; [apply good_a; split; assumption|exact G].
Qed.

Lemma plain_join ls : Forall plain ls -> plain (join ls).
Proof.
  intros F. induction F as [|l ls [A B] F [IH1 IH2]]; [split; intros []|].
  destruct ls as [|l' ls]; [split; assumption|]. rewrite join_cons by discriminate.
  split; intros H; apply in_app_iff in H; (destruct H as [H|[H|H]]; [contradiction|discriminate|contradiction]).
Qed.
Lemma starts_join c l ls : c <> 47 -> (starts_with c (join (l :: ls)) <-> starts_with c l).
Proof.
  intros N0. destruct ls as [|l' ls]; [reflexivity|]. rewrite join_cons by discriminate.
  destruct l as [|x l]; split; intros [r H]; try discriminate.
  - injection H as H _. congruence.
  - injection H as -> _. eexists; reflexivity.
  - injection H as -> _. eexists; reflexivity.
Qed.

(** `matches` on two filters, as its comment offers: for a first filter that does not start with '$',
    whenever it answers, true means that every valid topic the first one selects is selected by
    the second; false means that some is not, with one exception, "#" against "+/#", which
    select the same topics. *)
Theorem C62_two_filters t f b :
  valid_filter t = Ok true -> valid_filter f = Ok true -> ~ starts_with 36 t -> matches t f = Ok b ->
  (b = true \/ (t = [35] /\ f = [43;47;35]) <->
   forall x, valid_topic x = true -> selects t x -> selects f x).
Proof.
  intros Vt Vf D E. pose proof (matches_loop_eq _ _ _ E D) as ->. clear E.
  destruct (C61_filter_valid t) as (b & Et & V). rewrite Et in Vt. injection Vt as ->.
  destruct (proj1 V eq_refl) as (_ & ts & Lt & Wt). clear V Et.
  destruct (C61_filter_valid f) as (b & Ef & V). rewrite Ef in Vf. injection Vf as ->.
  destruct (proj1 V eq_refl) as (_ & fs & Lf & Wf). clear V Ef.
  rewrite <- (proj1 (levels_split _ _) Lt), <- (proj1 (levels_split _ _) Lf).
  assert (forall xs, xs <> [] -> Forall good xs -> levels (join xs) xs /\ valid_topic (join xs) = true) as G.
  { intros xs N0 F. split; [split; [exact N0|split; [|reflexivity]]|].
    - eapply Forall_impl; [|exact F]. intros l [_ H]; exact H.
    - apply (proj1 (C61_topic_valid _)), plain_join. eapply Forall_impl; [|exact F]. intros l [H _]; exact H. }
  pose proof Lt as (Nt & St & Jt). pose proof Lf as (Nf & Sf & Jf).
  destruct ts as [|t0 ts]; [destruct (Nt eq_refl)|]. destruct fs as [|f0 fs]; [destruct (Nf eq_refl)|].
  assert (~ starts_with 36 t0) as D0 by (rewrite <- (starts_join 36 t0 ts) by discriminate; rewrite <- Jt; exact D).
  split.
  - intros M x Vx [(ts' & xs & L1 & L2 & X) Y]. 
    apply levels_split in L1. rewrite <- (proj1 (levels_split _ _) Lt) in L1. subst ts'.
    pose proof L2 as (Nx & Sx & Jx). destruct xs as [|x0 xs]; [destruct (Nx eq_refl)|].
    split.
    + exists (f0 :: fs), (x0 :: xs). split; [exact Lf|]. split; [exact L2|].
      destruct M as [M|[-> ->]].
      * apply (loop_sound _ _ (or_intror Wf) (or_intror Wt) M _ X).
      * apply levels_split in Lf. change (split_slash [43;47;35]) with [[43];[35]] in Lf. rewrite Lf.
        constructor. constructor.
    + intros [Sd _]. apply Y. split; [exact Sd|].
      destruct (wf0_cons _ _ (or_intror Wt)) as [[-> ->]|[[P| ->] _]].
      * right. rewrite Jt. eexists; reflexivity.
      * exfalso. apply (fits_plain_inv _ _ _ _ P) in X. destruct X as [-> _].
        rewrite Jx, starts_join in Sd by discriminate. contradiction.
      * left. rewrite Jt. apply starts_join; [discriminate|]. eexists; reflexivity.
  - intros H.
    assert (forall x xs, Forall good (x :: xs) -> ~ starts_with 36 x -> fits (t0 :: ts) (x :: xs) ->
                    fits (f0 :: fs) (x :: xs)) as H'.
    { intros x xs F Nd X. destruct (G (x :: xs)) as [L V]; [discriminate|exact F|].
      destruct (H _ V) as [(fs' & xs' & L1 & L2 & Z) _].
      - split; [exists (t0 :: ts), (x :: xs); auto|]. intros [Sd _].
        rewrite starts_join in Sd by discriminate. contradiction.
      - apply levels_split in L1, L2. rewrite <- (proj1 (levels_split _ _) Lf) in L1.
        rewrite <- (proj1 (levels_split _ _) L) in L2. subst. exact Z. }
    clear H. assert (forall l, ~ starts_with 36 (97 :: l)) as Na by (intros l [? Q]; discriminate).
    assert (~ starts_with 36 []) as N0 by (intros [? Q]; discriminate).
    inversion St as [|? ? At St']; subst. inversion Sf as [|? ? Af Sf']; subst.
    destruct (wf0_cons _ _ (or_intror Wf)) as [[-> ->]|[P W']]; [left; reflexivity|].
    assert (f0 <> [35]) as Nh by (destruct P as [P| ->]; [apply (plain_not_wild _ P)|discriminate]).
    destruct (wf0_cons _ _ (or_intror Wt)) as [[-> ->]|[Q Wt']].
    + (* "#" *)
      destruct P as [P| ->].
      * exfalso. assert (97 :: f0 = f0) as C; [|exact (cons_neq _ _ C)].
        apply (fits_plain_inv f0 fs _ [] P). apply H'; [|apply Na|constructor].
        constructor; [apply good_a; split; assumption|constructor].
      * right. split; [reflexivity|]. assert (fits fs []) as X.
        { apply (fits_plus_inv _ []). apply H'; [|exact N0|constructor]. constructor; [apply good_nil|constructor]. }
        apply fits_nil in X. destruct X as [->| ->]; [|reflexivity].
        assert (fits [] [[]]) as X; [|inversion X]. apply (fits_plus_inv _ []).
        apply H'; [|exact N0|constructor]. repeat (constructor; [apply good_nil|]). constructor.
    + left. cbn [matches_loop]. rewrite (proj2 (str_eq_not f0 [35]) Nh).
      assert (t0 <> [35]) as Nt0 by (destruct Q as [Q| ->]; [apply (plain_not_wild _ Q)|discriminate]).
      rewrite (proj2 (str_eq_not t0 [35]) Nt0). destruct (str_eq f0 [43]) eqn:E.
      * apply str_eq_iff in E; subst f0. apply loop_complete; try assumption. intros xs Gx X.
        destruct Q as [Q| ->].
        -- apply (fits_plus_inv _ t0). apply H'; [constructor; [split; assumption|exact Gx]|exact D0|].
           constructor; assumption.
        -- apply (fits_plus_inv _ []). apply H'; [constructor; [apply good_nil|exact Gx]|exact N0|].
           constructor; assumption.
      * apply str_eq_not in E. destruct P as [P|P]; [|congruence].
        destruct (wf0_witness _ Wt' St') as (xs & Gx & X & _). destruct Q as [Q| ->].
        -- assert (t0 = f0) as ->.
           { apply (fits_plain_inv f0 fs t0 xs P).
             apply H'; [constructor; [split; assumption|exact Gx]|exact D0|]. constructor; assumption. }
           rewrite (proj2 (str_eq_iff f0 f0) eq_refl). cbn [negb]. apply loop_complete; try assumption.
           intros ys Gy Y. apply (fits_plain_inv f0 fs f0 ys P).
           apply H'; [constructor; [split; assumption|exact Gy]|exact D0|]. constructor; assumption.
        -- exfalso. assert (97 :: f0 = f0) as C; [|exact (cons_neq _ _ C)].
           apply (fits_plain_inv f0 fs _ xs P). apply H'; [|apply Na|constructor; exact X].
           constructor; [apply good_a; split; assumption|exact Gx].
Qed.
(** "a/+" is inside "a/#" and "#", not inside "a/b"; the exception is real: "#" is inside "+/#". *)
Example C62_two_example :
  matches [97;47;43] [97;47;35] = Ok true /\ matches [97;47;43] [35] = Ok true /\
  matches [97;47;43] [97;47;98] = Ok false /\ matches [35] [43;47;35] = Ok false /\
  matches [43;47;35] [35] = Ok true /\ valid_filter [43;47;35] = Ok true.
Proof. repeat split. Qed.
