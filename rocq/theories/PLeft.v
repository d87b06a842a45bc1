(** The component readers of MLeft: same results as those of the model, and what they leave after
    an error is what Left.v says. *)
From Verif Require Import Types Model MLib MConnect MConnAck MPublish MPubAck MPubRec MPubRel MPubComp MSubscribe MSubAck
  MUnsubscribe MUnsubAck MDisconnect MLeft Spec Wire Sites Faults Left.
From Verif Require Import PBase PVarint PUtf8 PRead PItems PProps PFrame PWire PTotal PFaults.
Ltac Zify.zify_post_hook ::= Z.div_mod_to_equations.

(** The outcome without the leftover of an error. *)
Definition forget {A} (x : res A * bytes) : res (A * bytes) :=
  match x with
  | (Ok a, r) => Ok (a, r)
  | (Err e, _) => Err e
  | (Panic, _) => Panic
  | (Diverge, _) => Diverge
  end.
Definition same {A} (m : W A) (rd : bytes -> res (A * bytes)) : Prop := forall b, forget (m b) = rd b.

Lemma same_take {A} (rd : bytes -> res (A * bytes)) : same (take rd) rd.
Proof. intros b. unfold take. destruct (rd b) as [[a r]| | |]; reflexivity. Qed.
Lemma same_bind {A B} (m : W A) rd (k : A -> W B) K :
  same m rd -> (forall a, same (k a) (K a)) -> same (wbind m k) (fun b => let? (a, b) := rd b in K a b).
Proof.
  intros Hm Hk b. rewrite <- (Hm b). unfold wbind. destruct (m b) as [[a|e| |] r]; cbn [forget rbind]; [apply Hk|reflexivity..].
Qed.
Lemma same_ext {A} (m : W A) rd rd' : same m rd -> (forall b, rd b = rd' b) -> same m rd'.
Proof. intros H E b. rewrite <- E. apply H. Qed.
Lemma same_ret {A} (a : A) : same (wret a) (fun b => Ok (a, b)).
Proof. intros b. reflexivity. Qed.
Lemma same_fail {A} e : same (@wfail A e) (fun _ => Err e).
Proof. intros b. reflexivity. Qed.

Lemma same_bytes : same s_read_mqtt_bytes read_mqtt_bytes.
Proof.
  apply (same_bind _ read_u16 _ (fun len b => if blen b <? len then Err (BoundaryCrossed len) else split_to b len)).
  - apply same_take.
  - intros len b. destruct (blen b <? len); [reflexivity|]. apply (same_take (fun b => split_to b len)).
Qed.
Lemma same_string ft : same (s_read_mqtt_string ft) (read_mqtt_string ft).
Proof.
  assert (X : same (do s <- s_read_mqtt_bytes; if from_utf8 s then wret s else wfail TopicNotUtf8)
    (fun b => let? (s, b) := read_mqtt_bytes b in if from_utf8 s then Ok (s, b) else Err TopicNotUtf8)).
  { apply (same_bind _ _ _ (fun s b => if from_utf8 s then Ok (s, b) else Err TopicNotUtf8)); [apply same_bytes|].
    intros s b. destruct (from_utf8 s); reflexivity. }
  destruct ft; try exact X. exact same_bytes.
Qed.

(** ---------- The generic section reader ---------- *)

Definition s_read_value (ft : feature) (k : kind) : W (pvalue * N) :=
  match k with
  | KByte => do v <- s_read_u8; wret (VByte v, 1)
  | KTwo => do v <- s_read_u16; wret (VTwo v, 2)
  | KFour => do v <- s_read_u32; wret (VFour v, 4)
  | KVar => do (n, v) <- s_length; do_ s_advance n; wret (VVar v, 1 + n)
  | KStr => do v <- s_read_mqtt_string ft; wret (VStr v, 2 + blen v)
  | KBin => do v <- s_read_mqtt_bytes; wret (VBin v, 2 + blen v)
  | KPair =>
      do k <- s_read_mqtt_string ft;
      do v <- s_read_mqtt_string ft;
      wret (VPair k v, 2 + blen k + 2 + blen v)
  end.
Definition s_gstep (ft : feature) (allowed : list N) (prop : N) (seen : list item) : W (list item * N) :=
  match property_kind prop with
  | Some k =>
      if mem prop allowed
      then do (v, n) <- s_read_value ft k; wret (seen ++ [(prop, v)], n)
      else wfail (InvalidPropertyType prop)
  | None => wfail (InvalidPropertyType prop)
  end.
Definition s_gread (ft : feature) (allowed : list N) : W (option (list item)) :=
  s_props_read (s_gstep ft allowed) [].

Definition flat {A B} (rd : bytes -> res (A * B * bytes)) : bytes -> res ((A * B) * bytes) := rd.
Lemma same_value ft k : same (s_read_value ft k) (read_value ft k).
Proof.
  destruct k; cbn [s_read_value].
  - refine (same_ext _ _ _ (same_bind _ _ _ _ (same_take _) (fun a => same_ret _)) _). intros b. reflexivity.
  - refine (same_ext _ _ _ (same_bind _ _ _ _ (same_take _) (fun a => same_ret _)) _). intros b. reflexivity.
  - refine (same_ext _ _ _ (same_bind _ _ _ _ (same_take _) (fun a => same_ret _)) _). intros b. reflexivity.
  - intros b. unfold wbind, s_length, s_advance, take. cbn [read_value].
    destruct (length_ b) as [[n v]| | |]; try reflexivity. cbn [rbind]. destruct (advance b n); reflexivity.
  - refine (same_ext _ _ _ (same_bind _ _ _ _ (same_string ft) (fun a => same_ret _)) _). intros b. reflexivity.
  - refine (same_ext _ _ _ (same_bind _ _ _ _ same_bytes (fun a => same_ret _)) _). intros b. reflexivity.
  - refine (same_ext _ _ _ (same_bind _ _ _ _ (same_string ft) (fun a => same_bind _ _ _ _ (same_string ft) (fun c => same_ret _))) _).
    intros b. reflexivity.
Qed.
Lemma same_gstep ft allowed prop seen : same (s_gstep ft allowed prop seen) (gstep ft allowed prop seen).
Proof.
  unfold s_gstep, gstep. destruct (property_kind prop) as [k|]; [|apply same_fail].
  destruct (mem prop allowed); [|apply same_fail].
  intros b. unfold wbind. rewrite <- (same_value ft k b). destruct (s_read_value ft k b) as [[[v n]|e| |] r]; reflexivity.
Qed.
Lemma same_loop {S} (step : N -> S -> W (S * N)) (rstep : N -> S -> bytes -> res (S * N * bytes)) :
  (forall p s, same (step p s) (rstep p s)) ->
  forall fuel cursor plen st, same (s_props_loop step fuel cursor plen st) (props_loop rstep fuel cursor plen st).
Proof.
  intros H. induction fuel as [|fuel IH]; intros cursor plen st b; cbn [s_props_loop props_loop]; destruct (cursor <? plen); try reflexivity.
  unfold wbind, s_read_u8, take, wlift. destruct (read_u8 b) as [[prop b1]| | |]; cbn [rbind]; try reflexivity.
  destruct (usize_add cursor 1); cbn [rbind]; try reflexivity.
  rewrite <- (H prop st b1). destruct (step prop st b1) as [[[s n]|e| |] b2]; cbn [forget rbind]; try reflexivity.
  destruct (usize_add _ n); cbn [rbind]; try reflexivity. apply IH.
Qed.
Lemma same_read {S} (step : N -> S -> W (S * N)) (rstep : N -> S -> bytes -> res (S * N * bytes)) init :
  (forall p s, same (step p s) (rstep p s)) -> same (s_props_read step init) (props_read rstep init).
Proof.
  intros H b. unfold s_props_read, props_read, wbind, s_length, s_advance, take.
  destruct (length_ b) as [[n v]| | |]; try reflexivity. cbn [rbind].
  destruct (advance b n) as [b1| | |]; try reflexivity. cbn [rbind].
  destruct (v =? 0); [reflexivity|]. rewrite <- (same_loop step rstep H).
  destruct (s_props_loop step _ _ _ _ _) as [[s|e| |] b2]; reflexivity.
Qed.

(** ---------- Leftovers ---------- *)

(** A reader whose successes are described by [R] and whose failures by [L]. *)
Definition sreader {A} (m : W A) (R : A -> bytes -> Prop) (L : leaves) : Prop :=
  forall b, bytes_ok b ->
    (forall a r, m b = (Ok a, r) <-> exists l, b = l ++ r /\ R a l) /\ (forall e left, m b = (Err e, left) <-> L b e left).

Lemma forget_ok {A} (m : W A) rd b a r : same m rd -> m b = (Ok a, r) <-> rd b = Ok (a, r).
Proof.
  intros H. rewrite <- (H b). destruct (m b) as [[x|e| |] y]; cbn [forget]; split; intros E; try discriminate E.
  - injection E as -> ->. reflexivity.
  - injection E as -> ->. reflexivity.
Qed.
Lemma sreader_intro {A} (m : W A) rd R F L :
  same m rd -> reader rd R F -> (forall b, bytes_ok b -> forall e left, m b = (Err e, left) <-> L b e left) -> sreader m R L.
Proof.
  intros Hs Hr HL b Hb. split; [|apply HL; exact Hb]. intros a r. rewrite (forget_ok m rd) by exact Hs. apply Hr. exact Hb.
Qed.
Lemma take_left {A} (rd : bytes -> res (A * bytes)) R F : reader rd R F -> sreader (take rd) R (untouched F).
Proof.
  intros Hr. apply (sreader_intro _ rd R F); [apply same_take|exact Hr|]. intros b Hb e left. unfold untouched.
  destruct (Hr b Hb) as [_ H2]. rewrite <- H2. unfold take. destruct (rd b) as [[a r]|e'| |]; split; intros X; try discriminate X.
  - destruct X. discriminate.
  - injection X as -> ->. auto.
  - destruct X as [X ->]. injection X as ->. reflexivity.
  - destruct X. discriminate.
  - destruct X. discriminate.
Qed.
Lemma after_left {A B} (m : W A) R L (k : A -> W B) next b e left :
  sreader m R L -> bytes_ok b ->
  (forall a l r, b = l ++ r -> R a l -> bytes_ok l -> bytes_ok r -> (k a r = (Err e, left) <-> next a r e left)) ->
  wbind m k b = (Err e, left) <-> after R L next b e left.
Proof.
  intros Hm Hb Hk. destruct (Hm b Hb) as [H1 H2]. unfold after. rewrite <- H2. unfold wbind. split.
  - intros X. destruct (m b) as [[a|e'| |] r] eqn:E; try discriminate X; [|left; congruence].
    right. destruct (proj1 (H1 a r) eq_refl) as (l & Eb & HR). exists a, l, r. repeat split; auto.
    subst b. bok. apply (Hk a l r); auto.
  - intros [X|(a & l & r & Eb & HR & X)]; [rewrite X; reflexivity|].
    rewrite (proj2 (H1 a r)) by (exists l; auto). subst b. bok. apply (Hk a l r); auto.
Qed.
Lemma last_left {A B} (m : W A) R L (f : A -> B) b e left :
  sreader m R L -> bytes_ok b -> wbind m (fun a => wret (f a)) b = (Err e, left) <-> L b e left.
Proof.
  intros Hm Hb. destruct (Hm b Hb) as [_ H]. rewrite <- H. unfold wbind, wret.
  destruct (m b) as [[a|e'| |] r]; split; intros X; try discriminate X; congruence.
Qed.
Lemma checked_left {B} (c : Prop) (x : bool) err (k : W B) next b e left :
  (x = true <-> c) -> (c -> (k b = (Err e, left) <-> next b e left)) ->
  (if negb x then wfail err else k) b = (Err e, left) <-> checked c err next b e left.
Proof.
  intros Hx Hk. unfold checked. destruct x; cbn [negb].
  - assert (c) by tauto. rewrite (Hk H). tauto.
  - assert (~ c) by (intros C; apply Hx in C; discriminate). unfold wfail. split; [intros E; injection E as <- <-; tauto|].
    intros [(_ & -> & ->)|[? _]]; [reflexivity|contradiction].
Qed.

Lemma bin_sreader : sreader s_read_mqtt_bytes bin_wire bin_leaves.
Proof.
  apply (sreader_intro _ _ _ _ _ same_bytes bin_reader). intros b Hb e left. unfold s_read_mqtt_bytes.
  etransitivity.
  { apply (after_left _ _ _ _ (fun n r e left => blen r < n /\ e = BoundaryCrossed n /\ left = r) _ _ _ (take_left _ _ _ u16_reader) Hb).
    intros n l r -> _ _ Hr. destruct (N.ltb_spec (blen r) n).
    - split; [intros E; injection E as <- <-; auto|intros (_ & -> & ->); reflexivity].
    - unfold s_split_to, take, split_to. destruct (N.leb_spec n (blen r)); [|lia]. split; [discriminate|intros (? & _); lia]. }
  unfold after, bin_leaves, untouched, fixed_faulty. split.
  - intros [[[H1 ->] ->]|(n & l & r & -> & [Hn ->] & H1 & -> & ->)]; [left; auto|right; exists n; auto].
  - intros [(H1 & -> & ->)|(n & Hn & -> & H1 & ->)]; [left; auto|right]. exists n, (u16be n), left. repeat split; auto.
Qed.
Lemma str_sreader ft : sreader (s_read_mqtt_string ft) (str_wire ft) (str_leaves ft).
Proof.
  apply (sreader_intro _ _ _ _ _ (same_string ft) (str_reader ft)). intros b Hb e left.
  assert (C : ft <> F_binary -> (do s <- s_read_mqtt_bytes; if from_utf8 s then wret s else wfail TopicNotUtf8) b = (Err e, left) <-> str_leaves ft b e left).
  { intros F. etransitivity.
    { apply (after_left _ _ _ _ (fun s r e left => ~ utf8 s /\ e = TopicNotUtf8 /\ left = r) _ _ _ bin_sreader Hb).
      intros s l r -> _ _ Hr. pose proof (from_utf8_iff s) as U. unfold wret, wfail. destruct (from_utf8 s).
      - split; [discriminate|intros (X & _); exfalso; tauto].
      - split; [intros E; injection E as <- <-|intros (_ & -> & ->); reflexivity]. repeat split.
        intros X. apply U in X. discriminate. }
    unfold after, str_leaves. apply or_iff_compat_l. split.
    * intros (s & l & r & -> & Hw & H1 & -> & ->). repeat split; auto. exists s, l. auto.
    * intros (_ & -> & s & l & -> & Hw & H1). exists s, l, left. auto. }
  destruct ft; try (apply C; discriminate). unfold str_leaves. destruct (bin_sreader b Hb) as [_ H]. cbn [s_read_mqtt_string]. rewrite H. tauto.
Qed.

(** [varint] as one operation. *)
Lemma varint_bind {B} (k : N -> N -> W B) b :
  (do (n, v) <- s_length; do_ s_advance n; k n v) b
  = match length_ b with
    | Ok (n, v) => match advance b n with Ok r => k n v r | Err e => (Err e, b) | Panic => (Panic, b) | Diverge => (Diverge, b) end
    | Err e => (Err e, b) | Panic => (Panic, b) | Diverge => (Diverge, b)
    end.
Proof.
  unfold wbind, s_length, s_advance, take. destruct (length_ b) as [[n v]| | |]; try reflexivity.
  destruct (advance b n); reflexivity.
Qed.
Lemma varint_left {B} (k : N -> N -> W B) next b e left : bytes_ok b ->
  (forall v l r, b = l ++ r -> varint_wire v l -> bytes_ok l -> bytes_ok r -> (k (blen l) v r = (Err e, left) <-> next v r e left)) ->
  (do (n, v) <- s_length; do_ s_advance n; k n v) b = (Err e, left) <-> after varint_wire (untouched varint_faulty) next b e left.
Proof.
  intros Hb Hk. rewrite varint_bind. unfold after, untouched.
  destruct (length_total b Hb) as [(l & r & v & -> & Hw & E)|[(H1 & H2 & E)|(l & r & -> & H1 & H2 & E)]].
  - rewrite E, advance_app. bok. rewrite (Hk v l r) by auto. split.
    + intros X. right. exists v, l, r. auto.
    + intros [[X _]|(v' & l' & r' & Eb & Hw' & X)].
      * apply length_err in X; [|bok]. congruence.
      * assert (Hr' : bytes_ok r').
        { assert (Z : bytes_ok (l ++ r)) by bok. rewrite Eb in Z. bok. }
        destruct (varint_prefix_unique v v' l l' r r') as (-> & -> & ->); auto.
  - rewrite E. split.
    + intros X. injection X as <- <-. left. split; [|reflexivity]. apply length_err; auto.
    + intros [[X ->]|(v' & l' & r' & -> & Hw' & X)].
      * apply length_err in X; [|exact Hb]. rewrite E in X. injection X as ->. reflexivity.
      * bok. rewrite (length_app v') in E by assumption. discriminate.
  - rewrite E. split.
    + intros X. injection X as <- <-. left. split; [|reflexivity]. apply length_err; auto.
    + intros [[X ->]|(v' & l' & r' & Eb & Hw' & X)].
      * apply length_err in X; [|exact Hb]. rewrite E in X. injection X as ->. reflexivity.
      * rewrite Eb in E, Hb. bok. rewrite (length_app v') in E by assumption. discriminate.
Qed.

Lemma value_left ft k b e left : bytes_ok b -> s_read_value ft k b = (Err e, left) <-> value_leaves ft k b e left.
Proof.
  intros Hb. destruct k; cbn [s_read_value value_leaves].
  - apply (last_left _ _ _ _ _ _ _ (take_left _ _ _ u8_reader) Hb).
  - apply (last_left _ _ _ _ _ _ _ (take_left _ _ _ u16_reader) Hb).
  - apply (last_left _ _ _ _ _ _ _ (take_left _ _ _ u32_reader) Hb).
  - etransitivity.
    { apply (varint_left (fun n v => wret (VVar v, 1 + n)) (fun _ => never) b e left Hb).
      intros v l r _ _ _ _. unfold wret, never. split; [discriminate|tauto]. }
    unfold after, never. split; [intros [X|(a & l & r & _ & _ & [])]; exact X|auto].
  - apply (last_left _ _ _ _ _ _ _ (str_sreader ft) Hb).
  - apply (last_left _ _ _ _ _ _ _ bin_sreader Hb).
  - apply (after_left _ _ _ _ _ _ _ _ (str_sreader ft) Hb). intros a l r _ _ _ Hr.
    apply (last_left _ _ _ _ _ _ _ (str_sreader ft) Hr).
Qed.
Lemma gstep_left ft allowed id seen b e left : bytes_ok b ->
  s_gstep ft allowed id seen b = (Err e, left) <-> property_leaves ft allowed (id :: b) e left.
Proof.
  intros Hb. unfold s_gstep, property_leaves. destruct (property_kind id) as [k|].
  - unfold checked. pose proof (mem_in id allowed) as M. destruct (mem id allowed).
    + assert (In id allowed) by tauto. rewrite <- value_left by exact Hb. unfold wbind, wret.
      destruct (s_read_value ft k b) as [[[v n]|e'| |] r]; split; intros X; try discriminate X; try (right; split; [assumption|congruence]).
      all: destruct X as [[X _]|[_ X]]; [contradiction|try discriminate X; congruence].
    + assert (~ In id allowed) by (intros C; apply M in C; discriminate). unfold wfail.
      split; [intros E; injection E as <- <-; tauto|]. intros [(_ & -> & ->)|[? _]]; [reflexivity|contradiction].
  - unfold wfail. split; [intros E; injection E as <- <-; auto|intros [-> ->]; reflexivity].
Qed.

Lemma loop_left ft allowed plen e left : plen <= max_varint -> forall fuel cursor seen b, bytes_ok b -> (length b < fuel)%nat ->
  s_props_loop (s_gstep ft allowed) fuel cursor plen seen b = (Err e, left)
  <-> exists sp r, b = concat (map snd sp) ++ r /\ Forall (spelled_wire ft allowed) sp
       /\ cursor + total sp < plen /\ property_leaves ft allowed r e left.
Proof.
  intros Hp. induction fuel as [|fuel IH]; intros cursor seen b Hb Hf; [lia|]. cbn [s_props_loop].
  destruct (N.ltb_spec cursor plen) as [L|L].
  2:{ unfold wret. split; [discriminate|]. intros (sp & r & _ & _ & H & _). lia. }
  unfold wbind, s_read_u8, take, wlift.
  destruct b as [|id b]; [|rewrite read_u8_cons]; cbn [read_u8].
  - split.
    + intros E. injection E as <- <-. exists [], []. cbn. repeat split; auto. lia.
    + intros (sp & r & E & Hsp & _ & H). destruct sp as [|s sp].
      * cbn in E. subst. cbn in H. destruct H as [-> ->]. reflexivity.
      * inversion Hsp as [|? ? Hs _]; subst. apply spelled_wire_inv in Hs. destruct Hs as (i & v & l & -> & _). discriminate E.
  - unfold max_varint in Hp. unfold usize_add at 1.
    rewrite (proj2 (N.ltb_lt (cursor + 1) usize_limit)) by (unfold usize_limit; lia).
    bok. rename H into Hid. rename H0 into Hb. cbn [length] in Hf.
    pose proof (same_gstep ft allowed id seen b) as SG.
    destruct (s_gstep ft allowed id seen b) as [[[s n]|e2| |] b2] eqn:G; cbn [forget] in SG.
    + pose proof SG as G'. symmetry in SG. apply gstep_inv in SG; [|assumption|assumption]. destruct SG as (v & l & -> & -> & Hw & Hc). bok.
      pose proof (counted_bound _ _ _ Hw) as [_ Hcb]. unfold usize_add.
      rewrite (proj2 (N.ltb_lt (cursor + 1 + n) usize_limit)) by (unfold usize_limit; lia).
      rewrite IH; [|assumption|rewrite app_length in Hf; lia]. split.
      * intros (sp & r & -> & Hsp & Ht & He). exists (((id, v), id :: l) :: sp), r.
        cbn [map concat snd app]. rewrite <- app_assoc. split; [reflexivity|]. split; [constructor; assumption|].
        split; [rewrite total_cons; lia|exact He].
      * intros (sp & r & E & Hsp & Ht & He). destruct sp as [|[[id2 v2] l2] sp].
        -- cbn [map concat app] in E. subst r. apply (gstep_left ft allowed id seen) in He; [congruence|bok].
        -- inversion Hsp as [|? ? Hs Hsp']; subst. pose proof (spelled_wire_inv _ _ _ Hs) as (i2 & v2' & l2' & E2 & _ & _).
           injection E2 as <- <- ->. cbn [map concat snd app] in E. injection E as -> E. rewrite <- app_assoc in E.
           destruct (gstep_app ft allowed id2 v2 l2' seen (concat (map snd sp) ++ r) Hs) as (n2 & G2 & C2).
           { assert (Z : bytes_ok (l ++ b2)) by bok. rewrite E in Z. bok. }
           rewrite <- E in G2. rewrite <- G' in G2. injection G2 as E1 <- ->. apply app_inj_tail in E1. destruct E1 as [_ E1]. injection E1 as ->.
           exists sp, r. split; [reflexivity|]. split; [exact Hsp'|]. split; [|exact He].
           change (cursor + (counted (id2, v2, id2 :: l2') + total sp) < plen) in Ht. rewrite <- C2 in Ht. lia.
    + pose proof (gstep_left ft allowed id seen b e left Hb) as X. rewrite G in X. split.
      * intros E. exists [], (id :: b). cbn [map concat app total]. repeat split; auto; [lia|]. apply X. injection E as -> ->. reflexivity.
      * intros (sp & r & E & Hsp & Ht & He). destruct sp as [|[[id2 v2] l2] sp].
        -- cbn [map concat app] in E. subst r. apply X in He. injection He as -> ->. reflexivity.
        -- exfalso. inversion Hsp as [|? ? Hs Hsp']; subst. pose proof (spelled_wire_inv _ _ _ Hs) as (i2 & v2' & l2' & E2 & _ & _).
           injection E2 as <- <- ->. cbn [map concat snd app] in E. injection E as -> E. rewrite <- app_assoc in E.
           destruct (gstep_app ft allowed id2 v2 l2' seen (concat (map snd sp) ++ r) Hs) as (n2 & G2 & C2).
           { rewrite E in Hb. bok. }
           rewrite <- E in G2. rewrite <- SG in G2. discriminate G2.
    + destruct (gstep_no_panic ft allowed id seen b Hb). congruence.
    + destruct (gstep_no_panic ft allowed id seen b Hb). congruence.
Qed.

Lemma same_gread ft allowed : same (s_gread ft allowed) (gread ft allowed).
Proof. apply same_read. intros p s. apply same_gstep. Qed.
Lemma section_sreader ft allowed : sreader (s_gread ft allowed) (section_wire ft allowed) (section_leaves ft allowed).
Proof.
  apply (sreader_intro _ _ _ _ _ (same_gread ft allowed) (section_reader ft allowed)). intros b Hb e left.
  unfold s_gread, s_props_read, section_leaves.
  apply (varint_left (fun _ v => if v =? 0 then wret None else fun b =>
    (do st <- s_props_loop (s_gstep ft allowed) (S (length b)) 0 v []; wret (Some st)) b)); [exact Hb|].
  intros declared l r _ Hw _ Hr. apply varint_wire_bound in Hw. destruct Hw as (Hm & _).
  destruct (N.eqb_spec declared 0) as [->|Hne].
  - unfold wret. split; [discriminate|]. intros (sp & r2 & _ & _ & H & _). lia.
  - assert (X : forall (m : W (list item)), wbind m (fun st => wret (Some st)) r = (Err e, left) <-> m r = (Err e, left)).
    { intros m. unfold wbind, wret. destruct (m r) as [[a|e'| |] r']; split; intros X; try discriminate X; congruence. }
    rewrite X. rewrite loop_left; [|unfold max_varint; lia|exact Hr|lia]. reflexivity.
Qed.

(** ---------- The property structures ---------- *)

Definition map_outcome {A B} (f : A -> B) (x : res A * bytes) : res B * bytes :=
  match x with
  | (Ok a, r) => (Ok (f a), r)
  | (Err e, r) => (Err e, r)
  | (Panic, r) => (Panic, r)
  | (Diverge, r) => (Diverge, r)
  end.
Definition s_simulates {S} (of : list item -> S) (step : N -> S -> W (S * N)) (g : N -> list item -> W (list item * N)) : Prop :=
  forall prop seen b, step prop (of seen) b = map_outcome (fun x => (of (fst x), snd x)) (g prop seen b).
Lemma s_loop_sim {S} of (step : N -> S -> W (S * N)) g : s_simulates of step g -> forall fuel cursor plen seen b,
  s_props_loop step fuel cursor plen (of seen) b = map_outcome of (s_props_loop g fuel cursor plen seen b).
Proof.
  intros Hsim. induction fuel as [|fuel IH]; intros cursor plen seen b; cbn [s_props_loop];
    destruct (cursor <? plen); try reflexivity.
  unfold wbind. destruct (s_read_u8 b) as [[prop|e| |] b1]; try reflexivity. unfold wlift.
  destruct (usize_add cursor 1) as [c1| | |]; try reflexivity.
  rewrite Hsim. destruct (g prop seen b1) as [[[s n]|e| |] b2]; try reflexivity. cbn [map_outcome fst snd].
  destruct (usize_add c1 n) as [c2| | |]; try reflexivity. apply IH.
Qed.
Lemma s_read_sim {S} of (step : N -> S -> W (S * N)) g : s_simulates of step g -> forall b,
  s_props_read step (of []) b = map_outcome (option_map of) (s_props_read g [] b).
Proof.
  intros Hsim b. unfold s_props_read, wbind. destruct (s_length b) as [[[n v]|e| |] b0]; try reflexivity.
  destruct (s_advance n b0) as [[[]|e| |] b1]; try reflexivity.
  destruct (v =? 0); [reflexivity|]. rewrite (s_loop_sim of step g Hsim).
  destruct (s_props_loop g _ _ _ _ _) as [[s|e| |] b2]; reflexivity.
Qed.
Ltac s_case of :=
  cbn [property property_kind];
  cbv [mem existsb connect_allowed will_allowed connack_allowed publish_allowed ack_allowed
       subscribe_allowed unsubscribe_allowed disconnect_allowed N.eqb Pos.eqb orb];
  unfold wbind, wlift, wfail, wret; cbn [s_read_value]; unfold wbind, wret;
  repeat match goal with
  | |- context [match ?m ?b with (_, _) => _ end] =>
      lazymatch m with
      | s_read_u8 => destruct (m b) as [[?|?| |] ?] | s_read_u16 => destruct (m b) as [[?|?| |] ?]
      | s_read_u32 => destruct (m b) as [[?|?| |] ?] | s_length => destruct (m b) as [[[? ?]|?| |] ?]
      | s_advance _ => destruct (m b) as [[?|?| |] ?] | s_read_mqtt_bytes => destruct (m b) as [[?|?| |] ?]
      | s_read_mqtt_string _ => destruct (m b) as [[?|?| |] ?]
      end; cbn [map_outcome fst snd]; try reflexivity
  end;
  cbn [map_outcome fst snd]; try reflexivity;
  snoc_tac of.
Ltac s_sim_tac step of :=
  intros prop seen b;
  let E1 := fresh "E1" in let E2 := fresh "E2" in let Hin := fresh "Hin" in
  destruct (prop_cases prop) as [[E1 E2]|Hin];
  [unfold step, s_gstep; rewrite E2; unfold wbind, wlift; rewrite E1; reflexivity|];
  cbn [In] in Hin;
  repeat (destruct Hin as [<-|Hin]; [unfold step, s_gstep; unfold of at 1; s_case of|]);
  destruct Hin.
Lemma s_ConnectProperties_sim ft : s_simulates ConnectProperties_of (s_ConnectProperties_step ft) (s_gstep ft connect_allowed).
Proof. s_sim_tac s_ConnectProperties_step ConnectProperties_of. Qed.
Lemma s_LastWillProperties_sim ft : s_simulates LastWillProperties_of (s_LastWillProperties_step ft) (s_gstep ft will_allowed).
Proof. s_sim_tac s_LastWillProperties_step LastWillProperties_of. Qed.
Lemma s_ConnAckProperties_sim ft : s_simulates ConnAckProperties_of (s_ConnAckProperties_step ft) (s_gstep ft connack_allowed).
Proof. s_sim_tac s_ConnAckProperties_step ConnAckProperties_of. Qed.
Lemma s_PublishProperties_sim ft : s_simulates PublishProperties_of (s_PublishProperties_step ft) (s_gstep ft publish_allowed).
Proof. s_sim_tac s_PublishProperties_step PublishProperties_of. Qed.
Lemma s_PubAckProperties_sim ft : s_simulates PubAckProperties_of (s_PubAckProperties_step ft) (s_gstep ft ack_allowed).
Proof. s_sim_tac s_PubAckProperties_step PubAckProperties_of. Qed.
Lemma s_PubRecProperties_sim ft : s_simulates PubRecProperties_of (s_PubRecProperties_step ft) (s_gstep ft ack_allowed).
Proof. s_sim_tac s_PubRecProperties_step PubRecProperties_of. Qed.
Lemma s_PubRelProperties_sim ft : s_simulates PubRelProperties_of (s_PubRelProperties_step ft) (s_gstep ft ack_allowed).
Proof. s_sim_tac s_PubRelProperties_step PubRelProperties_of. Qed.
Lemma s_PubCompProperties_sim ft : s_simulates PubCompProperties_of (s_PubCompProperties_step ft) (s_gstep ft ack_allowed).
Proof. s_sim_tac s_PubCompProperties_step PubCompProperties_of. Qed.
Lemma s_SubAckProperties_sim ft : s_simulates SubAckProperties_of (s_SubAckProperties_step ft) (s_gstep ft ack_allowed).
Proof. s_sim_tac s_SubAckProperties_step SubAckProperties_of. Qed.
Lemma s_UnsubAckProperties_sim ft : s_simulates UnsubAckProperties_of (s_UnsubAckProperties_step ft) (s_gstep ft ack_allowed).
Proof. s_sim_tac s_UnsubAckProperties_step UnsubAckProperties_of. Qed.
Lemma s_SubscribeProperties_sim ft : s_simulates SubscribeProperties_of (s_SubscribeProperties_step ft) (s_gstep ft subscribe_allowed).
Proof. s_sim_tac s_SubscribeProperties_step SubscribeProperties_of. Qed.
Lemma s_UnsubscribeProperties_sim ft : s_simulates UnsubscribeProperties_of (s_UnsubscribeProperties_step ft) (s_gstep ft unsubscribe_allowed).
Proof. s_sim_tac s_UnsubscribeProperties_step UnsubscribeProperties_of. Qed.
Lemma s_DisconnectProperties_sim ft : s_simulates DisconnectProperties_of (s_DisconnectProperties_step ft) (s_gstep ft disconnect_allowed).
Proof. s_sim_tac s_DisconnectProperties_step DisconnectProperties_of. Qed.

(** A section reader of a property structure: what it returns and what it leaves. *)
Definition s_section {A} (ft : feature) (m : W (option A)) (rd : bytes -> res (option A * bytes)) (allowed : list N) : Prop :=
  same m rd /\ (forall b, bytes_ok b -> forall e left, m b = (Err e, left) <-> section_leaves ft allowed b e left).
Lemma s_section_intro {A} ft (m : W (option A)) rd allowed (of : list item -> A) (step : N -> A -> W (A * N)) :
  (forall b, m b = s_props_read step (of []) b) -> s_simulates of step (s_gstep ft allowed) ->
  reads_section ft rd allowed of -> s_section ft m rd allowed.
Proof.
  intros Hm Hsim Hrd. split.
  - intros b. rewrite Hm, (s_read_sim of step _ Hsim), (Hrd b). rewrite <- (same_gread ft allowed b). unfold s_gread.
    destruct (s_props_read (s_gstep ft allowed) [] b) as [[a|e| |] r]; reflexivity.
  - intros b Hb e left. rewrite Hm, (s_read_sim of step _ Hsim). destruct (section_sreader ft allowed b Hb) as [_ H].
    rewrite <- H. unfold s_gread. destruct (s_props_read (s_gstep ft allowed) [] b) as [[a|e2| |] r]; cbn [map_outcome];
      split; intros X; try discriminate X; injection X as -> ->; reflexivity.
Qed.
Lemma s_ConnectProperties_section ft : s_section ft (s_ConnectProperties_read ft) (ConnectProperties_read ft) connect_allowed.
Proof. apply (s_section_intro ft _ _ _ _ _ (fun _ => eq_refl) (s_ConnectProperties_sim ft) (ConnectProperties_read_section ft)). Qed.
Lemma s_LastWillProperties_section ft : s_section ft (s_LastWillProperties_read ft) (LastWillProperties_read ft) will_allowed.
Proof. apply (s_section_intro ft _ _ _ _ _ (fun _ => eq_refl) (s_LastWillProperties_sim ft) (LastWillProperties_read_section ft)). Qed.
Lemma s_ConnAckProperties_section ft : s_section ft (s_ConnAckProperties_read ft) (ConnAckProperties_read ft) connack_allowed.
Proof. apply (s_section_intro ft _ _ _ _ _ (fun _ => eq_refl) (s_ConnAckProperties_sim ft) (ConnAckProperties_read_section ft)). Qed.
Lemma s_PublishProperties_section ft : s_section ft (s_PublishProperties_read ft) (PublishProperties_read ft) publish_allowed.
Proof. apply (s_section_intro ft _ _ _ _ _ (fun _ => eq_refl) (s_PublishProperties_sim ft) (PublishProperties_read_section ft)). Qed.
Lemma s_PubAckProperties_section ft : s_section ft (s_PubAckProperties_read ft) (PubAckProperties_read ft) ack_allowed.
Proof. apply (s_section_intro ft _ _ _ _ _ (fun _ => eq_refl) (s_PubAckProperties_sim ft) (PubAckProperties_read_section ft)). Qed.
Lemma s_PubRecProperties_section ft : s_section ft (s_PubRecProperties_read ft) (PubRecProperties_read ft) ack_allowed.
Proof. apply (s_section_intro ft _ _ _ _ _ (fun _ => eq_refl) (s_PubRecProperties_sim ft) (PubRecProperties_read_section ft)). Qed.
Lemma s_PubRelProperties_section ft : s_section ft (s_PubRelProperties_read ft) (PubRelProperties_read ft) ack_allowed.
Proof. apply (s_section_intro ft _ _ _ _ _ (fun _ => eq_refl) (s_PubRelProperties_sim ft) (PubRelProperties_read_section ft)). Qed.
Lemma s_PubCompProperties_section ft : s_section ft (s_PubCompProperties_read ft) (PubCompProperties_read ft) ack_allowed.
Proof. apply (s_section_intro ft _ _ _ _ _ (fun _ => eq_refl) (s_PubCompProperties_sim ft) (PubCompProperties_read_section ft)). Qed.
Lemma s_SubAckProperties_section ft : s_section ft (s_SubAckProperties_read ft) (SubAckProperties_read ft) ack_allowed.
Proof. apply (s_section_intro ft _ _ _ _ _ (fun _ => eq_refl) (s_SubAckProperties_sim ft) (SubAckProperties_read_section ft)). Qed.
Lemma s_UnsubAckProperties_section ft : s_section ft (s_UnsubAckProperties_read ft) (UnsubAckProperties_read ft) ack_allowed.
Proof. apply (s_section_intro ft _ _ _ _ _ (fun _ => eq_refl) (s_UnsubAckProperties_sim ft) (UnsubAckProperties_read_section ft)). Qed.
Lemma s_SubscribeProperties_section ft : s_section ft (s_SubscribeProperties_read ft) (SubscribeProperties_read ft) subscribe_allowed.
Proof. apply (s_section_intro ft _ _ _ _ _ (fun _ => eq_refl) (s_SubscribeProperties_sim ft) (SubscribeProperties_read_section ft)). Qed.
Lemma s_UnsubscribeProperties_section ft : s_section ft (s_UnsubscribeProperties_read ft) (UnsubscribeProperties_read ft) unsubscribe_allowed.
Proof. apply (s_section_intro ft _ _ _ _ _ (fun _ => eq_refl) (s_UnsubscribeProperties_sim ft) (UnsubscribeProperties_read_section ft)). Qed.
Lemma s_DisconnectProperties_section ft : s_section ft (s_DisconnectProperties_extract ft) (DisconnectProperties_extract ft) disconnect_allowed.
Proof. apply (s_section_intro ft _ _ _ _ _ (fun _ => eq_refl) (s_DisconnectProperties_sim ft) (DisconnectProperties_extract_section ft)). Qed.

(** ---------- Will, login, filters ---------- *)

Lemma section_after {A B} ft (m : W (option A)) rd allowed of (k : option A -> W B) (next : leaves) b e left :
  s_section ft m rd allowed -> reads_section ft rd allowed of -> bytes_ok b ->
  (forall o r, bytes_ok r -> (k o r = (Err e, left) <-> next r e left)) ->
  wbind m k b = (Err e, left) <-> after (section_wire ft allowed) (section_leaves ft allowed) (fun _ => next) b e left.
Proof.
  intros [Hs Hl] Hrd Hb Hk.
  assert (SR : sreader m (props_wire ft allowed of) (section_leaves ft allowed)).
  { intros c Hc. split; [|apply Hl; exact Hc]. intros a r. rewrite (forget_ok m rd) by exact Hs. split.
    - apply section_read_inv; assumption.
    - intros (l & -> & H). bok. apply (section_read_app ft rd allowed of); assumption. }
  etransitivity.
  { apply (after_left m _ _ k (fun _ => next) b e left SR Hb). intros a l r _ _ _ Hr. apply Hk. exact Hr. }
  unfold after. apply or_iff_compat_l. split.
  - intros (a & l & r & E & (items & H & _) & X). exists items, l, r. auto.
  - intros (items & l & r & E & H & X). exists (option_map of items), l, r. repeat split; auto. exists items. auto.
Qed.

Lemma same_will ft flags : same (s_LastWill_read ft flags) (LastWill_read ft flags).
Proof.
  unfold s_LastWill_read, LastWill_read. destruct (N.land flags 4 =? 0).
  - destruct (negb (N.land flags 56 =? 0)); [apply same_fail|apply same_ret].
  - refine (same_ext _ _ _ (same_bind _ _ _ _ (proj1 (s_LastWillProperties_section ft)) (fun o =>
      same_bind _ _ _ _ same_bytes (fun t => same_bind _ _ _ (fun m b => match qos (N.shiftr (N.land flags 24) 3) with
        | None => Err (InvalidQoS (N.shiftr (N.land flags 24) 3))
        | Some q => Ok (Some (mkLastWill t m q (negb (N.land flags 32 =? 0)) o), b) end) same_bytes (fun m => _)))) _).
    + intros b. destruct (qos _); reflexivity.
    + intros b. reflexivity.
Qed.
Lemma will_left ft flags b e left : flags < 256 -> bytes_ok b ->
  s_LastWill_read ft flags b = (Err e, left) <-> will_leaves ft flags b e left.
Proof.
  intros Hf Hb. unfold s_LastWill_read, will_leaves. rewrite bit_2, mask_56, mask_24, bit_5, negb_involutive by exact Hf.
  destruct (N.testbit flags 2); cbn [negb].
  - apply (section_after ft _ _ _ _ _ _ _ _ _ (s_LastWillProperties_section ft) (LastWillProperties_read_section ft) Hb). intros o r Hr.
    apply (after_left _ _ _ _ _ _ _ _ bin_sreader Hr). intros t l2 r2 _ _ _ Hr2.
    apply (after_left _ _ _ _ _ _ _ _ bin_sreader Hr2). intros m l3 r3 _ _ _ Hr3. unfold checked, never.
    destruct (qos_cases ((flags / 8) mod 4)) as [(q & -> & Hq & _)|[-> Hq]]; [lia| |].
    + split; [discriminate|]. intros [[? _]|[_ []]]; contradiction.
    + rewrite Hq. unfold wfail. split; [intros E; injection E as <- <-; left; split; [lia|auto]|]. intros [(_ & -> & ->)|[_ []]]. reflexivity.
  - apply (checked_left _ _ _ (wret None)); [apply N.eqb_eq|]. intros _. unfold never, wret. split; [discriminate|intros []].
Qed.

Lemma same_opt ft c : same (if negb c then wret [] else s_read_mqtt_string ft) (fun b => if negb c then Ok ([], b) else read_mqtt_string ft b).
Proof. destruct c; [apply same_string|apply same_ret]. Qed.
Lemma same_login ft flags : same (s_Login_read ft flags) (Login_read ft flags).
Proof.
  unfold s_Login_read, Login_read. rewrite bit_7, bit_6. intros b. unfold wbind.
  rewrite <- (same_opt ft (N.testbit flags 7) b).
  set (m7 := if negb (N.testbit flags 7) then wret [] else s_read_mqtt_string ft). destruct (m7 b) as [[u|e| |] r]; try reflexivity.
  cbn [forget rbind]. rewrite <- (same_opt ft (N.testbit flags 6) r).
  set (m6 := if negb (N.testbit flags 6) then wret [] else s_read_mqtt_string ft). destruct (m6 r) as [[p|e| |] r2]; try reflexivity.
  cbn [forget rbind]. destruct (is_empty u && is_empty p); reflexivity.
Qed.
Lemma opt_sreader ft c : sreader (if negb c then wret [] else s_read_mqtt_string ft) (optional_str_wire ft c) (optional_str_leaves ft c).
Proof.
  apply (sreader_intro _ _ _ _ _ (same_opt ft c) (opt_str_reader ft c)). intros b Hb e left. unfold optional_str_leaves.
  destruct c; cbn [negb]; [apply (str_sreader ft b Hb)|]. unfold wret, never. split; [discriminate|intros []].
Qed.
Lemma login_left ft flags b e left : bytes_ok b -> s_Login_read ft flags b = (Err e, left) <-> login_leaves ft flags b e left.
Proof.
  intros Hb. unfold s_Login_read, login_leaves. rewrite bit_7, bit_6.
  apply (after_left _ _ _ _ _ _ _ _ (opt_sreader ft (N.testbit flags 7)) Hb). intros u l r _ _ _ Hr.
  etransitivity; [|apply (last_left _ _ _ (fun p => if is_empty u && is_empty p then None else Some (mkLogin u p)) _ _ _
    (opt_sreader ft (N.testbit flags 6)) Hr)].
  set (m6 := if negb (N.testbit flags 6) then wret [] else s_read_mqtt_string ft). unfold wbind, wret.
  destruct (m6 r) as [[p|e2| |] r2]; [|split; intros X; try discriminate X; injection X as -> ->; reflexivity|split; discriminate..].
  destruct (is_empty u && is_empty p); split; discriminate.
Qed.

(** One filter. *)
Definition s_read_filter (ft : feature) : W Filter :=
  do path <- s_read_mqtt_string ft;
  do options <- s_read_u8;
  do retain_forward_rule <-
    (match N.land (N.shiftr options 4) 3 with
     | 0 => wret OnEverySubscribe
     | 1 => wret OnNewSubscribe
     | 2 => wret Never
     | _ => wfail (InvalidRetainForwardRule (N.land (N.shiftr options 4) 3))
     end);
  match qos (N.land options 3) with
  | None => wfail (InvalidQoS (N.land options 3))
  | Some q => wret (mkFilter path q (negb (N.land (N.shiftr options 2) 1 =? 0)) (negb (N.land (N.shiftr options 3) 1 =? 0)) retain_forward_rule)
  end.
Lemma s_filters_cons ft fuel fs b : b <> [] ->
  s_Filter_read_loop ft (S fuel) fs b = (do f <- s_read_filter ft; s_Filter_read_loop ft fuel (fs ++ [f])) b.
Proof.
  intros Hne. destruct b as [|x b]; [contradiction|]. cbn [s_Filter_read_loop]. unfold s_read_filter, wbind.
  destruct (s_read_mqtt_string ft (x :: b)) as [[p|e| |] r]; try reflexivity.
  destruct (s_read_u8 r) as [[o|e| |] r2]; try reflexivity.
  match goal with |- match ?m r2 with _ => _ end = _ => destruct (m r2) as [[y|e| |] r3] end; try reflexivity.
  destruct (qos _); reflexivity.
Qed.
Lemma same_filter ft : same (s_read_filter ft) (read_filter ft).
Proof.
  intros b. unfold s_read_filter, read_filter, wbind. rewrite <- (same_string ft b).
  destruct (s_read_mqtt_string ft b) as [[p|e| |] r]; try reflexivity. cbn [forget rbind]. unfold s_read_u8, take.
  destruct (read_u8 r) as [[o r2]|e| |]; try reflexivity. cbn [rbind].
  set (z := N.land (N.shiftr o 4) 3).
  destruct (qos (N.land o 3)).
  - destruct z as [|[[?|?|]|[?|?|]|]]; reflexivity.
  - destruct z as [|[[?|?|]|[?|?|]|]]; reflexivity.
Qed.
Lemma filter_sreader ft : sreader (s_read_filter ft) (filter_wire ft) (filter_leaves ft).
Proof.
  apply (sreader_intro _ _ _ _ _ (same_filter ft) (filter_reader ft)). intros b Hb e left. unfold s_read_filter, filter_leaves.
  apply (after_left _ _ _ _ _ _ _ _ (str_sreader ft) Hb). intros p l r _ _ _ Hr.
  apply (after_left _ _ _ _ _ _ _ _ (take_left _ _ _ u8_reader) Hr). intros o l2 r2 _ Hw Hl2 Hr2.
  assert (Ho : o < 256) by (rewrite Hw in Hl2; bok). rewrite mask_rule, mask_3 by exact Ho.
  unfold checked, never, wbind, wfail, wret.
  assert (Q : (match qos (o mod 4) with None => (Err (InvalidQoS (o mod 4)), r2)
     | Some q => (Ok q, r2) end) = (Err e, left) <-> (~ o mod 4 <> 3 /\ e = InvalidQoS 3 /\ left = r2) \/ (o mod 4 <> 3 /\ False)).
  { destruct (qos_cases (o mod 4)) as [(q & -> & Hq & _)|[-> Hq]]; [lia| |].
    - split; [discriminate|]. intros [[? _]|[_ []]]; contradiction.
    - rewrite Hq. split; [intros E; injection E as <- <-; left; split; [lia|auto]|]. intros [(_ & -> & ->)|[_ []]]. reflexivity. }
  assert (Z : (o / 16) mod 4 = 0 \/ (o / 16) mod 4 = 1 \/ (o / 16) mod 4 = 2 \/ (o / 16) mod 4 = 3) by lia.
  destruct Z as [Z|[Z|[Z|Z]]]; rewrite Z.
  4:{ split; [intros E; injection E as <- <-; left; split; [lia|auto]|]. intros [(_ & -> & ->)|[? _]]; [reflexivity|contradiction]. }
  all: match goal with |- ?L <-> ?R => assert (X : L <-> ((match qos (o mod 4) with None => (Err (InvalidQoS (o mod 4)), r2)
     | Some q => (Ok q, r2) end) = (Err e, left))) end;
    [destruct (qos (o mod 4)); split; intros E; try discriminate E; injection E as -> ->; reflexivity|];
    rewrite X, Q; split; [intros H; right; split; [discriminate|exact H]|intros [[H _]|[_ H]]; [exfalso; apply H; discriminate|exact H]].
Qed.
Lemma same_filters ft : forall fuel fs b, forget (s_Filter_read_loop ft fuel fs b) = (let? fs := Filter_read_loop ft fuel fs b in Ok (fs, [])).
Proof.
  induction fuel as [|fuel IH]; intros fs b.
  - destruct b; reflexivity.
  - destruct b as [|x b]; [reflexivity|]. rewrite s_filters_cons by discriminate. unfold wbind.
    assert (X : Filter_read_loop ft (S fuel) fs (x :: b) = let? (f, b) := read_filter ft (x :: b) in Filter_read_loop ft fuel (fs ++ [f]) b).
    { cbn [Filter_read_loop]. unfold read_filter. destruct (read_mqtt_string ft (x :: b)) as [[p r]|e| |]; try reflexivity. cbn [rbind].
      destruct (read_u8 r) as [[o r2]|e| |]; try reflexivity. cbn [rbind].
      set (z := N.land (N.shiftr o 4) 3). match goal with |- rbind ?m _ = _ => destruct m as [y|e| |] end; try reflexivity. cbn [rbind].
      destruct (qos (N.land o 3)); reflexivity. }
    rewrite X, <- (same_filter ft (x :: b)). destruct (s_read_filter ft (x :: b)) as [[f|e| |] r]; try reflexivity. cbn [forget rbind]. apply IH.
Qed.
Lemma filters_left ft e left : forall fuel fs b, (length b < fuel)%nat -> bytes_ok b ->
  s_Filter_read_loop ft fuel fs b = (Err e, left) <-> filters_leaves ft b e left.
Proof.
  induction fuel as [|fuel IH]; intros fs b Hf Hb; [lia|].
  assert (D : b = [] \/ b <> []) by (destruct b; [left; reflexivity|right; discriminate]). destruct D as [->|Hne].
  - cbn [s_Filter_read_loop]. split; [discriminate|]. intros (ys & l & r & E & _ & Hr & _). symmetry in E. apply app_eq_nil in E. tauto.
  - rewrite s_filters_cons by exact Hne. destruct (filter_sreader ft b Hb) as [H1 H2]. unfold wbind. split.
    + intros X. destruct (s_read_filter ft b) as [[f|e'| |] r] eqn:E; try discriminate X.
      * destruct (proj1 (H1 f r) eq_refl) as (l & -> & HR). pose proof (filter_wire_nonempty _ _ _ HR) as Hl. bok.
        apply IH in X; [| |assumption].
        -- destruct X as (ys & l2 & r2 & -> & Hy & X). exists (f :: ys), (l ++ l2), r2. split; [apply app_assoc|].
           split; [constructor; assumption|exact X].
        -- clear - Hf Hl. unfold bytes in *. rewrite app_length in Hf. destruct l; [contradiction|]. cbn [length] in Hf. lia.
      * exists [], [], b. repeat split; auto; [constructor|]. apply H2. injection X as -> ->. reflexivity.
    + intros (ys & l & r & E & Hy & Hr & H). destruct Hy as [|x ys l1 l2 Hx Hy].
      * cbn [app] in E. subst. apply H2 in H. rewrite H. reflexivity.
      * rewrite <- app_assoc in E. rewrite (proj2 (H1 x (l2 ++ r))) by (exists l1; auto).
        pose proof (filter_wire_nonempty _ _ _ Hx) as Hl. subst b. bok. apply IH; [|bok|exists ys, l2, r; auto].
        clear - Hf Hl. unfold bytes in *. rewrite app_length in Hf. destruct l1; [contradiction|]. cbn [length] in Hf. lia.
Qed.
