(** Primitive readers and the generic property reader. *)
From Verif Require Import Types MLib Spec Wire PBase PVarint PUtf8.
Ltac Zify.zify_post_hook ::= Z.div_mod_to_equations.

(** ---------- Primitive readers ---------- *)

Lemma read_u8_inv b n r : read_u8 b = Ok (n, r) -> b = n :: r.
Proof. destruct b; cbn; intros H; [discriminate|]. injection H as -> ->. reflexivity. Qed.
Lemma read_u8_cons n r : read_u8 (n :: r) = Ok (n, r).
Proof. reflexivity. Qed.

Lemma read_u16_inv b n r : bytes_ok b -> read_u16 b = Ok (n, r) -> exists l, b = l ++ r /\ u16_wire n l.
Proof.
  unfold read_u16, get_u16. intros Hb.
  destruct b as [|x [|y b]]; cbn [blen length].
  - discriminate.
  - discriminate.
  - rewrite !blen_cons. destruct (N.ltb_spec (1 + (1 + blen b)) 2); [discriminate|].
    intros E. injection E as <- <-. bok.
    exists [x; y]. split; [reflexivity|].
    destruct (u16_of_bytes x y) as [E1 E2]; [lia|lia|]. split; [exact E2|rewrite E1; reflexivity].
Qed.
Lemma read_u16_app n l r : u16_wire n l -> read_u16 (l ++ r) = Ok (n, r).
Proof.
  intros [Hn ->]. unfold u16be, read_u16, get_u16. cbn [app]. rewrite !blen_cons.
  destruct (N.ltb_spec (1 + (1 + blen r)) 2); [lia|]. rewrite u16_value by exact Hn. reflexivity.
Qed.
Lemma read_u32_inv b n r : bytes_ok b -> read_u32 b = Ok (n, r) ->
  exists l, b = l ++ r /\ n < 4294967296 /\ l = u32be n.
Proof.
  unfold read_u32, get_u32. intros Hb.
  destruct b as [|x [|y [|z [|w b]]]]; try discriminate.
  rewrite !blen_cons. destruct (N.ltb_spec (1 + (1 + (1 + (1 + blen b)))) 4); [discriminate|].
  intros E. injection E as <- <-. bok.
  exists [x; y; z; w]. split; [reflexivity|].
  destruct (u32_of_bytes x y z w) as [E1 E2]; auto.
Qed.
Lemma read_u32_app n r : n < 4294967296 -> read_u32 (u32be n ++ r) = Ok (n, r).
Proof.
  intros Hn. unfold u32be, read_u32, get_u32. cbn [app]. rewrite !blen_cons.
  destruct (N.ltb_spec (1 + (1 + (1 + (1 + blen r)))) 4); [lia|]. rewrite u32_value by exact Hn.
  reflexivity.
Qed.

Lemma split_to_inv b n s r : split_to b n = Ok (s, r) -> b = s ++ r /\ blen s = n.
Proof.
  unfold split_to. destruct (N.leb_spec n (blen b)); [|discriminate].
  intros E. injection E as <- <-. split; [symmetry; apply firstn_skipn|].
  unfold blen in *. rewrite firstn_length. lia.
Qed.

Lemma read_mqtt_bytes_inv b s r : bytes_ok b -> read_mqtt_bytes b = Ok (s, r) ->
  exists l, b = l ++ r /\ bin_wire s l.
Proof.
  intros Hb H. unfold read_mqtt_bytes in H. inv_ok H.
  destruct (read_u16_inv _ _ _ Hb H0) as (l & -> & Hl).
  destruct (N.ltb_spec (blen b0) n); [discriminate|].
  apply split_to_inv in H1. destruct H1 as [-> <-].
  exists (l ++ s). split; [rewrite app_assoc; reflexivity|].
  bok. destruct Hl as [Hlt ->]. split; [assumption|]. split; [exact Hlt|reflexivity].
Qed.
Lemma read_mqtt_bytes_app s l r : bin_wire s l -> read_mqtt_bytes (l ++ r) = Ok (s, r).
Proof.
  intros (Hs & Hlt & ->). unfold read_mqtt_bytes. rewrite <- app_assoc.
  rewrite (read_u16_app (blen s)) by (split; auto). cbn [rbind].
  rewrite blen_app. destruct (N.ltb_spec (blen s + blen r) (blen s)); [lia|]. apply split_to_app.
Qed.

Lemma read_mqtt_string_inv ft b s r : bytes_ok b -> read_mqtt_string ft b = Ok (s, r) ->
  exists l, b = l ++ r /\ str_wire ft s l.
Proof.
  intros Hb H.
  assert (A : read_mqtt_bytes b = Ok (s, r) /\ match ft with F_binary => True | _ => utf8 s end).
  { unfold read_mqtt_string in H.
    destruct ft; try (inv_ok H; destruct (from_utf8 b0) eqn:E; [|discriminate]; ginv H1;
      split; [exact H0|apply from_utf8_iff; exact E]).
    split; [exact H|exact I]. }
  destruct A as [A1 A2]. destruct (read_mqtt_bytes_inv _ _ _ Hb A1) as (l & -> & Hl).
  exists l. split; [reflexivity|]. split; [|exact Hl]. split; [apply Hl|exact A2].
Qed.
Lemma read_mqtt_string_app ft s l r : str_wire ft s l -> read_mqtt_string ft (l ++ r) = Ok (s, r).
Proof.
  intros [[Hok Ht] Hl]. unfold read_mqtt_string. rewrite (read_mqtt_bytes_app s) by exact Hl.
  cbn [rbind]. destruct ft; try reflexivity; rewrite (proj2 (from_utf8_iff s)) by exact Ht; reflexivity.
Qed.

Lemma advance_inv b n r : advance b n = Ok r -> exists l, b = l ++ r /\ blen l = n.
Proof.
  unfold advance. destruct (N.leb_spec n (blen b)); [|discriminate]. intros E. injection E as <-.
  exists (firstn (N.to_nat n) b). split; [symmetry; apply firstn_skipn|].
  unfold blen in *. rewrite firstn_length. lia.
Qed.

(** ---------- Generic property reader ---------- *)

Definition read_value (ft : feature) (k : kind) (b : bytes) : res (pvalue * N * bytes) :=
  match k with
  | KByte => let? (v, b) := read_u8 b in Ok (VByte v, 1, b)
  | KTwo => let? (v, b) := read_u16 b in Ok (VTwo v, 2, b)
  | KFour => let? (v, b) := read_u32 b in Ok (VFour v, 4, b)
  | KVar => let? (n, v) := length_ b in let? b := advance b n in Ok (VVar v, 1 + n, b)
  | KStr => let? (v, b) := read_mqtt_string ft b in Ok (VStr v, 2 + blen v, b)
  | KBin => let? (v, b) := read_mqtt_bytes b in Ok (VBin v, 2 + blen v, b)
  | KPair =>
      let? (k, b) := read_mqtt_string ft b in
      let? (v, b) := read_mqtt_string ft b in
      Ok (VPair k v, 2 + blen k + 2 + blen v, b)
  end.

Definition mem (id : N) (l : list N) : bool := existsb (N.eqb id) l.
Lemma mem_in id l : mem id l = true <-> In id l.
Proof.
  unfold mem. rewrite existsb_exists. split.
  - intros (x & Hx & E). apply N.eqb_eq in E. subst. exact Hx.
  - intros H. exists id. split; [exact H|apply N.eqb_refl].
Qed.

Definition gstep (ft : feature) (allowed : list N) (prop : N) (seen : list item) (b : bytes)
  : res (list item * N * bytes) :=
  match property_kind prop with
  | Some k =>
      if mem prop allowed
      then let? (v, n, b) := read_value ft k b in Ok (seen ++ [(prop, v)], n, b)
      else Err (InvalidPropertyType prop)
  | None => Err (InvalidPropertyType prop)
  end.
Definition gread (ft : feature) (allowed : list N) (b : bytes) : res (option (list item) * bytes) :=
  props_read (gstep ft allowed) [] b.

(** A reader over another state that simulates [gstep]. *)
Definition simulates {S} (of : list item -> S) (step : N -> S -> bytes -> res (S * N * bytes))
    (g : N -> list item -> bytes -> res (list item * N * bytes)) : Prop :=
  forall prop seen b,
    step prop (of seen) b = let? (s, n, b) := g prop seen b in Ok (of s, n, b).

Lemma props_loop_sim {S} of (step : N -> S -> bytes -> res (S * N * bytes)) g :
  simulates of step g -> forall fuel cursor plen seen b,
  props_loop step fuel cursor plen (of seen) b
  = let? (s, b) := props_loop g fuel cursor plen seen b in Ok (of s, b).
Proof.
  intros Hsim. induction fuel as [|fuel IH]; intros cursor plen seen b; cbn [props_loop].
  - destruct (cursor <? plen); reflexivity.
  - destruct (cursor <? plen); [|reflexivity].
    destruct (read_u8 b) as [[prop b1]| | |]; try reflexivity. cbn [rbind].
    destruct (usize_add cursor 1) as [c1| | |]; try reflexivity. cbn [rbind].
    rewrite Hsim. destruct (g prop seen b1) as [[[s n] b2]| | |]; try reflexivity. cbn [rbind].
    destruct (usize_add c1 n) as [c2| | |]; try reflexivity. cbn [rbind]. apply IH.
Qed.
Lemma props_read_sim {S} of (step : N -> S -> bytes -> res (S * N * bytes)) g :
  simulates of step g -> forall b,
  props_read step (of []) b
  = let? (o, b) := props_read g [] b in Ok (option_map of o, b).
Proof.
  intros Hsim b. unfold props_read.
  destruct (length_ b) as [[n v]| | |]; try reflexivity. cbn [rbind].
  destruct (advance b n) as [b1| | |]; try reflexivity. cbn [rbind].
  destruct (v =? 0); [reflexivity|].
  rewrite (props_loop_sim of step g Hsim).
  destruct (props_loop g _ _ _ _ _) as [[s b2]| | |]; reflexivity.
Qed.

(** ---------- Values ---------- *)

Lemma read_value_inv ft k b v n r : bytes_ok b -> read_value ft k b = Ok (v, n, r) ->
  exists l, b = l ++ r /\ value_wire ft v l /\ value_kind v = k
    /\ n = blen l + match v with VVar _ => 1 | _ => 0 end.
Proof.
  intros Hb H. destruct k; cbn [read_value] in H.
  - inv_ok H. ginv H1. apply read_u8_inv in H0. subst. bok. exists [n0]. repeat split; auto.
  - inv_ok H. ginv H1. apply read_u16_inv in H0; [|exact Hb]. destruct H0 as (l & -> & Hl).
    exists l. repeat split; try apply Hl. destruct Hl as [_ ->]. reflexivity.
  - inv_ok H. ginv H1. apply read_u32_inv in H0; [|exact Hb]. destruct H0 as (l & -> & Hl & ->).
    exists (u32be n0). repeat split; auto.
  - inv_ok H. inv_ok H1. ginv H2. apply length_inv in H0; [|exact Hb].
    destruct H0 as (l & rest & -> & -> & Hw). rewrite advance_app in H. injection H as <-.
    exists l. repeat split; try apply Hw. lia.
  - inv_ok H. ginv H1. apply read_mqtt_string_inv in H0; [|exact Hb]. destruct H0 as (l & -> & Hl).
    exists l. repeat split; try apply Hl. destruct Hl as [_ (_ & _ & ->)]. rewrite blen_app.
    change (blen (u16be (blen b0))) with 2. lia.
  - inv_ok H. ginv H1. apply read_mqtt_bytes_inv in H0; [|exact Hb]. destruct H0 as (l & -> & Hl).
    exists l. repeat split; try apply Hl. destruct Hl as (_ & _ & ->). rewrite blen_app.
    change (blen (u16be (blen b0))) with 2. lia.
  - inv_ok H. inv_ok H1. ginv H2. apply read_mqtt_string_inv in H0; [|exact Hb].
    destruct H0 as (l1 & -> & Hl1). bok. apply read_mqtt_string_inv in H; [|assumption].
    destruct H as (l2 & -> & Hl2).
    exists (l1 ++ l2). repeat split.
    + apply app_assoc.
    + exists l1, l2. auto.
    + destruct Hl1 as [_ (_ & _ & ->)]. destruct Hl2 as [_ (_ & _ & ->)]. rewrite !blen_app.
      change (blen (u16be (blen b0))) with 2. change (blen (u16be (blen b2))) with 2. lia.
Qed.

Lemma read_value_app ft v l r : value_wire ft v l -> bytes_ok r ->
  read_value ft (value_kind v) (l ++ r)
  = Ok (v, blen l + match v with VVar _ => 1 | _ => 0 end, r).
Proof.
  intros H Hr. destruct v; cbn [value_kind read_value value_wire] in *.
  - destruct H as [_ ->]. reflexivity.
  - rewrite (read_u16_app n) by exact H. destruct H as [_ ->]. reflexivity.
  - destruct H as [Hn ->]. rewrite read_u32_app by exact Hn. reflexivity.
  - rewrite (length_app n) by assumption. cbn [rbind]. rewrite advance_app. cbn [rbind].
    do 3 f_equal. lia.
  - rewrite (read_mqtt_string_app ft s) by exact H. destruct H as [_ (_ & _ & ->)]. cbn [rbind].
    rewrite blen_app. change (blen (u16be (blen s))) with 2. do 3 f_equal. lia.
  - rewrite (read_mqtt_bytes_app s) by exact H. destruct H as (_ & _ & ->). cbn [rbind].
    rewrite blen_app. change (blen (u16be (blen s))) with 2. do 3 f_equal. lia.
  - destruct H as (l1 & l2 & -> & H1 & H2). rewrite <- app_assoc.
    rewrite (read_mqtt_string_app ft k) by exact H1. cbn [rbind].
    rewrite (read_mqtt_string_app ft v) by exact H2. cbn [rbind].
    destruct H1 as [_ (_ & _ & ->)]. destruct H2 as [_ (_ & _ & ->)]. rewrite !blen_app.
    change (blen (u16be (blen k))) with 2. change (blen (u16be (blen v))) with 2. do 3 f_equal. lia.
Qed.

Lemma value_wire_ok ft v l : value_wire ft v l -> bytes_ok l.
Proof.
  assert (B : forall s l, bin_wire s l -> bytes_ok l).
  { intros s l' (H1 & H2 & ->). bok. apply u16be_ok. exact H2. }
  destruct v; cbn [value_wire].
  - intros [H ->]. bok.
  - intros [H ->]. apply u16be_ok. exact H.
  - intros [H ->]. apply u32be_ok. exact H.
  - apply varint_wire_ok.
  - intros [_ H]. eapply B. exact H.
  - apply B.
  - intros (l1 & l2 & -> & [_ H1] & [_ H2]). bok; eapply B; eassumption.
Qed.
Lemma bin_wire_ok s l : bin_wire s l -> bytes_ok l.
Proof. intros H. apply (value_wire_ok F_binary (VBin s)). exact H. Qed.
Lemma str_wire_ok ft s l : str_wire ft s l -> bytes_ok l.
Proof. intros H. apply (value_wire_ok ft (VStr s)). exact H. Qed.
Lemma u16_wire_ok n l : u16_wire n l -> bytes_ok l.
Proof. intros H. apply (value_wire_ok F_binary (VTwo n)). exact H. Qed.

(** ---------- The loop ---------- *)

Lemma property_kind_bound id : property_kind id <> None -> id < 43.
Proof.
  destruct (N.ltb_spec id 43) as [H|H]; [auto|]. intros E. exfalso. apply E. clear E.
  destruct id as [|p]; [lia|].
  do 6 (destruct p as [p|p|]; try reflexivity; try lia).
Qed.

Lemma gstep_inv ft allowed prop seen b s n r : bytes_ok b -> prop < 256 ->
  gstep ft allowed prop seen b = Ok (s, n, r) ->
  exists v l, b = l ++ r /\ s = seen ++ [(prop, v)]
    /\ spelled_wire ft allowed ((prop, v), prop :: l)
    /\ 1 + n = counted ((prop, v), prop :: l).
Proof.
  intros Hb Hp H. unfold gstep in H.
  destruct (property_kind prop) as [k|] eqn:K; [|discriminate].
  destruct (mem prop allowed) eqn:M; [|discriminate].
  inv_ok H. destruct p as [v' n']. ginv H1.
  apply read_value_inv in H0; [|exact Hb]. destruct H0 as (l & -> & Hw & Hk & Hn).
  exists v', l. split; [reflexivity|]. split; [reflexivity|]. split.
  - split; [apply mem_in; exact M|]. split; [rewrite K, Hk; reflexivity|]. exists l. auto.
  - unfold counted. cbn [fst snd]. rewrite blen_cons. lia.
Qed.
Lemma gstep_app ft allowed id v l seen r :
  spelled_wire ft allowed ((id, v), id :: l) -> bytes_ok r ->
  exists n, gstep ft allowed id seen (l ++ r) = Ok (seen ++ [(id, v)], n, r)
    /\ 1 + n = counted ((id, v), id :: l).
Proof.
  intros (Hin & Hk & vl & E & Hw) Hr. injection E as <-.
  exists (blen l + match v with VVar _ => 1 | _ => 0 end). split.
  - unfold gstep. rewrite Hk. rewrite (proj2 (mem_in id allowed) Hin).
    rewrite read_value_app by assumption. reflexivity.
  - unfold counted. cbn [fst snd]. rewrite blen_cons. lia.
Qed.

Lemma spelled_wire_inv ft allowed s : spelled_wire ft allowed s ->
  exists id v l, s = ((id, v), id :: l) /\ value_wire ft v l /\ id < 43.
Proof.
  destruct s as [[id v] l]. intros (Hin & Hk & vl & -> & Hw). exists id, v, vl.
  repeat split; auto. apply property_kind_bound. rewrite Hk. discriminate.
Qed.
Lemma spelled_ok ft allowed sp : Forall (spelled_wire ft allowed) sp -> bytes_ok (concat (map snd sp)).
Proof.
  induction 1 as [|s sp Hs Hsp IH]; [constructor|]. cbn [map concat].
  apply spelled_wire_inv in Hs. destruct Hs as (id & v & l & -> & Hw & Hid).
  cbn [snd]. bok; [lia|eapply value_wire_ok; exact Hw].
Qed.
Lemma counted_bound ft allowed s : spelled_wire ft allowed s -> 2 <= counted s /\ counted s <= 131075.
Proof.
  intros H. apply spelled_wire_inv in H. destruct H as (id & v & l & -> & Hw & Hid).
  unfold counted. cbn [fst snd]. rewrite blen_cons.
  destruct v; cbn [value_wire] in Hw.
  - destruct Hw as [_ ->]. change (blen [n]) with 1. lia.
  - destruct Hw as [_ ->]. change (blen (u16be n)) with 2. lia.
  - destruct Hw as [_ ->]. change (blen (u32be n)) with 4. lia.
  - apply varint_wire_bound in Hw. lia.
  - destruct Hw as [_ (_ & Hw & ->)]. rewrite blen_app. change (blen (u16be (blen s))) with 2. lia.
  - destruct Hw as (_ & Hw & ->). rewrite blen_app. change (blen (u16be (blen s))) with 2. lia.
  - destruct Hw as (l1 & l2 & -> & [_ (_ & Hw1 & ->)] & [_ (_ & Hw2 & ->)]). rewrite !blen_app.
    change (blen (u16be (blen k))) with 2. change (blen (u16be (blen v))) with 2. lia.
Qed.

Lemma removelast_cons2 {A} (a b : A) l : removelast (a :: b :: l) = a :: removelast (b :: l).
Proof. reflexivity. Qed.
Lemma total_cons s l : total (s :: l) = counted s + total l.
Proof. reflexivity. Qed.

Definition covers_from (cursor declared : N) (l : list spelled) : Prop :=
  (l <> [] -> cursor + total (removelast l) < declared) /\ declared <= cursor + total l.

Lemma gloop_inv ft allowed : forall fuel cursor plen seen b items r,
  bytes_ok b ->
  props_loop (gstep ft allowed) fuel cursor plen seen b = Ok (items, r) ->
  exists sp : list spelled, b = concat (map snd sp) ++ r /\ items = seen ++ map fst sp
    /\ Forall (spelled_wire ft allowed) sp /\ covers_from cursor plen sp.
Proof.
  induction fuel as [|fuel IH]; intros cursor plen seen b items r Hb H; cbn [props_loop] in H;
    destruct (N.ltb_spec cursor plen) as [L|L]; try discriminate.
  - ginv H. exists []. cbn [map concat app]. rewrite app_nil_r.
    split; [reflexivity|]. split; [reflexivity|]. split; [constructor|].
    split; [intros Hx; exfalso; apply Hx; reflexivity|cbn [total]; lia].
  - inv_ok H. inv_ok H1. inv_ok H2. destruct p as [s n']. inv_ok H3.
    apply read_u8_inv in H0. subst b. bok.
    apply gstep_inv in H1; [|assumption|assumption].
    destruct H1 as (v & l & -> & -> & Hw & Hc). bok.
    apply IH in H4; [|assumption]. destruct H4 as (sp & -> & -> & Hsp & Hcov1 & Hcov2).
    unfold usize_add in H, H2. destruct (cursor + 1 <? usize_limit); [|discriminate]. ginv H.
    destruct (cursor + 1 + n' <? usize_limit); [|discriminate]. ginv H2.
    exists (((n, v), n :: l) :: sp). cbn [map concat fst snd].
    split; [cbn [app]; rewrite app_assoc; reflexivity|].
    split; [rewrite <- app_assoc; reflexivity|].
    split; [constructor; assumption|].
    split.
    + intros _. destruct sp as [|s2 sp2]; [cbn [removelast total]; lia|].
      rewrite removelast_cons2, total_cons.
      assert (s2 :: sp2 <> []) as Hne by discriminate. specialize (Hcov1 Hne). lia.
    + cbn [total]. lia.
  - ginv H. exists []. cbn [map concat app]. rewrite app_nil_r.
    split; [reflexivity|]. split; [reflexivity|]. split; [constructor|].
    split; [intros Hx; exfalso; apply Hx; reflexivity|cbn [total]; lia].
Qed.

Lemma gloop_app ft allowed : forall sp fuel cursor plen seen r,
  Forall (spelled_wire ft allowed) sp -> covers_from cursor plen sp -> bytes_ok r ->
  (length sp < fuel)%nat -> plen <= max_varint ->
  props_loop (gstep ft allowed) fuel cursor plen seen (concat (map snd sp) ++ r)
  = Ok (seen ++ map fst sp, r).
Proof.
  induction sp as [|s sp IH]; intros fuel cursor plen seen r Hsp [Hc1 Hc2] Hr Hf Hp.
  - cbn [map concat app total] in *. rewrite app_nil_r.
    destruct fuel; [lia|]. cbn [props_loop]. destruct (N.ltb_spec cursor plen); [lia|reflexivity].
  - inversion Hsp as [|? ? Hs Hsp']; subst. destruct fuel as [|fuel]; [lia|].
    pose proof (spelled_wire_inv _ _ _ Hs) as (id & v & l & -> & Hw & Hid).
    assert (Hlt : cursor < plen).
    { assert (((id, v, id :: l) : spelled) :: sp <> []) as Hne by discriminate. specialize (Hc1 Hne). lia. }
    cbn [map concat snd fst app]. cbn [props_loop].
    destruct (N.ltb_spec cursor plen); [|lia]. rewrite read_u8_cons. cbn [rbind].
    unfold usize_add at 1. unfold max_varint in Hp.
    rewrite (proj2 (N.ltb_lt (cursor + 1) usize_limit)) by (unfold usize_limit; lia). cbn [rbind].
    rewrite <- app_assoc.
    destruct (gstep_app ft allowed id v l seen (concat (map snd sp) ++ r)) as (n & E & En).
    { exact Hs. }
    { bok. eapply spelled_ok; exact Hsp'. }
    rewrite E. cbn [rbind].
    pose proof (counted_bound _ _ _ Hs) as [_ Hcb].
    unfold usize_add at 1.
    rewrite (proj2 (N.ltb_lt (cursor + 1 + n) usize_limit)) by (unfold usize_limit; lia). cbn [rbind].
    rewrite IH; [rewrite <- app_assoc; reflexivity|assumption| |assumption| |unfold max_varint; lia].
    + rewrite total_cons in Hc2. split; [|lia]. intros Hne.
      destruct sp as [|s2 sp2]; [congruence|].
      rewrite removelast_cons2, total_cons in Hc1.
      assert (((id, v, id :: l) : spelled) :: s2 :: sp2 <> []) as Hne2 by discriminate.
      specialize (Hc1 Hne2). lia.
    + cbn [length] in Hf. lia.
Qed.

Lemma sp_length ft allowed sp : Forall (spelled_wire ft allowed) sp ->
  (length sp <= length (concat (map snd sp)))%nat.
Proof.
  induction 1 as [|s sp Hs Hsp IH]; [cbn; lia|].
  apply spelled_wire_inv in Hs. destruct Hs as (id & v & l & -> & _).
  cbn [map concat snd length app]. rewrite app_length. lia.
Qed.

Lemma gread_inv ft allowed b o r : bytes_ok b -> gread ft allowed b = Ok (o, r) ->
  exists l, b = l ++ r /\ section_wire ft allowed o l.
Proof.
  intros Hb H. unfold gread, props_read in H. inv_ok H. inv_ok H1.
  apply length_inv in H0; [|exact Hb]. destruct H0 as (lb & rest & -> & -> & Hw).
  rewrite advance_app in H. ginv H. bok.
  destruct (N.eqb_spec n0 0) as [->|Hne].
  - ginv H2. exists lb. split; [reflexivity|]. exists 0, lb. auto.
  - inv_ok H2. ginv H3. apply gloop_inv in H1; [|assumption].
    destruct H1 as (sp & -> & -> & Hsp & Hc1 & Hc2).
    exists (lb ++ concat (map snd sp)). split; [apply app_assoc|].
    exists n0, lb. split; [exact Hw|]. split; [lia|].
    exists sp. repeat split; auto.
    destruct sp as [|s sp]; [cbn in Hc2; lia|].
    assert (s :: sp <> []) as Hn by discriminate. specialize (Hc1 Hn). lia.
Qed.
Lemma gread_app ft allowed o l r : section_wire ft allowed o l -> bytes_ok r ->
  gread ft allowed (l ++ r) = Ok (o, r).
Proof.
  intros (declared & lb & Hw & H) Hr. unfold gread, props_read.
  destruct o as [items|].
  - destruct H as (Hpos & sp & -> & -> & Hsp & Hcov).
    rewrite <- app_assoc.
    rewrite (length_app declared) by (try exact Hw; bok; eapply spelled_ok; exact Hsp).
    cbn [rbind]. rewrite advance_app. cbn [rbind].
    destruct (N.eqb_spec declared 0); [lia|].
    rewrite gloop_app; [reflexivity|exact Hsp| |exact Hr| |].
    + destruct Hcov as [H1 H2]. split; [intros _; lia|lia].
    + apply Nat.lt_succ_r. etransitivity; [exact (sp_length _ _ _ Hsp)|].
      rewrite app_length. apply Nat.le_add_r.
    + apply varint_wire_bound in Hw. unfold max_varint. lia.
  - destruct H as [-> ->]. rewrite (length_app 0) by assumption. cbn [rbind].
    rewrite advance_app. cbn [rbind]. reflexivity.
Qed.
Lemma section_wire_ok ft allowed o l : section_wire ft allowed o l -> bytes_ok l /\ l <> [].
Proof.
  intros (d & lb & Hw & H). pose proof (varint_wire_nonempty _ _ Hw) as Hne.
  pose proof (varint_wire_ok _ _ Hw) as Hok.
  destruct o.
  - destruct H as (_ & sp & _ & -> & Hsp & _). split.
    + bok. eapply spelled_ok; exact Hsp.
    + destruct lb; [congruence|discriminate].
  - destruct H as [_ ->]. auto.
Qed.
