(** Property sections: C06, C24, C25, C26, C27. *)
From Verif Require Import Types Model Spec Wire Sites Faults PBase PVarint PUtf8 PRead PItems PProps PFrame PWire PTotal PSites PFaults TFraming TFaults PBack.
Ltac Zify.zify_post_hook ::= Z.div_mod_to_equations.

(** A frame whose body is [pre], a property section and [after]. *)
Lemma section_read ft max byte1 pl pre o ls after f rest K :
  framed byte1 (pre ++ ls ++ after) f -> before_section ft byte1 pl pre -> site ft byte1 pl pre K ->
  section_wire ft (allowed_at byte1 pl) o ls ->
  within max (blen (pre ++ ls ++ after)) -> bytes_ok (f ++ rest) ->
  Packet_read ft (f ++ rest) max = (K (o, after), rest).
Proof.
  intros Hf Hp S Hs Hm Hb. apply bytes_ok_app in Hb. destruct Hb as [Hbf Hbr].
  assert (Hbody : bytes_ok (pre ++ ls ++ after)) by (destruct Hf as (lb & -> & _); bok; auto).
  rewrite (framed_read ft max byte1 _ f rest Hf Hbody Hbr Hm). apply bytes_ok_app in Hbody. destruct Hbody as [_ Hb].
  pose proof (section_wire_ok _ _ _ _ Hs) as [_ Hne].
  rewrite (site_eq _ _ _ _ _ S) by (try assumption; intros _ X; apply app_eq_nil in X; tauto).
  apply bytes_ok_app in Hb. rewrite (gread_app _ _ o ls after Hs (proj2 Hb)). reflexivity.
Qed.
Lemma framed_byte1 byte1 body f : framed byte1 body f -> bytes_ok f -> byte1 < 256.
Proof. intros (lb & -> & _) H. bok. Qed.

(** ** C06 *)

Lemma kvar_11 id : property_kind id = Some KVar -> id = 11.
Proof.
  intros H. assert (id < 43) by (apply property_kind_bound; congruence).
  destruct id as [|q]; [discriminate|]. do 6 (destruct q as [q|q|]; try lia; try discriminate; try reflexivity).
Qed.
Lemma str_insufficient ft b n : ~ str_faulty ft b (InsufficientBytes n).
Proof. intros [[[_ X]|(? & ? & _ & _ & _ & X)]|(_ & X & _)]; discriminate. Qed.
Lemma section_insufficient ft allowed r n :
  section_faulty ft allowed r (InsufficientBytes n) <-> n = 1 /\ section_cut ft allowed r.
Proof.
  split.
  - intros [[[H E]|(l & t & _ & _ & _ & E)]|(declared & lb & b & -> & Hw & sp & t & -> & Hsp & Ht & H)]; try discriminate.
    + injection E as ->. split; [reflexivity|left; exact H].
    + destruct t as [|id v]; [discriminate|]. cbn [property_faulty] in H.
      destruct (property_kind id) as [k|] eqn:Ek; [|discriminate]. destruct H as [[_ E]|[Hin H]]; [discriminate|].
      destruct k; cbn [value_faulty] in H; try (destruct H as [_ E]; discriminate).
      * apply kvar_11 in Ek. subst id. destruct H as [[H E]|(l & t & _ & _ & _ & E)]; [|discriminate]. injection E as ->.
        split; [reflexivity|right]. exists declared, lb, sp, v. auto 8.
      * exfalso. exact (str_insufficient _ _ _ H).
      * destruct H as [[_ E]|(? & ? & _ & _ & _ & E)]; discriminate.
      * destruct H as [H|(a & l & t & _ & _ & H)]; exfalso; exact (str_insufficient _ _ _ H).
  - intros [-> [H|(declared & lb & sp & v & -> & Hw & Hsp & Ht & Hin & H)]].
    + left. left. auto.
    + right. exists declared, lb, (concat (map snd sp) ++ 11 :: v). split; [reflexivity|]. split; [exact Hw|].
      exists sp, (11 :: v). split; [reflexivity|]. split; [exact Hsp|]. split; [exact Ht|].
      cbn [property_faulty property_kind]. right. split; [exact Hin|]. left. auto.
Qed.
Lemma cut_reported ft max byte1 pl pre r f rest : bytes_ok (f ++ rest) -> framed byte1 (pre ++ r) f ->
  within max (blen (pre ++ r)) -> before_section ft byte1 pl pre -> has_section byte1 r ->
  section_cut ft (allowed_at byte1 pl) r -> Packet_read ft (f ++ rest) max = (Err (InsufficientBytes 1), rest).
Proof.
  intros Hs Hf Hm Hp Hh HS.
  assert (Hbody : bytes_ok (pre ++ r)) by (destruct Hf as (lb & -> & _); bok; auto).
  assert (H1 : byte1 < 256) by (eapply framed_byte1; [exact Hf|bok; auto]).
  rewrite (framed_read ft max byte1 (pre ++ r) f rest) by (auto; bok; auto). f_equal.
  apply (section_fault_reported ft byte1 pl); auto; [bok; auto|]. apply section_insufficient. auto.
Qed.

(** Packet::read asks for more bytes in two situations only: the stream is a strict prefix of a
    frame (it is left as it is), or the stream begins with a complete frame whose property
    section breaks off in a variable byte integer (the frame is consumed). *)
Theorem C06_when_more_bytes_are_asked_for ft max s rest :
  bytes_ok s ->
  (exists n, Packet_read ft s max = (Err (InsufficientBytes n), rest))
  <-> (rest = s /\ exists byte1 body missing,
            framed byte1 body (s ++ missing) /\ bytes_ok missing /\ missing <> []
            /\ (announces (blen body) s -> within max (blen body)))
      \/ (exists byte1 pl pre r f,
            s = f ++ rest /\ framed byte1 (pre ++ r) f /\ within max (blen (pre ++ r))
            /\ before_section ft byte1 pl pre /\ has_section byte1 r
            /\ section_cut ft (allowed_at byte1 pl) r).
Proof.
  intros Hs. split.
  - intros [n E]. destruct (proj1 (C42_errors_are_the_described_faults ft s max _ rest Hs) E) as [[-> H]|(byte1 & body & f & -> & Hf & Hm & H)].
    + left. split; [reflexivity|]. apply (C06_more_without_consuming_iff_incomplete ft max s Hs). exists n. exact E.
    + right. assert (Hbody : bytes_ok body) by (destruct Hf as (lb & -> & _); bok; auto).
      assert (H1 : byte1 < 256) by (eapply framed_byte1; [exact Hf|bok; auto]).
      destruct (section_error_origin ft byte1 body (InsufficientBytes n) H1 Hbody I H) as (pl & pre & r & -> & Hp & Hh & HS).
      apply section_insufficient in HS. destruct HS as [-> HS]. exists byte1, pl, pre, r, f. auto 8.
  - intros [(-> & E)|(byte1 & pl & pre & r & f & -> & Hf & Hm & Hp & Hh & HS)].
    + apply (C06_more_without_consuming_iff_incomplete ft max s Hs). exact E.
    + exists 1. eapply cut_reported; eauto.
Qed.
(** Whenever the stream was touched, one more byte is asked for. *)
Theorem C06_amount_after_consuming ft max s n rest :
  bytes_ok s -> Packet_read ft s max = (Err (InsufficientBytes n), rest) -> rest <> s -> n = 1.
Proof.
  intros Hs E Hne. destruct (proj1 (C42_errors_are_the_described_faults ft s max _ rest Hs) E) as [[-> H]|(byte1 & body & f & -> & Hf & Hm & H)]; [congruence|].
  assert (Hbody : bytes_ok body) by (destruct Hf as (lb & -> & _); bok; auto).
  assert (H1 : byte1 < 256) by (eapply framed_byte1; [exact Hf|bok; auto]).
  destruct (section_error_origin ft byte1 body (InsufficientBytes n) H1 Hbody I H) as (pl & pre & r & -> & Hp & Hh & HS).
  apply section_insufficient in HS. tauto.
Qed.
(** The second situation contradicts the usual reading of the error. *)
Theorem C06_complete_frame_refuted ft rest : bytes_ok rest ->
  is_frame [224; 1; 128]
  /\ Packet_read ft ([224; 1; 128] ++ rest) None = (Err (InsufficientBytes 1), rest).
Proof.
  intros Hr. assert (F : framed 224 [128] [224; 1; 128]) by (exists [1]; split; [reflexivity|apply (varint_is_wire 1); unfold max_varint; lia]).
  split; [exists 224, [128]; exact F|]. rewrite (framed_read ft None 224 [128] _ rest F); [destruct ft; reflexivity| |exact Hr|exact I].
  constructor; [lia|constructor].
Qed.
(** Two more instances: a PUBLISH whose body is just a topic, and a subscription identifier
    without a value. *)
Example C06_cut_publish : Packet_read F_default [48; 3; 0; 1; 97] None = (Err (InsufficientBytes 1), []).
Proof. reflexivity. Qed.
Example C06_cut_identifier : Packet_read F_default [48; 6; 0; 1; 97; 4; 11; 200] None = (Err (InsufficientBytes 1), []).
Proof. reflexivity. Qed.

(** ** C24 *)

Lemma total_exact ft allowed sp : Forall (spelled_wire ft allowed) sp -> no_identifiers sp ->
  total sp = blen (concat (map snd sp)).
Proof.
  induction 1 as [|s sp Hs _ IH]; intros Hn; [reflexivity|]. apply Forall_cons_iff in Hn. destruct Hn as [Hi Hn].
  cbn [total map concat]. rewrite blen_app, (IH Hn). f_equal. unfold counted.
  destruct s as [[id v] l]. destruct Hs as (_ & Hk & _). destruct v; cbn [fst snd] in *; try lia.
  exfalso. apply Hi. apply kvar_11. exact Hk.
Qed.
Lemma forall_removelast {A} (P : A -> Prop) l : Forall P l -> Forall P (removelast l).
Proof. induction 1 as [|x l Hx _ IH]; [constructor|]. destruct l; [constructor|]. constructor; assumption. Qed.
Lemma total_removelast ft allowed sp : Forall (spelled_wire ft allowed) sp -> sp <> [] -> total (removelast sp) < total sp.
Proof.
  induction 1 as [|s sp Hs Hsp IH]; [congruence|]. intros _. destruct sp as [|s' sp].
  - cbn [removelast total]. pose proof (counted_bound _ _ _ Hs). lia.
  - change (removelast (s :: s' :: sp)) with (s :: removelast (s' :: sp)). cbn [total] in *.
    specialize (IH ltac:(discriminate)). lia.
Qed.
Lemma total_count ft allowed sp : Forall (spelled_wire ft allowed) sp ->
  total sp = blen (concat (map snd sp)) + identifiers sp.
Proof.
  induction 1 as [|s sp Hs _ IH]; [reflexivity|]. cbn [total map concat]. rewrite blen_app, IH. unfold counted, identifiers. cbn [filter].
  destruct s as [[id v] l]. destruct Hs as (_ & Hk & _). cbn [fst snd] in *.
  destruct (N.eqb_spec id 11) as [->|Hi].
  - assert (exists n, v = VVar n) as [n ->] by (destruct v; try discriminate Hk; eauto). cbn [length]. ulia.
  - destruct v; try ulia. exfalso. apply Hi. apply kvar_11. exact Hk.
Qed.
Lemma total_app a b : total (a ++ b) = total a + total b.
Proof. induction a as [|x a IH]; [reflexivity|]. cbn [app total]. rewrite IH. ulia. Qed.
Lemma identifiers_app a b : identifiers (a ++ b) = identifiers a + identifiers b.
Proof. unfold identifiers. rewrite filter_app, app_length, Nat2N.inj_add. reflexivity. Qed.
(** An exact section is covered by all its properties exactly when the identifiers fit. *)
Lemma exact_covers ft allowed sp : Forall (spelled_wire ft allowed) sp -> sp <> [] ->
  covers (blen (concat (map snd sp))) sp <-> identifiers_fit sp.
Proof.
  intros Hsp Hne. unfold covers. destruct (exists_last Hne) as (before & s & ->). rewrite removelast_last.
  apply Forall_app in Hsp. destruct Hsp as [Hb Hs]. rewrite total_app, (total_count _ _ _ Hb), (total_count _ _ _ Hs).
  rewrite map_app, concat_app, blen_app. cbn [map concat]. rewrite app_nil_r.
  split.
  - intros [H _] before' s' E. apply app_inj_tail in E. destruct E as [<- <-]. eapply N.add_lt_mono_l. exact H.
  - intros H. specialize (H before s eq_refl). split; [apply N.add_lt_mono_l; exact H|].
    assert (X : forall a b x y : N, a + b <= a + x + (b + y)) by (intros; lia). apply X.
Qed.
Lemma exact_is_section ft allowed sp ls : Forall (spelled_wire ft allowed) sp -> identifiers_fit sp -> exact_section sp ls ->
  exists o, section_wire ft allowed o ls /\ section_items o = map fst sp /\ (sp <> [] -> o = Some (map fst sp)).
Proof.
  intros Hsp Hn (lb & Hw & ->). destruct sp as [|s sp].
  - exists None. split; [|split; [reflexivity|congruence]]. exists 0, lb. split; [exact Hw|]. split; [reflexivity|apply app_nil_r].
  - pose proof (proj2 (exact_covers _ _ _ Hsp ltac:(discriminate)) Hn) as C.
    exists (Some (map fst (s :: sp))). split; [|split; reflexivity].
    exists (blen (concat (map snd (s :: sp)))), lb. split; [exact Hw|]. split; [unfold covers in C; lia|].
    exists (s :: sp). split; [reflexivity|]. split; [reflexivity|]. split; [exact Hsp|exact C].
Qed.

(** At most one subscription identifier always fits. *)
Theorem C24_one_identifier_fits ft allowed sp : Forall (spelled_wire ft allowed) sp -> identifiers sp <= 1 -> identifiers_fit sp.
Proof.
  intros Hsp H before s ->. rewrite identifiers_app in H. apply Forall_app in Hsp. destruct Hsp as [_ Hs].
  apply Forall_cons_iff in Hs. destruct Hs as [Hs _]. destruct s as [[id v] l]. destruct Hs as (_ & _ & vl & -> & Hv). cbn [snd].
  assert (1 <= blen vl).
  { destruct v; cbn [value_wire] in Hv.
    - destruct Hv as [_ ->]. reflexivity.
    - destruct Hv as [_ ->]. change (blen (u16be n)) with 2. lia.
    - destruct Hv as [_ ->]. change (blen (u32be n)) with 4. lia.
    - apply varint_wire_nonempty in Hv. destruct vl; [tauto|]. rewrite blen_cons. lia.
    - apply str_wire_nonempty in Hv. destruct vl; [tauto|]. rewrite blen_cons. lia.
    - destruct Hv as (_ & _ & ->). rewrite blen_app. change (blen (u16be (blen s))) with 2. lia.
    - destruct Hv as (l1 & l2 & -> & Hv & _). apply str_wire_nonempty in Hv. destruct l1; [tauto|]. rewrite blen_app, blen_cons. lia. }
  rewrite blen_cons. lia.
Qed.

(** Two frames alike but for the order of the properties (those with the same identifier keep
    their order) are read alike: same packet or same error. *)
Theorem C24_order_does_not_matter ft max byte1 pl pre l1 l2 ls1 ls2 after f1 f2 rest :
  before_section ft byte1 pl pre ->
  section_wire ft (allowed_at byte1 pl) (Some l1) ls1 ->
  section_wire ft (allowed_at byte1 pl) (Some l2) ls2 ->
  same_up_to_order l1 l2 ->
  framed byte1 (pre ++ ls1 ++ after) f1 -> framed byte1 (pre ++ ls2 ++ after) f2 ->
  within max (blen (pre ++ ls1 ++ after)) -> within max (blen (pre ++ ls2 ++ after)) ->
  bytes_ok (f1 ++ rest) ->
  Packet_read ft (f1 ++ rest) max = Packet_read ft (f2 ++ rest) max.
Proof.
  intros Hp S1 S2 Hs F1 F2 M1 M2 Hb.
  assert (H1 : byte1 < 256) by (eapply framed_byte1; [exact F1|bok; auto]).
  destruct (site_exists ft byte1 pl pre H1 Hp) as [K S].
  assert (Hb2 : bytes_ok (f2 ++ rest)).
  { destruct F1 as (lb1 & -> & W1), F2 as (lb2 & -> & W2). pose proof (varint_wire_ok _ _ W2). pose proof (section_wire_ok _ _ _ _ S2). bok; tauto. }
  rewrite (section_read _ _ _ _ _ _ _ _ _ _ _ F1 Hp S S1 M1 Hb), (section_read _ _ _ _ _ _ _ _ _ _ _ F2 Hp S S2 M2 Hb2).
  f_equal. apply (site_same _ _ _ _ _ S). exact Hs.
Qed.
(** In particular for sections whose length field is right, with at most one subscription
    identifier (or more if they fit). *)
Theorem C24_exact_sections ft max byte1 pl pre sp1 sp2 ls1 ls2 after f1 f2 rest :
  before_section ft byte1 pl pre ->
  Forall (spelled_wire ft (allowed_at byte1 pl)) sp1 -> Forall (spelled_wire ft (allowed_at byte1 pl)) sp2 ->
  identifiers_fit sp1 -> identifiers_fit sp2 ->
  exact_section sp1 ls1 -> exact_section sp2 ls2 ->
  same_up_to_order (map fst sp1) (map fst sp2) ->
  framed byte1 (pre ++ ls1 ++ after) f1 -> framed byte1 (pre ++ ls2 ++ after) f2 ->
  within max (blen (pre ++ ls1 ++ after)) -> within max (blen (pre ++ ls2 ++ after)) ->
  bytes_ok (f1 ++ rest) ->
  Packet_read ft (f1 ++ rest) max = Packet_read ft (f2 ++ rest) max.
Proof.
  intros Hp W1 W2 N1 N2 E1 E2 Hs F1 F2 M1 M2 Hb.
  destruct (exact_is_section _ _ _ _ W1 N1 E1) as (o1 & S1 & I1 & X1).
  destruct (exact_is_section _ _ _ _ W2 N2 E2) as (o2 & S2 & I2 & X2).
  assert (Q : forall sp1 sp2 : list spelled, same_up_to_order (map fst sp1) (map fst sp2) -> sp1 = [] -> sp2 = []).
  { clear. intros sp1 sp2 H ->. destruct sp2 as [|[[id v] l] sp2]; [reflexivity|]. specialize (H id). cbn in H. rewrite N.eqb_refl in H. discriminate. }
  destruct sp1 as [|s1 sp1].
  - rewrite (Q [] sp2 Hs eq_refl) in *. destruct E1 as (lb1 & L1 & ->), E2 as (lb2 & L2 & ->).
    assert (H1 : byte1 < 256) by (eapply framed_byte1; [exact F1|bok; auto]).
    destruct (site_exists ft byte1 pl pre H1 Hp) as [K S].
    assert (SN : forall lb, varint_wire 0 lb -> section_wire ft (allowed_at byte1 pl) None (lb ++ [])).
    { intros lb Hl. exists 0, lb. split; [exact Hl|]. split; [reflexivity|apply app_nil_r]. }
    assert (Hb2 : bytes_ok (f2 ++ rest)).
    { destruct F1 as (lb1' & -> & Q1), F2 as (lb2' & -> & Q2). pose proof (varint_wire_ok _ _ Q2). pose proof (varint_wire_ok _ _ L2). bok; tauto. }
    rewrite (section_read _ _ _ _ _ _ _ _ _ _ _ F1 Hp S (SN _ L1) M1 Hb), (section_read _ _ _ _ _ _ _ _ _ _ _ F2 Hp S (SN _ L2) M2 Hb2).
    reflexivity.
  - rewrite (X1 ltac:(discriminate)) in S1.
    destruct sp2 as [|s2 sp2].
    { assert (X : s1 :: sp1 = []) by (apply (Q []); [intros id; symmetry; apply Hs|reflexivity]). discriminate. }
    rewrite (X2 ltac:(discriminate)) in S2.
    exact (C24_order_does_not_matter ft max byte1 pl pre _ _ ls1 ls2 after f1 f2 rest Hp S1 S2 Hs F1 F2 M1 M2 Hb).
Qed.
(** Where identifiers with the counting defect (C21) come in, order can matter: the same two
    properties, the section length right in both. *)
Example C24_order_matters_with_identifiers :
  fst (Packet_read F_default [48; 14; 0; 0; 11; 11; 1; 11; 2; 11; 3; 2; 0; 0; 0; 1] None)
  <> fst (Packet_read F_default [48; 14; 0; 0; 11; 2; 0; 0; 0; 1; 11; 1; 11; 2; 11; 3] None).
Proof. vm_compute. discriminate. Qed.
Example C24_instance :
  Packet_read F_default [48; 10; 0; 0; 7; 2; 0; 0; 0; 1; 1; 1] None
  = Packet_read F_default [48; 10; 0; 0; 7; 1; 1; 2; 0; 0; 0; 1] None.
Proof. reflexivity. Qed.

(** ** C25 *)

Lemma allowed_known byte1 pl id : In id (allowed_at byte1 pl) -> property_kind id <> None.
Proof.
  assert (X : forall l, forallb (fun id => match property_kind id with Some _ => true | None => false end) l = true ->
    In id l -> property_kind id <> None).
  { intros l H Hin E. rewrite forallb_forall in H. specialize (H _ Hin). rewrite E in H. discriminate. }
  apply X. destruct pl; cbn [allowed_at]; [|reflexivity].
  destruct (byte1 / 16) as [|q]; [reflexivity|]. do 4 (destruct q as [q|q|]; try reflexivity).
Qed.
Lemma section_invalid ft byte1 pl r id :
  section_faulty ft (allowed_at byte1 pl) r (InvalidPropertyType id) <-> section_forbids ft (allowed_at byte1 pl) id r.
Proof.
  set (allowed := allowed_at byte1 pl).
  assert (SF : forall b, ~ str_faulty ft b (InvalidPropertyType id)).
  { intros b [[[_ X]|(? & ? & _ & _ & _ & X)]|(_ & X & _)]; discriminate. }
  split.
  - intros [[[_ E]|(l & t & _ & _ & _ & E)]|(declared & lb & b & -> & Hw & sp & t & -> & Hsp & Ht & H)]; try discriminate.
    destruct t as [|id' v]; [discriminate|]. cbn [property_faulty] in H.
    assert (id' = id /\ ~ In id allowed) as [-> Hn].
    { destruct (property_kind id') as [k|] eqn:Ek.
      - destruct H as [[Hn E]|[_ H]]; [injection E as ->; auto|exfalso].
        destruct k; cbn [value_faulty] in H; try (destruct H as [_ E]; discriminate).
        + destruct H as [[_ E]|(? & ? & _ & _ & _ & E)]; discriminate.
        + exact (SF _ H).
        + destruct H as [[_ E]|(? & ? & _ & _ & _ & E)]; discriminate.
        + destruct H as [H|(? & ? & ? & _ & _ & H)]; exact (SF _ H).
      - injection H as ->. split; [reflexivity|]. intros Hin. exact (allowed_known byte1 pl id' Hin Ek). }
    exists declared, lb, sp, v. auto.
  - intros (declared & lb & sp & v & -> & Hw & Hsp & Ht & Hn).
    right. exists declared, lb, (concat (map snd sp) ++ id :: v). split; [reflexivity|]. split; [exact Hw|].
    exists sp, (id :: v). split; [reflexivity|]. split; [exact Hsp|]. split; [exact Ht|].
    cbn [property_faulty]. destruct (property_kind id); [|reflexivity]. left. auto.
Qed.

(** InvalidPropertyType(id) is reported exactly when some section has, after any number of good
    properties and before its declared length is reached, the identifier id although it is not
    defined there. *)
Theorem C25_undefined_property_rejected ft max s id rest :
  bytes_ok s ->
  Packet_read ft s max = (Err (InvalidPropertyType id), rest)
  <-> exists byte1 pl pre r f,
        s = f ++ rest /\ framed byte1 (pre ++ r) f /\ within max (blen (pre ++ r))
        /\ before_section ft byte1 pl pre /\ has_section byte1 r
        /\ section_forbids ft (allowed_at byte1 pl) id r.
Proof.
  intros Hs. split.
  - intros E. destruct (proj1 (C42_errors_are_the_described_faults ft s max _ rest Hs) E) as [[-> H]|(byte1 & body & f & -> & Hf & Hm & H)].
    + exfalso. destruct H as [[_ H]|[(byte1 & t & _ & _ & [[_ H]|(? & ? & _ & _ & _ & H)])|(? & ? & ? & ? & _ & _ & [(? & _ & _ & H)|(_ & _ & H)])]]; discriminate.
    + assert (Hbody : bytes_ok body) by (destruct Hf as (lb & -> & _); bok; auto).
      assert (H1 : byte1 < 256) by (eapply framed_byte1; [exact Hf|bok; auto]).
      destruct (section_error_origin ft byte1 body (InvalidPropertyType id) H1 Hbody I H) as (pl & pre & r & -> & Hp & Hh & HS).
      apply section_invalid in HS. exists byte1, pl, pre, r, f. auto 8.
  - intros (byte1 & pl & pre & r & f & -> & Hf & Hm & Hp & Hh & HS).
    assert (Hbody : bytes_ok (pre ++ r)) by (destruct Hf as (lb & -> & _); bok; auto).
    assert (H1 : byte1 < 256) by (eapply framed_byte1; [exact Hf|bok; auto]).
    rewrite (framed_read ft max byte1 (pre ++ r) f rest) by (auto; bok; auto). f_equal.
    apply (section_fault_reported ft byte1 pl); auto; [bok; auto|]. apply section_invalid. exact HS.
Qed.
(** The identifiers allowed at each place are those of the standard's table. *)
Theorem C25_allowed_as_in_the_standard byte1 id :
  (In id (allowed_at byte1 Main) <-> In (byte1 / 16) [1; 2; 3; 4; 5; 6; 7; 8; 9; 10; 11; 14] /\ In (byte1 / 16) (defined_in id))
  /\ (In id (allowed_at byte1 Will) <-> In 0 (defined_in id)).
Proof.
  assert (B : forall t, ~ In t [1; 2; 3; 4; 5; 6; 7; 8; 9; 10; 11; 14] \/ In t [1; 2; 3; 4; 5; 6; 7; 8; 9; 10; 11; 14]).
  { intros t. destruct (in_dec N.eq_dec t [1; 2; 3; 4; 5; 6; 7; 8; 9; 10; 11; 14]); auto. }
  assert (S : forall id, 43 <= id -> defined_in id = []).
  { clear. intros id H. unfold defined_in. destruct id as [|q]; [reflexivity|]. do 6 (destruct q as [q|q|]; try reflexivity; try lia). }
  assert (M : forall l t, forallb (fun x => x <? 43) l = true -> 
    forallb (fun x => Bool.eqb (existsb (N.eqb x) l) (existsb (N.eqb t) (defined_in x))) (map N.of_nat (seq 0 43)) = true ->
    (In id l <-> In t (defined_in id))).
  { intros l t Hl H. assert (E : forall x l, existsb (N.eqb x) l = true <-> In x l).
    { intros x l'. rewrite existsb_exists. split; [intros (y & Hy & Q); apply N.eqb_eq in Q; congruence|].
      intros Hy. exists x. rewrite N.eqb_refl. auto. }
    destruct (N.lt_ge_cases id 43) as [Hlt|Hge].
    - rewrite forallb_forall in H. specialize (H id). rewrite in_map_iff in H.
      rewrite <- !E. rewrite (Bool.eqb_prop _ _ (H ltac:(exists (N.to_nat id); rewrite N2Nat.id, in_seq; split; [reflexivity|lia]))). tauto.
    - rewrite (S id Hge). split; [|intros []]. intros Hin. rewrite forallb_forall in Hl. specialize (Hl _ Hin). apply N.ltb_lt in Hl. lia. }
  split; [|apply M; reflexivity].
  destruct (B (byte1 / 16)) as [Hn|Hy].
  - split; [|tauto]. intros H. exfalso. unfold allowed_at in H. clear M. revert Hn H.
    destruct (byte1 / 16) as [|q]; [cbn; tauto|].
    do 4 (destruct q as [q|q|]; try (intros _ H; exact H); try (intros Hn _; apply Hn; cbn [In]; tauto)).
  - assert (X : forall P Q : Prop, (P <-> Q) -> (P <-> In (byte1 / 16) [1; 2; 3; 4; 5; 6; 7; 8; 9; 10; 11; 14] /\ Q)) by (intros; tauto).
    apply X. clear X. unfold allowed_at. cbn [In] in Hy. 
    repeat (destruct Hy as [Hy|Hy]; [rewrite <- Hy; apply M; reflexivity|]). destruct Hy.
Qed.

(** Wherever a frame with an empty section is accepted, any section with allowed properties is
    accepted too, and the packet differs only in those properties; where it is rejected for a
    later defect, so is the other. *)
Theorem C25_allowed_properties_accepted ft max byte1 pl pre o ls after f0 f rest :
  before_section ft byte1 pl pre -> section_wire ft (allowed_at byte1 pl) o ls ->
  framed byte1 (pre ++ [0] ++ after) f0 -> framed byte1 (pre ++ ls ++ after) f ->
  within max (blen (pre ++ [0] ++ after)) -> within max (blen (pre ++ ls ++ after)) ->
  bytes_ok (f0 ++ rest) ->
  (forall p, Packet_read ft (f0 ++ rest) max = (Ok p, rest) ->
     exists q, Packet_read ft (f ++ rest) max = (Ok q, rest)
       /\ without_properties pl q = without_properties pl p
       /\ packet_items pl p = []
       /\ forall id, with_id id (packet_items pl q) = resolved byte1 id (section_items o))
  /\ (forall e, Packet_read ft (f0 ++ rest) max = (Err e, rest) -> Packet_read ft (f ++ rest) max = (Err e, rest)).
Proof.
  intros Hp Hs F0 F M0 M Hb.
  assert (H1 : byte1 < 256) by (eapply framed_byte1; [exact F0|bok; auto]).
  destruct (site_exists ft byte1 pl pre H1 Hp) as [K S].
  assert (Hb2 : bytes_ok (f ++ rest)).
  { destruct F0 as (lb1 & -> & W1), F as (lb2 & -> & W2). pose proof (varint_wire_ok _ _ W2). pose proof (section_wire_ok _ _ _ _ Hs). bok; tauto. }
  assert (SN : section_wire ft (allowed_at byte1 pl) None [0]).
  { exists 0, [0]. split; [apply (varint_is_wire 0); unfold max_varint; lia|auto]. }
  rewrite (section_read _ _ _ _ _ _ _ _ _ _ _ F0 Hp S SN M0 Hb), (section_read _ _ _ _ _ _ _ _ _ _ _ F Hp S Hs M Hb2).
  split.
  - intros p E. assert (EK : K (None, after) = Ok p) by congruence.
    destruct (site_free _ _ _ _ _ S None o after p EK) as (q & Eq & Wq). exists q.
    split; [f_equal; exact Eq|]. split; [exact Wq|]. split.
    + pose proof (site_items _ _ _ _ _ S None after p (Forall_nil _) EK) as Q.
      destruct (packet_items pl p) as [|[id v] l]; [reflexivity|]. specialize (Q id). cbn in Q. rewrite N.eqb_refl in Q.
      unfold resolved in Q. cbn in Q. destruct (repeatable byte1 id); discriminate.
    + apply (site_items _ _ _ _ _ S o after q); [|exact Eq]. destruct o as [l|]; [|constructor].
      cbn [section_items]. destruct Hs as (d & lb & _ & _ & sp & -> & _ & Hsp & _). apply spelled_wk with (ft := ft). exact Hsp.
  - intros e E. assert (EK : K (None, after) = Err e) by congruence. f_equal. exact (site_err _ _ _ _ _ S _ o _ _ EK).
Qed.
(** And every allowed identifier occurs in such a section: alone, with any value of its type. *)
Theorem C25_each_allowed_property_has_a_section ft byte1 pl id v l lb :
  In id (allowed_at byte1 pl) -> property_kind id = Some (value_kind v) -> value_wire ft v l ->
  varint_wire (1 + blen l) lb ->
  section_wire ft (allowed_at byte1 pl) (Some [(id, v)]) (lb ++ id :: l).
Proof.
  intros Hin Hk Hv Hl. exists (1 + blen l), lb. split; [exact Hl|]. split; [lia|]. exists [((id, v), id :: l)].
  split; [reflexivity|]. split; [cbn [map snd concat]; rewrite app_nil_r; reflexivity|].
  split; [constructor; [|constructor]; repeat split; auto; exists l; auto|].
  unfold covers. cbn [removelast total counted fst snd]. unfold counted. cbn [fst snd]. rewrite blen_cons. lia.
Qed.
Example C25_will_delay_in_publish : Packet_read F_default [48; 8; 0; 0; 5; 24; 0; 0; 0; 1] None = (Err (InvalidPropertyType 24), []).
Proof. reflexivity. Qed.

(** ** C26 *)

(** Whatever a section lists, the packet reports of each identifier the last value, or all
    values in order for user properties and the subscription identifiers of PUBLISH. *)
Theorem C26_last_value_wins ft max byte1 pl pre o ls after f rest p :
  before_section ft byte1 pl pre -> section_wire ft (allowed_at byte1 pl) o ls ->
  framed byte1 (pre ++ ls ++ after) f -> bytes_ok (f ++ rest) -> 
  Packet_read ft (f ++ rest) max = (Ok p, rest) ->
  forall id, with_id id (packet_items pl p) = resolved byte1 id (section_items o).
Proof.
  intros Hp Hs F Hb E.
  assert (H1 : byte1 < 256) by (eapply framed_byte1; [exact F|bok; auto]).
  destruct (site_exists ft byte1 pl pre H1 Hp) as [K S].
  assert (M : within max (blen (pre ++ ls ++ after))).
  { destruct (C04_nothing_or_one_frame _ _ _ _ _ Hb E) as [[X [e Y]]|(b' & body' & f' & X & F' & M)]; [discriminate|].
    apply app_inv_tail in X. subst f'. destruct F as (lb1 & -> & W1), F' as (lb2 & X & W2). injection X as <- X.
    apply bytes_ok_app in Hb. destruct Hb as [Hb _]. bok.
    edestruct varint_prefix_unique as (V & _ & _); [exact W1|exact W2| | |exact X|congruence].
    - bok; auto.
    - assert (Q : bytes_ok (lb2 ++ body')) by (rewrite <- X; bok; auto). apply bytes_ok_app in Q. tauto. }
  rewrite (section_read _ _ _ _ _ _ _ _ _ _ _ F Hp S Hs M Hb) in E. assert (EK : K (o, after) = Ok p) by congruence.
  apply (site_items _ _ _ _ _ S o after p); [|exact EK]. destruct o as [l|]; [|constructor].
  cbn [section_items]. destruct Hs as (d & lb & _ & _ & sp & -> & _ & Hsp & _). apply spelled_wk with (ft := ft). exact Hsp.
Qed.
Example C26_instance :
  Packet_read F_default [224; 24; 0; 22; 17; 0; 0; 0; 1; 38; 0; 1; 97; 0; 1; 98; 17; 0; 0; 0; 2; 31; 0; 2; 97; 98] None
  = (Ok (P_Disconnect (mkDisconnect DRC_NormalDisconnection
       (Some (mkDisconnectProperties (Some 2) (Some [97; 98]) [([97], [98])] None)))), []).
Proof. reflexivity. Qed.

(** ** C27 *)

(** A section whose length field is right and whose subscription identifiers fit (at most one
    always does, C24) is consumed exactly: what follows it is read as after an empty section. *)
Theorem C27_exact_section_is_consumed_exactly ft max byte1 pl pre sp ls after f0 f rest :
  before_section ft byte1 pl pre -> Forall (spelled_wire ft (allowed_at byte1 pl)) sp -> identifiers_fit sp ->
  exact_section sp ls ->
  framed byte1 (pre ++ [0] ++ after) f0 -> framed byte1 (pre ++ ls ++ after) f ->
  within max (blen (pre ++ [0] ++ after)) -> within max (blen (pre ++ ls ++ after)) ->
  bytes_ok (f0 ++ rest) ->
  (forall p, Packet_read ft (f0 ++ rest) max = (Ok p, rest) ->
     exists q, Packet_read ft (f ++ rest) max = (Ok q, rest)
       /\ without_properties pl q = without_properties pl p
       /\ forall id, with_id id (packet_items pl q) = resolved byte1 id (map fst sp))
  /\ (forall e, Packet_read ft (f0 ++ rest) max = (Err e, rest) -> Packet_read ft (f ++ rest) max = (Err e, rest)).
Proof.
  intros Hp Hsp Hn Hx F0 F M0 M Hb. destruct (exact_is_section _ _ _ _ Hsp Hn Hx) as (o & S & I & _).
  destruct (C25_allowed_properties_accepted ft max byte1 pl pre o ls after f0 f rest Hp S F0 F M0 M Hb) as [A B].
  split; [|exact B]. intros p E. destruct (A p E) as (q & Q1 & Q2 & _ & Q3). exists q. rewrite I in Q3. auto.
Qed.

Lemma first_cover (sp : list spelled) : forall d, 0 < d -> d <= total sp ->
  exists kept lost, sp = kept ++ lost /\ total (removelast kept) < d /\ d <= total kept.
Proof.
  induction sp as [|s sp IH] using rev_ind; intros d Hd H; [cbn [total] in H; lia|].
  destruct (N.leb_spec d (total sp)) as [L|L].
  - destruct (IH d Hd L) as (kept & lost & -> & A & B). exists kept, (lost ++ [s]). rewrite <- app_assoc. auto.
  - exists (sp ++ [s]), []. rewrite app_nil_r, removelast_last. auto.
Qed.
(** If they do not fit, the properties at the end of the section are not read as such but left
    to what follows. *)
Theorem C27_exact_section_in_general ft max byte1 pl pre sp ls after f rest :
  before_section ft byte1 pl pre -> Forall (spelled_wire ft (allowed_at byte1 pl)) sp -> sp <> [] ->
  exact_section sp ls ->
  framed byte1 (pre ++ ls ++ after) f -> within max (blen (pre ++ ls ++ after)) -> bytes_ok (f ++ rest) ->
  exists kept lost,
    sp = kept ++ lost /\ (lost = [] <-> identifiers_fit sp)
    /\ forall f0, framed byte1 (pre ++ [0] ++ concat (map snd lost) ++ after) f0 ->
         within max (blen (pre ++ [0] ++ concat (map snd lost) ++ after)) ->
         (forall p, Packet_read ft (f0 ++ rest) max = (Ok p, rest) ->
            exists q, Packet_read ft (f ++ rest) max = (Ok q, rest)
              /\ without_properties pl q = without_properties pl p
              /\ forall id, with_id id (packet_items pl q) = resolved byte1 id (map fst kept))
         /\ (forall e, Packet_read ft (f0 ++ rest) max = (Err e, rest) -> Packet_read ft (f ++ rest) max = (Err e, rest)).
Proof.
  intros Hp Hsp Hne (lb & Hw & ->) F M Hb. set (d := blen (concat (map snd sp))) in *.
  assert (Hd : 0 < d).
  { destruct sp as [|s sp]; [congruence|]. apply Forall_cons_iff in Hsp. destruct Hsp as [Hs _].
    destruct s as [[id v] l]. destruct Hs as (_ & _ & vl & -> & _). unfold d. cbn [map concat snd app]. rewrite blen_cons. lia. }
  assert (Hdt : d <= total sp) by (rewrite (total_count _ _ _ Hsp); unfold d; apply N.le_add_r).
  destruct (first_cover sp d Hd Hdt) as (kept & lost & Es & C1 & C2).
  assert (Hk : Forall (spelled_wire ft (allowed_at byte1 pl)) kept) by (rewrite Es in Hsp; apply Forall_app in Hsp; tauto).
  exists kept, lost. split; [exact Es|]. split.
  - rewrite <- (exact_covers _ _ _ Hsp Hne). fold d. split.
    + intros ->. rewrite app_nil_r in Es. subst kept. split; assumption.
    + intros [C _]. destruct (list_eq_dec N.eq_dec (map (fun _ => 0) lost) []) as [Z|Z]; [destruct lost; [reflexivity|discriminate]|exfalso].
      destruct lost as [|x lost]; [exact (Z eq_refl)|]. rewrite Es in C. rewrite removelast_app in C by discriminate. rewrite total_app in C.
      lia.
  - intros f0 F0 M0.
    assert (S : section_wire ft (allowed_at byte1 pl) (Some (map fst kept)) (lb ++ concat (map snd kept))).
    { exists d, lb. split; [exact Hw|]. split; [exact Hd|]. exists kept. split; [reflexivity|]. split; [reflexivity|]. split; [exact Hk|split; assumption]. }
    assert (EQ : pre ++ (lb ++ concat (map snd sp)) ++ after = pre ++ (lb ++ concat (map snd kept)) ++ concat (map snd lost) ++ after).
    { rewrite Es, map_app, concat_app, <- !app_assoc. reflexivity. }
    rewrite EQ in F, M.
    assert (Hb0 : bytes_ok (f0 ++ rest)).
    { destruct F as (lb1 & -> & W1), F0 as (lb2 & -> & W2). pose proof (varint_wire_ok _ _ W2). bok. reflexivity. }
    destruct (C25_allowed_properties_accepted ft max byte1 pl pre (Some (map fst kept)) _ (concat (map snd lost) ++ after) f0 f rest Hp S F0 F M0 M Hb0) as [A B].
    split; [|exact B]. intros p E. destruct (A p E) as (q & Q1 & Q2 & _ & Q3). exists q. auto.
Qed.

(** The length rule.  Every decoded packet whose body has a section was read as: properties
    until the count reaches the declared length, the rest being what follows.  The count is
    the size of the properties, plus one for each subscription identifier. *)
Definition sectionless (byte1 : N) (body : bytes) : Prop :=
  byte1 / 16 = 12 \/ byte1 / 16 = 13 \/ (4 <= byte1 / 16 <= 7 /\ blen body <= 3) \/ (byte1 / 16 = 14 /\ body = []).

Lemma props_split {A} ft allowed (of : list item -> A) o l : props_wire ft allowed of o l ->
  exists i, section_wire ft allowed i l.
Proof. intros (i & H & _). exists i. exact H. Qed.
Lemma ack_split {A} ft (of : list item -> A) pkid code o body : ack_wire ft of pkid code o body ->
  blen body <= 3 \/ exists i ls after, body = (u16be pkid ++ [code]) ++ ls ++ after /\ pkid < 65536 /\ section_wire ft ack_allowed i ls.
Proof.
  intros (lk & [Hk ->] & [(-> & _)|[(-> & _)|(ls & junk & -> & _ & Hp)]]).
  - left. change (blen (u16be pkid)) with 2. lia.
  - left. change (blen (u16be pkid ++ [code])) with 3. lia.
  - right. destruct (props_split _ _ _ _ _ Hp) as [i Hi]. exists i, ls, junk. rewrite <- app_assoc. auto.
Qed.
Lemma body_section ft byte1 p body : body_wire ft byte1 p body ->
  sectionless byte1 body
  \/ exists pre o ls after, body = pre ++ ls ++ after /\ before_section ft byte1 Main pre
       /\ section_wire ft (allowed_at byte1 Main) o ls.
Proof.
  unfold sectionless, before_section, allowed_at.
  destruct p as [c w l|a|p|a| | |s|a|a|a|a|u|a|d]; cbn [body_wire]; intros H; try (destruct H as [-> H]).
  - right. destruct H as (flags & lk & ls & lc & lw & ll & junk & -> & Hf & _ & _ & [Hk ->] & Hp & _).
    destruct (props_split _ _ _ _ _ Hp) as [i Hi].
    exists ((u16be 4 ++ mqtt) ++ [5; flags] ++ u16be (co_keep_alive c)), i, ls, (lc ++ lw ++ ll ++ junk).
    split; [rewrite <- !app_assoc; reflexivity|]. split; [exists flags, (co_keep_alive c); auto|exact Hi].
  - right. destruct H as (flags & ls & junk & -> & _ & _ & _ & _ & Hp). destruct (props_split _ _ _ _ _ Hp) as [i Hi].
    exists [flags; connack_code (ck_code a)], i, ls, junk. split; [reflexivity|]. split; [eauto|exact Hi].
  - right. destruct H as (_ & _ & Hq & _ & lt & li & ls & -> & Ht & Hi & Hp). destruct (props_split _ _ _ _ _ Hp) as [i Hs].
    exists (lt ++ li), i, ls, (pu_payload p). split; [rewrite <- app_assoc; reflexivity|]. split; [|exact Hs].
    exists (pu_topic p), lt, li. split; [reflexivity|]. split; [exact Ht|]. rewrite <- Hq.
    destruct (pu_qos p); cbn [qos_num]; [left; tauto|right|right]; (split; [auto|]); exists (pu_pkid p); tauto.
  - apply ack_split in H. destruct H as [H|(i & ls & after & -> & Hk & Hs)]; [left; lia|right].
    exists (u16be (pa_pkid a) ++ [puback_code (pa_reason a)]), i, ls, after. split; [reflexivity|]. split; [eauto|exact Hs].
  - left. auto.
  - left. auto.
  - right. destruct H as (lk & ls & lf & -> & Hk & Hp & _). destruct (props_split _ _ _ _ _ Hp) as [i Hi]. exists lk, i, ls, lf. eauto.
  - right. destruct H as (lk & ls & -> & Hk & Hp & _). destruct (props_split _ _ _ _ _ Hp) as [i Hi].
    exists lk, i, ls, (map suback_code (sa_return_codes a)). eauto.
  - apply ack_split in H. destruct H as [H|(i & ls & after & -> & Hk & Hs)]; [left; lia|right].
    exists (u16be (pr_pkid a) ++ [pubrec_code (pr_reason a)]), i, ls, after. split; [reflexivity|]. split; [eauto|exact Hs].
  - apply ack_split in H. destruct H as [H|(i & ls & after & -> & Hk & Hs)]; [left; lia|right].
    exists (u16be (pl_pkid a) ++ [pubrel_code (pl_reason a)]), i, ls, after. split; [reflexivity|]. split; [eauto|exact Hs].
  - apply ack_split in H. destruct H as [H|(i & ls & after & -> & Hk & Hs)]; [left; lia|right].
    exists (u16be (pc_pkid a) ++ [pubcomp_code (pc_reason a)]), i, ls, after. split; [reflexivity|]. split; [eauto|exact Hs].
  - right. destruct H as (lk & ls & lf & -> & Hk & Hp & _). destruct (props_split _ _ _ _ _ Hp) as [i Hi]. exists lk, i, ls, lf. eauto.
  - right. destruct H as (lk & ls & -> & Hk & Hp & _). destruct (props_split _ _ _ _ _ Hp) as [i Hi].
    exists lk, i, ls, (map unsuback_code (ua_reasons a)). eauto.
  - destruct H as [[-> _]|(ls & junk & -> & _ & Hp)]; [left; auto|right].
    destruct (props_split _ _ _ _ _ Hp) as [i Hi]. exists [disconnect_code (di_reason_code d)], i, ls, junk.
    split; [reflexivity|]. split; [split; [reflexivity|eauto]|exact Hi].
Qed.

Lemma total_ge sp : blen (concat (map snd sp)) <= total sp.
Proof. induction sp as [|s sp IH]; [reflexivity|]. cbn [map concat total]. rewrite blen_app. unfold counted. ulia. Qed.

Theorem C27_consumption_rule ft max s p rest :
  bytes_ok s -> Packet_read ft s max = (Ok p, rest) ->
  exists byte1 body f, s = f ++ rest /\ framed byte1 body f
  /\ (sectionless byte1 body /\ packet_items Main p = []
      \/ exists pre declared lb sp after,
           body = pre ++ (lb ++ concat (map snd sp)) ++ after
           /\ before_section ft byte1 Main pre /\ varint_wire declared lb
           /\ Forall (spelled_wire ft (allowed_at byte1 Main)) sp
           /\ (forall id, with_id id (packet_items Main p) = resolved byte1 id (map fst sp))
           /\ (declared = 0 /\ sp = [] \/ total (removelast sp) < declared /\ declared <= total sp)).
Proof.
  intros Hs E. pose proof E as E2. apply C37_read_is_the_wire_language in E; [|exact Hs].
  destruct E as (b1 & body & f & -> & F & B & M). exists b1, body, f. split; [reflexivity|]. split; [exact F|].
  destruct (body_section _ _ _ _ B) as [SL|(pre & o & ls & after & -> & Hp & HS)].
  - left. split; [exact SL|]. unfold sectionless in SL. 
    destruct p as [c w l|a|p|a| | |s|a|a|a|a|u|a|d]; cbn [body_wire packet_items] in *;
      try reflexivity; try (destruct B as [B _]; rewrite B in SL; exfalso; lia).
    + destruct B as [B1 (lk & [Hk ->] & [(_ & _ & ->)|[(_ & ->)|(ls & junk & -> & _ & Hp)]])]; try reflexivity.
      exfalso. destruct (props_split _ _ _ _ _ Hp) as [i Hi]. apply section_wire_ok in Hi. destruct ls; [tauto|].
      rewrite B1 in SL. unfold u16be in SL. cbn [app] in SL. rewrite !blen_cons in SL. destruct SL as [X|[X|[[_ X]|[X _]]]]; try discriminate; lia.
    + destruct B as [B1 (lk & [Hk ->] & [(_ & _ & ->)|[(_ & ->)|(ls & junk & -> & _ & Hp)]])]; try reflexivity.
      exfalso. destruct (props_split _ _ _ _ _ Hp) as [i Hi]. apply section_wire_ok in Hi. destruct ls; [tauto|].
      rewrite B1 in SL. unfold u16be in SL. cbn [app] in SL. rewrite !blen_cons in SL. destruct SL as [X|[X|[[_ X]|[X _]]]]; try discriminate; lia.
    + destruct B as [B1 (lk & [Hk ->] & [(_ & _ & ->)|[(_ & ->)|(ls & junk & -> & _ & Hp)]])]; try reflexivity.
      exfalso. destruct (props_split _ _ _ _ _ Hp) as [i Hi]. apply section_wire_ok in Hi. destruct ls; [tauto|].
      rewrite B1 in SL. unfold u16be in SL. cbn [app] in SL. rewrite !blen_cons in SL. destruct SL as [X|[X|[[_ X]|[X _]]]]; try discriminate; lia.
    + destruct B as [B1 (lk & [Hk ->] & [(_ & _ & ->)|[(_ & ->)|(ls & junk & -> & _ & Hp)]])]; try reflexivity.
      exfalso. destruct (props_split _ _ _ _ _ Hp) as [i Hi]. apply section_wire_ok in Hi. destruct ls; [tauto|].
      rewrite B1 in SL. unfold u16be in SL. cbn [app] in SL. rewrite !blen_cons in SL. destruct SL as [X|[X|[[_ X]|[X _]]]]; try discriminate; lia.
    + destruct B as [-> [[-> ->]|(ls & junk & -> & _ & Hp)]]; [reflexivity|].
      change (224 / 16) with 14 in SL. exfalso. destruct SL as [X|[X|[X|[_ X]]]]; try discriminate. lia.
  - right. pose proof (C26_last_value_wins ft max b1 Main pre o ls after f rest p Hp HS F Hs E2) as I.
    destruct HS as (declared & lb & Hw & HS). destruct o as [l|].
    + destruct HS as (_ & sp & -> & -> & Hsp & Hc). exists pre, declared, lb, sp, after. auto 9.
    + destruct HS as [-> ->]. exists pre, 0, lb, [], after. cbn [map concat]. rewrite app_nil_r. auto 9.
Qed.
(** The same for the property section of the Will of a CONNECT. *)
Theorem C27_consumption_rule_will ft max s c w l rest :
  bytes_ok s -> Packet_read ft s max = (Ok (P_Connect c (Some w) l), rest) ->
  exists byte1 body f pre declared lb sp after, s = f ++ rest /\ framed byte1 body f
  /\ body = pre ++ (lb ++ concat (map snd sp)) ++ after
  /\ before_section ft byte1 Will pre /\ varint_wire declared lb
  /\ Forall (spelled_wire ft (allowed_at byte1 Will)) sp
  /\ (forall id, with_id id (packet_items Will (P_Connect c (Some w) l)) = resolved byte1 id (map fst sp))
  /\ (declared = 0 /\ sp = [] \/ total (removelast sp) < declared /\ declared <= total sp).
Proof.
  intros Hs E. pose proof E as E2. apply C37_read_is_the_wire_language in E; [|exact Hs].
  destruct E as (b1 & body & f & -> & F & B & M). exists b1, body, f.
  cbn [body_wire] in B. destruct B as [B1 (flags & lk & ls & lc & lw & ll & junk & -> & Hf & _ & _ & Hk & Hc & Hi & Hw & _)].
  cbn [will_wire] in Hw. destruct Hw as (Hbit & _ & _ & lws & lt & lm & -> & HP & _).
  destruct Hc as (i & Hc & _). destruct HP as (o & HS & _).
  assert (HP : before_section ft b1 Will (((u16be 4 ++ mqtt) ++ [5; flags] ++ lk) ++ ls ++ lc)).
  { split; [exact B1|]. exists flags, ((u16be 4 ++ mqtt) ++ [5; flags] ++ lk), i, ls, (co_client_id c), lc.
    split; [reflexivity|]. split; [|auto]. destruct Hk as [Hk ->]. exists (co_keep_alive c). auto. }
  assert (HA : section_wire ft (allowed_at b1 Will) o lws).
  { unfold allowed_at. rewrite ?B1. exact HS. }
  pose proof (C26_last_value_wins ft max b1 Will _ o lws ((lt ++ lm) ++ ll ++ junk) f rest (P_Connect c (Some w) l) HP HA) as I.
  rewrite <- !app_assoc in I. rewrite <- !app_assoc in F. specialize (I F Hs E2).
  destruct HA as (declared & lb & Hv & HA). destruct o as [its|].
  - destruct HA as (_ & sp & -> & -> & Hsp & Hc2). eexists _, declared, lb, sp, ((lt ++ lm) ++ ll ++ junk).
    split; [reflexivity|]. split; [rewrite <- !app_assoc in *; exact F|]. split; [|split; [exact HP|auto 9]]. rewrite <- !app_assoc. reflexivity.
  - destruct HA as [-> ->]. eexists _, 0, lb, [], ((lt ++ lm) ++ ll ++ junk). cbn [map concat]. rewrite app_nil_r.
    split; [reflexivity|]. split; [rewrite <- !app_assoc in *; exact F|]. split; [|split; [exact HP|auto 9]]. rewrite <- !app_assoc. reflexivity.
Qed.
(** Its hypothesis is met: a Will whose section declares 1 byte but holds a delay interval of 5. *)
Example C27_consumption_rule_will_instance ft :
  Packet_read ft [16; 26; 0; 4; 77; 81; 84; 84; 5; 4; 0; 10; 0; 0; 1; 97; 1; 24; 0; 0; 0; 9; 0; 1; 98; 0; 1; 99] None
  = (Ok (P_Connect (mkConnect 10 [97] false None)
       (Some (mkLastWill [98] [99] AtMostOnce false
          (Some (mkLastWillProperties (Some 9) None None None None None [])))) None), []).
Proof. destruct ft; vm_compute; reflexivity. Qed.
(** So every property but the last ends inside the declared length, and only subscription
    identifiers can make the reader stop before it. *)
Theorem C27_overrun_bound ft allowed declared sp : Forall (spelled_wire ft allowed) sp ->
  total (removelast sp) < declared -> declared <= total sp ->
  blen (concat (map snd (removelast sp))) < declared
  /\ (no_identifiers sp -> declared <= blen (concat (map snd sp))).
Proof.
  intros Hsp H1 H2. pose proof (total_ge (removelast sp)). split; [ulia|]. intros Hn. rewrite <- (total_exact _ _ _ Hsp Hn). exact H2.
Qed.
(** The last property is not held inside: a PUBLISH that declares one byte of properties takes
    its message expiry interval out of what should be the payload. *)
Theorem C27_overrun_refuted ft m payload :
  m < 4294967296 -> bytes_ok payload -> blen payload < 100 ->
  Packet_read ft ([48; 8 + blen payload; 0; 0; 1; 2] ++ u32be m ++ payload) None
  = (Ok (P_Publish (mkPublish false AtMostOnce false [] 0 payload
       (Some (mkPublishProperties None (Some m) None None None [] [] None)))), []).
Proof.
  intros Hm Hp Hl.
  assert (Hu : blen (u32be m) = 4) by reflexivity.
  assert (W : str_wire ft [] [0; 0]).
  { assert (U : utf8 []) by (exists []; split; [constructor|reflexivity]).
    split; [split; [constructor|destruct ft; auto]|]. split; [constructor|]. split; reflexivity. }
  apply (C37_read_is_the_wire_language ft).
  { cbn [app]. unfold u32be. repeat constructor; try lia. exact Hp. }
  exists 48, ([0; 0] ++ [] ++ ([1] ++ 2 :: u32be m) ++ payload), (48 :: [8 + blen payload] ++ ([0; 0] ++ [] ++ ([1] ++ 2 :: u32be m) ++ payload)).
  split; [rewrite app_nil_r; reflexivity|]. split.
  { exists [8 + blen payload]. split; [reflexivity|].
    assert (X : blen ([0; 0] ++ [] ++ ([1] ++ 2 :: u32be m) ++ payload) = 8 + blen payload).
    { unfold u32be. cbn [app]. rewrite !blen_cons. ulia. }
    rewrite X. split; [cbn; lia|]. split; [cbn [varint_shape]; lia|]. cbn [varint_value]. rewrite N.mod_small by lia. lia. }
  split; [|exact I]. cbn [body_wire]. split; [reflexivity|]. cbn [publish_wire pu_dup pu_retain pu_qos pu_payload pu_topic pu_pkid pu_properties].
  unfold publish_wire. cbn [pu_dup pu_retain pu_qos pu_payload pu_topic pu_pkid pu_properties].
  split; [reflexivity|]. split; [reflexivity|]. split; [reflexivity|]. split; [exact Hp|].
  exists [0; 0], [], ([1] ++ 2 :: u32be m). split; [reflexivity|]. split; [exact W|]. split; [auto|].
  exists (Some [(2, VFour m)]). split; [|reflexivity].
  exists 1, [1]. split; [apply (varint_is_wire 1); unfold max_varint; lia|]. split; [lia|].
  exists [((2, VFour m), 2 :: u32be m)]. split; [reflexivity|]. split; [cbn [map snd concat]; rewrite app_nil_r; reflexivity|].
  split.
  - constructor; [|constructor]. split; [cbn; tauto|]. split; [reflexivity|]. exists (u32be m). split; [reflexivity|]. split; [exact Hm|reflexivity].
  - split; [reflexivity|]. cbn [total counted fst snd]. unfold counted. cbn [fst snd]. rewrite blen_cons. lia.
Qed.
