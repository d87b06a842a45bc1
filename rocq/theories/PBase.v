(** Generic lemmas: lists, lengths, results, byte arithmetic. *)
From Coq Require Export ZArith Lia ZifyBool ZifyN ZifyNat.
Open Scope N_scope.
From Verif Require Import Types MLib Spec Wire.
Ltac Zify.zify_post_hook ::= Z.div_mod_to_equations.

Arguments N.add : simpl never.
Arguments N.mul : simpl never.
Arguments N.sub : simpl never.
Arguments N.div : simpl never.
Arguments N.modulo : simpl never.
Arguments N.eqb : simpl never.
Arguments N.ltb : simpl never.
Arguments N.leb : simpl never.
Arguments N.land : simpl never.
Arguments N.lor : simpl never.
Arguments N.shiftl : simpl never.
Arguments N.shiftr : simpl never.
Arguments N.of_nat : simpl never.
Arguments N.to_nat : simpl never.

Lemma blen_nil : blen [] = 0. Proof. reflexivity. Qed.
Lemma blen_cons x l : blen (x :: l) = 1 + blen l.
Proof. unfold blen; cbn [length]; lia. Qed.
Lemma blen_app a b : blen (a ++ b) = blen a + blen b.
Proof. unfold blen; rewrite app_length; lia. Qed.
Lemma blen_0 l : blen l = 0 -> l = [].
Proof. destruct l; [reflexivity|rewrite blen_cons; lia]. Qed.
Lemma blen_length l : N.to_nat (blen l) = length l.
Proof. unfold blen; lia. Qed.

Lemma firstn_blen_app a b : firstn (N.to_nat (blen a)) (a ++ b) = a.
Proof. rewrite blen_length, firstn_app, firstn_all, Nat.sub_diag; cbn; apply app_nil_r. Qed.
Lemma skipn_blen_app a b : skipn (N.to_nat (blen a)) (a ++ b) = b.
Proof. rewrite blen_length, skipn_app, skipn_all, Nat.sub_diag; reflexivity. Qed.

Lemma advance_app a b : advance (a ++ b) (blen a) = Ok b.
Proof.
  unfold advance. rewrite blen_app, skipn_blen_app.
  destruct (N.leb_spec (blen a) (blen a + blen b)); [reflexivity|lia].
Qed.
Lemma split_to_app a b : split_to (a ++ b) (blen a) = Ok (a, b).
Proof.
  unfold split_to. rewrite blen_app, skipn_blen_app, firstn_blen_app.
  destruct (N.leb_spec (blen a) (blen a + blen b)); [reflexivity|lia].
Qed.
Lemma split_at b n : n <= blen b -> exists a c, b = a ++ c /\ blen a = n.
Proof.
  intros H. exists (firstn (N.to_nat n) b), (skipn (N.to_nat n) b). split.
  - symmetry; apply firstn_skipn.
  - unfold blen in *. rewrite firstn_length. lia.
Qed.

Lemma bytes_ok_app a b : bytes_ok (a ++ b) <-> bytes_ok a /\ bytes_ok b.
Proof. unfold bytes_ok; apply Forall_app. Qed.
Lemma bytes_ok_cons x l : bytes_ok (x :: l) <-> x < 256 /\ bytes_ok l.
Proof.
  unfold bytes_ok; split.
  - intros H; inversion H; subst; split; assumption.
  - intros [H1 H2]; constructor; assumption.
Qed.
Lemma bytes_ok_nil : bytes_ok [].
Proof. constructor. Qed.
Global Hint Resolve bytes_ok_nil : core.

Ltac bok :=
  repeat match goal with
  | H : bytes_ok (_ ++ _) |- _ => apply bytes_ok_app in H; destruct H
  | H : bytes_ok (_ :: _) |- _ => apply bytes_ok_cons in H; destruct H
  | |- bytes_ok (_ ++ _) => apply bytes_ok_app; split
  | |- bytes_ok (_ :: _) => apply bytes_ok_cons; split
  end; auto.

(** Results. *)
Lemma rbind_ok {A B} (r : res A) (k : A -> res B) b :
  rbind r k = Ok b <-> exists a, r = Ok a /\ k a = Ok b.
Proof.
  destruct r; cbn; split; intro H; try discriminate;
    try (destruct H as [a' [E _]]; discriminate).
  - exists a; auto.
  - destruct H as [a' [E H]]. injection E as ->. exact H.
Qed.

Ltac ginv H := injection H; clear H; intros; subst.
Ltac inv_ok H :=
  match type of H with
  | rbind ?r ?k = Ok ?b =>
      let a := fresh "a" in let H1 := fresh "H" in let H2 := fresh "H" in
      apply (proj1 (rbind_ok r k b)) in H; destruct H as [a [H1 H2]];
      try match type of a with prod _ _ => destruct a end; cbv beta iota in H2
  end.

(** [bo H E]: split H : rbind r k = Ok b into E : r = Ok a and H : k a = Ok b. *)
Tactic Notation "bo" hyp(H) ident(E) :=
  let a := fresh "a" in let H2 := fresh "H" in
  apply (proj1 (rbind_ok _ _ _)) in H; destruct H as [a [E H2]];
  repeat match type of a with prod _ _ => let x := fresh "x" in destruct a as [a x] end;
  cbv beta iota in H2; rename H2 into H.

(** Arithmetic of u16 / u32. *)
Lemma u16_of_bytes x y : x < 256 -> y < 256 -> u16be (x * 256 + y) = [x; y] /\ x * 256 + y < 65536.
Proof.
  intros. unfold u16be. split; [|lia].
  assert ((x * 256 + y) / 256 = x) as -> by lia.
  assert ((x * 256 + y) mod 256 = y) as -> by lia. reflexivity.
Qed.
Lemma u16_value n : n < 65536 -> n / 256 * 256 + n mod 256 = n.
Proof. intros; lia. Qed.
Lemma u16be_ok n : n < 65536 -> bytes_ok (u16be n).
Proof. intros. unfold u16be. bok; lia. Qed.
Lemma u32_of_bytes x y z w : x < 256 -> y < 256 -> z < 256 -> w < 256 ->
  u32be (((x * 256 + y) * 256 + z) * 256 + w) = [x; y; z; w]
  /\ ((x * 256 + y) * 256 + z) * 256 + w < 4294967296.
Proof.
  intros. unfold u32be. split; [|lia].
  assert ((((x * 256 + y) * 256 + z) * 256 + w) / 16777216 = x) as -> by lia.
  assert ((((x * 256 + y) * 256 + z) * 256 + w) / 65536 mod 256 = y) as -> by lia.
  assert ((((x * 256 + y) * 256 + z) * 256 + w) / 256 mod 256 = z) as -> by lia.
  assert ((((x * 256 + y) * 256 + z) * 256 + w) mod 256 = w) as -> by lia. reflexivity.
Qed.
Lemma u32_value n : n < 4294967296 ->
  ((n / 16777216 * 256 + (n / 65536) mod 256) * 256 + (n / 256) mod 256) * 256 + n mod 256 = n.
Proof. intros; lia. Qed.
Lemma u32be_ok n : n < 4294967296 -> bytes_ok (u32be n).
Proof. intros. unfold u32be. bok; lia. Qed.

(** Masks used by the decoder. *)
Lemma land_127 b : N.land b 127 = b mod 128.
Proof. change 127 with (N.ones 7). rewrite N.land_ones. reflexivity. Qed.
Lemma land_pow2 b k : N.land b (2 ^ k) = if N.testbit b k then 2 ^ k else 0.
Proof.
  apply N.bits_inj. intros m. rewrite N.land_spec, N.pow2_bits_eqb.
  destruct (N.eqb_spec k m) as [<-|Hne].
  - rewrite andb_true_r. destruct (N.testbit b k) eqn:E.
    + symmetry; apply N.pow2_bits_true.
    + rewrite N.bits_0. reflexivity.
  - rewrite andb_false_r. destruct (N.testbit b k).
    + symmetry; apply N.pow2_bits_false; auto.
    + rewrite N.bits_0; reflexivity.
Qed.
Lemma land_pow2_eqb b k : (N.land b (2 ^ k) =? 0) = negb (N.testbit b k).
Proof.
  rewrite land_pow2. destruct (N.testbit b k); cbn [negb].
  - apply N.eqb_neq. apply N.pow_nonzero. lia.
  - reflexivity.
Qed.
Lemma testbit_7 b : b < 256 -> N.testbit b 7 = negb (b <? 128).
Proof.
  intros H. rewrite N.testbit_eqb. change (2 ^ 7) with 128.
  destruct (N.ltb_spec b 128); cbn [negb].
  - apply N.eqb_neq. lia.
  - apply N.eqb_eq. lia.
Qed.
Lemma land_128 b : b < 256 -> (N.land b 128 =? 0) = (b <? 128).
Proof.
  intros H. change 128 with (2 ^ 7) at 1. rewrite land_pow2_eqb, testbit_7 by exact H.
  destruct (b <? 128); reflexivity.
Qed.

(** A finite sweep over all byte values. *)
Definition all_bytes : list N := map N.of_nat (seq 0 256).
Lemma byte_sweep (P : N -> bool) : forallb P all_bytes = true -> forall b, b < 256 -> P b = true.
Proof.
  intros H b Hb. rewrite forallb_forall in H. apply H.
  unfold all_bytes. apply in_map_iff. exists (N.to_nat b). split; [lia|].
  apply in_seq. lia.
Qed.
