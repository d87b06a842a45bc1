(** Variable byte integers: fn length, write_remaining_length, len_len. *)
From Verif Require Import Types MLib Spec Wire PBase.
Ltac Zify.zify_post_hook ::= Z.div_mod_to_equations.

(** fn length by explicit cases. *)
Definition length_cases (b : bytes) : res (N * N) :=
  match b with
  | [] => Err (InsufficientBytes 1)
  | b0 :: r0 =>
      if b0 <? 128 then Ok (1, b0) else
      match r0 with
      | [] => Err (InsufficientBytes 1)
      | b1 :: r1 =>
          if b1 <? 128 then Ok (2, b0 mod 128 + 128 * b1) else
          match r1 with
          | [] => Err (InsufficientBytes 1)
          | b2 :: r2 =>
              if b2 <? 128 then Ok (3, b0 mod 128 + 128 * (b1 mod 128) + 16384 * b2) else
              match r2 with
              | [] => Err (InsufficientBytes 1)
              | b3 :: _ =>
                  if b3 <? 128
                  then Ok (4, b0 mod 128 + 128 * (b1 mod 128) + 16384 * (b2 mod 128) + 2097152 * b3)
                  else Err MalformedRemainingLength
              end
          end
      end
  end.

Lemma length_eq b : bytes_ok b -> length_ b = length_cases b.
Proof.
  intros Hb. unfold length_.
  destruct b as [|b0 r0]; [reflexivity|].
  apply bytes_ok_cons in Hb; destruct Hb as [H0 Hb].
  cbn [length_loop length_cases]. rewrite land_127, land_128 by exact H0.
  destruct (N.ltb_spec b0 128) as [L0|L0].
  { f_equal. f_equal. rewrite N.shiftl_0_r. lia. }
  change (21 <? 0 + 7) with false. cbv iota.
  destruct r0 as [|b1 r1]; [reflexivity|].
  apply bytes_ok_cons in Hb; destruct Hb as [H1 Hb].
  cbn [length_loop]. rewrite land_127, land_128 by exact H1.
  destruct (N.ltb_spec b1 128) as [L1|L1].
  { f_equal. f_equal. rewrite N.shiftl_0_r, N.shiftl_mul_pow2. change (2 ^ (0 + 7)) with 128. lia. }
  change (21 <? 0 + 7 + 7) with false. cbv iota.
  destruct r1 as [|b2 r2]; [reflexivity|].
  apply bytes_ok_cons in Hb; destruct Hb as [H2 Hb].
  cbn [length_loop]. rewrite land_127, land_128 by exact H2.
  destruct (N.ltb_spec b2 128) as [L2|L2].
  { f_equal. f_equal. rewrite N.shiftl_0_r, !N.shiftl_mul_pow2.
    change (2 ^ (0 + 7)) with 128. change (2 ^ (0 + 7 + 7)) with 16384. lia. }
  change (21 <? 0 + 7 + 7 + 7) with false. cbv iota.
  destruct r2 as [|b3 r3]; [reflexivity|].
  apply bytes_ok_cons in Hb; destruct Hb as [H3 Hb].
  cbn [length_loop]. rewrite land_127, land_128 by exact H3.
  destruct (N.ltb_spec b3 128) as [L3|L3].
  { f_equal. f_equal. rewrite N.shiftl_0_r, !N.shiftl_mul_pow2.
    change (2 ^ (0 + 7)) with 128. change (2 ^ (0 + 7 + 7)) with 16384.
    change (2 ^ (0 + 7 + 7 + 7)) with 2097152. lia. }
  reflexivity.
Qed.

Lemma varint_wire_cases v l : varint_wire v l ->
  (exists b0, l = [b0] /\ b0 < 128 /\ v = b0)
  \/ (exists b0 b1, l = [b0; b1] /\ 128 <= b0 /\ b0 < 256 /\ b1 < 128 /\ v = b0 mod 128 + 128 * b1)
  \/ (exists b0 b1 b2, l = [b0; b1; b2] /\ 128 <= b0 /\ b0 < 256 /\ 128 <= b1 /\ b1 < 256 /\ b2 < 128
        /\ v = b0 mod 128 + 128 * (b1 mod 128) + 16384 * b2)
  \/ (exists b0 b1 b2 b3, l = [b0; b1; b2; b3] /\ 128 <= b0 /\ b0 < 256 /\ 128 <= b1 /\ b1 < 256
        /\ 128 <= b2 /\ b2 < 256 /\ b3 < 128
        /\ v = b0 mod 128 + 128 * (b1 mod 128) + 16384 * (b2 mod 128) + 2097152 * b3).
Proof.
  intros (Hlen & Hs & Hv).
  destruct l as [|b0 [|b1 [|b2 [|b3 [|b4 l]]]]]; cbn [varint_shape varint_value] in *.
  - contradiction.
  - left. exists b0. repeat split; auto. lia.
  - right; left. exists b0, b1. repeat split; try apply Hs; lia.
  - right; right; left. exists b0, b1, b2. repeat split; try apply Hs; lia.
  - right; right; right. exists b0, b1, b2, b3. repeat split; try apply Hs; lia.
  - exfalso. cbn [length] in Hlen. lia.
Qed.

Lemma varint_wire_ok v l : varint_wire v l -> bytes_ok l.
Proof.
  intros H. apply varint_wire_cases in H.
  destruct H as [(b0 & -> & ?)|[(b0 & b1 & -> & ?)|[(b0 & b1 & b2 & -> & ?)|(b0 & b1 & b2 & b3 & -> & ?)]]];
    bok; lia.
Qed.
Lemma varint_wire_bound v l : varint_wire v l -> v <= 268435455 /\ 1 <= blen l /\ blen l <= 4.
Proof.
  intros H. apply varint_wire_cases in H.
  destruct H as [(b0 & -> & ?)|[(b0 & b1 & -> & ?)|[(b0 & b1 & b2 & -> & ?)|(b0 & b1 & b2 & b3 & -> & ?)]]];
    unfold blen; cbn [length]; lia.
Qed.
Lemma varint_wire_nonempty v l : varint_wire v l -> l <> [].
Proof. intros (_ & Hs & _) ->. exact Hs. Qed.

Ltac ltbs :=
  repeat match goal with
  | |- context [?a <? ?b] => destruct (N.ltb_spec a b); try lia
  end.

Lemma length_app v l rest : varint_wire v l -> bytes_ok rest -> length_ (l ++ rest) = Ok (blen l, v).
Proof.
  intros H Hr. pose proof (varint_wire_ok _ _ H) as Hl.
  rewrite length_eq by (apply bytes_ok_app; split; auto).
  apply varint_wire_cases in H.
  destruct H as [(b0 & -> & ?)|[(b0 & b1 & -> & ?)|[(b0 & b1 & b2 & -> & ?)|(b0 & b1 & b2 & b3 & -> & ?)]]];
    cbn [app length_cases]; ltbs; f_equal; f_equal; lia.
Qed.

Lemma length_inv b n v : bytes_ok b -> length_ b = Ok (n, v) ->
  exists l rest, b = l ++ rest /\ n = blen l /\ varint_wire v l.
Proof.
  intros Hb. rewrite length_eq by exact Hb. unfold length_cases.
  destruct b as [|b0 r0]; [discriminate|]. bok.
  destruct (N.ltb_spec b0 128) as [L0|L0].
  { intros E; injection E as <- <-. exists [b0], r0. repeat split; cbn; auto; lia. }
  destruct r0 as [|b1 r1]; [discriminate|]. bok.
  destruct (N.ltb_spec b1 128) as [L1|L1].
  { intros E; injection E as <- <-. exists [b0; b1], r1. repeat split; cbn; auto; lia. }
  destruct r1 as [|b2 r2]; [discriminate|]. bok.
  destruct (N.ltb_spec b2 128) as [L2|L2].
  { intros E; injection E as <- <-. exists [b0; b1; b2], r2. repeat split; cbn; auto; lia. }
  destruct r2 as [|b3 r3]; [discriminate|]. bok.
  destruct (N.ltb_spec b3 128) as [L3|L3]; [|discriminate].
  intros E; injection E as <- <-. exists [b0; b1; b2; b3], r3. repeat split; cbn; auto; lia.
Qed.

(** The three ways fn length can end. *)
Definition all_cont (l : bytes) : Prop := Forall (fun b => 128 <= b) l.
Lemma length_total b : bytes_ok b ->
  (exists l rest v, b = l ++ rest /\ varint_wire v l /\ length_ b = Ok (blen l, v))
  \/ (blen b < 4 /\ all_cont b /\ length_ b = Err (InsufficientBytes 1))
  \/ (exists l rest, b = l ++ rest /\ blen l = 4 /\ all_cont l
        /\ length_ b = Err MalformedRemainingLength).
Proof.
  intros Hb. pose proof (length_eq b Hb) as E.
  destruct (length_ b) as [[n v]|e| |] eqn:L.
  - left. destruct (length_inv b n v Hb L) as (l & rest & -> & -> & H).
    exists l, rest, v. auto.
  - right. unfold length_cases in E.
    destruct b as [|b0 r0]; [left; injection E as ->; split; [reflexivity|split; [constructor|reflexivity]]|].
    destruct (N.ltb_spec b0 128) as [L0|L0]; [discriminate|].
    destruct r0 as [|b1 r1];
      [left; injection E as ->; split; [unfold blen; cbn [length]; lia|split; [repeat constructor; auto|reflexivity]]|].
    destruct (N.ltb_spec b1 128) as [L1|L1]; [discriminate|].
    destruct r1 as [|b2 r2];
      [left; injection E as ->; split; [unfold blen; cbn [length]; lia|split; [repeat constructor; auto|reflexivity]]|].
    destruct (N.ltb_spec b2 128) as [L2|L2]; [discriminate|].
    destruct r2 as [|b3 r3];
      [left; injection E as ->; split; [unfold blen; cbn [length]; lia|split; [repeat constructor; auto|reflexivity]]|].
    destruct (N.ltb_spec b3 128) as [L3|L3]; [discriminate|].
    right. injection E as ->. exists [b0; b1; b2; b3], r3.
    repeat split; repeat constructor; auto.
  - exfalso. unfold length_cases in E.
    repeat match type of E with
    | _ = match ?l with [] => _ | _ :: _ => _ end => destruct l; try discriminate
    | _ = if ?c then _ else _ => destruct c; try discriminate
    end.
  - exfalso. unfold length_cases in E.
    repeat match type of E with
    | _ = match ?l with [] => _ | _ :: _ => _ end => destruct l; try discriminate
    | _ = if ?c then _ else _ => destruct c; try discriminate
    end.
Qed.

(** Spelling is unique given the stream. *)
Lemma varint_prefix_unique v1 v2 l1 l2 r1 r2 :
  varint_wire v1 l1 -> varint_wire v2 l2 -> bytes_ok r1 -> bytes_ok r2 ->
  l1 ++ r1 = l2 ++ r2 -> v1 = v2 /\ l1 = l2 /\ r1 = r2.
Proof.
  intros H1 H2 R1 R2 E.
  pose proof (length_app _ _ r1 H1 R1) as A1.
  pose proof (length_app _ _ r2 H2 R2) as A2.
  rewrite E, A2 in A1. injection A1 as Hlen ->.
  assert (l1 = l2) as ->.
  { apply (f_equal (firstn (N.to_nat (blen l1)))) in E.
    rewrite firstn_blen_app in E. rewrite <- Hlen, firstn_blen_app in E. exact E. }
  apply app_inv_head in E. auto.
Qed.

(** ---------- Encoding ---------- *)

Lemma lor_128 n : n < 128 -> N.lor n 128 = 128 + n.
Proof.
  intros H. apply N.eqb_eq.
  assert (H' : (if n <? 128 then N.lor n 128 =? 128 + n else true) = true).
  { apply (byte_sweep (fun n => if n <? 128 then N.lor n 128 =? 128 + n else true));
      [vm_compute; reflexivity|lia]. }
  destruct (N.ltb_spec n 128); [exact H'|lia].
Qed.

Lemma varint_len n : blen (varint n) = len_len n.
Proof.
  unfold varint, len_len.
  destruct (N.ltb_spec n 128); destruct (N.ltb_spec n 16384); destruct (N.ltb_spec n 2097152);
  destruct (N.leb_spec 2097152 n); destruct (N.leb_spec 16384 n); destruct (N.leb_spec 128 n);
    try lia; reflexivity.
Qed.

Lemma varint_is_wire n : n <= max_varint -> varint_wire n (varint n).
Proof.
  unfold max_varint; intros H. unfold varint, varint_wire.
  destruct (N.ltb_spec n 128); [|destruct (N.ltb_spec n 16384); [|destruct (N.ltb_spec n 2097152)]];
    cbn [length varint_shape varint_value]; repeat split; try lia.
Qed.

Lemma varint_byte_ok n : n <= max_varint -> bytes_ok (varint n).
Proof. intros H. apply (varint_wire_ok n). apply varint_is_wire. exact H. Qed.

Lemma write_rl_loop_eq n : n <= max_varint -> forall buf,
  write_rl_loop 10 n 0 buf = (Ok (blen (varint n)), buf ++ varint n).
Proof.
  unfold max_varint; intros Hn buf. rewrite varint_len.
  unfold varint, len_len, write_rl_loop, wbind, put_u8, put_slice, wret.
  destruct (N.ltb_spec n 128) as [A|A].
  { assert (n / 128 = 0) as -> by lia. assert (n mod 128 = n) as -> by lia.
    change (0 <? 0) with false. change (0 =? 0) with true. cbv iota.
    destruct (N.leb_spec 2097152 n); destruct (N.leb_spec 16384 n); destruct (N.leb_spec 128 n); try lia.
    reflexivity. }
  rewrite (proj2 (N.ltb_lt 0 (n / 128))) by lia.
  rewrite (proj2 (N.eqb_neq (n / 128) 0)) by lia.
  rewrite (lor_128 (n mod 128)) by lia.
  destruct (N.ltb_spec n 16384) as [B|B].
  { assert (n / 128 / 128 = 0) as -> by lia.
    assert ((n / 128) mod 128 = n / 128) as -> by lia.
    change (0 <? 0) with false. change (0 =? 0) with true. cbv iota.
    rewrite <- app_assoc.
    destruct (N.leb_spec 2097152 n); destruct (N.leb_spec 16384 n); destruct (N.leb_spec 128 n); try lia.
    reflexivity. }
  rewrite (proj2 (N.ltb_lt 0 (n / 128 / 128))) by lia.
  rewrite (proj2 (N.eqb_neq (n / 128 / 128) 0)) by lia.
  rewrite (lor_128 ((n / 128) mod 128)) by lia.
  destruct (N.ltb_spec n 2097152) as [C|C].
  { assert (n / 128 / 128 / 128 = 0) as -> by lia.
    assert ((n / 128 / 128) mod 128 = n / 16384) as -> by lia.
    change (0 <? 0) with false. change (0 =? 0) with true. cbv iota.
    rewrite <- !app_assoc.
    destruct (N.leb_spec 2097152 n); destruct (N.leb_spec 16384 n); destruct (N.leb_spec 128 n); try lia.
    reflexivity. }
  rewrite (proj2 (N.ltb_lt 0 (n / 128 / 128 / 128))) by lia.
  rewrite (proj2 (N.eqb_neq (n / 128 / 128 / 128) 0)) by lia.
  rewrite (lor_128 ((n / 128 / 128) mod 128)) by lia.
  assert (n / 128 / 128 / 128 / 128 = 0) as -> by lia.
  assert ((n / 128 / 128 / 128) mod 128 = n / 2097152) as -> by lia.
  assert ((n / 128 / 128) mod 128 = (n / 16384) mod 128) as -> by lia.
  change (0 <? 0) with false. change (0 =? 0) with true. cbv iota.
  rewrite <- !app_assoc.
  destruct (N.leb_spec 2097152 n); destruct (N.leb_spec 16384 n); destruct (N.leb_spec 128 n); try lia.
  reflexivity.
Qed.

Lemma write_remaining_length_eq n buf :
  write_remaining_length n buf =
  if n <=? max_varint then (Ok (blen (varint n)), buf ++ varint n) else (Err PayloadTooLong, buf).
Proof.
  unfold write_remaining_length, max_varint.
  destruct (N.ltb_spec 268435455 n); destruct (N.leb_spec n 268435455); try lia; [reflexivity|].
  apply write_rl_loop_eq. exact H0.
Qed.
