(** from_utf8 of the model (Unicode Table 3-7) decides utf8 of the specification
    (encodings of scalar values, Table 3-6). *)
From Verif Require Import Types MLib Spec Wire PBase.
Ltac Zify.zify_post_hook ::= Z.div_mod_to_equations.

Ltac cmp :=
  unfold in_range, cont_byte;
  repeat match goal with
  | |- context [?a <? ?b] => destruct (N.ltb_spec a b); try lia
  | |- context [?a <=? ?b] => destruct (N.leb_spec a b); try lia
  | |- context [?a =? ?b] => destruct (N.eqb_spec a b); try lia
  end.

Lemma leb_t a b : a <= b -> (a <=? b) = true. Proof. intros; apply N.leb_le; exact H. Qed.
Lemma leb_f a b : b < a -> (a <=? b) = false. Proof. intros; apply N.leb_gt; exact H. Qed.
Lemma in_range_t lo hi b : lo <= b <= hi -> in_range lo hi b = true.
Proof. intros []. unfold in_range. rewrite !leb_t by assumption. reflexivity. Qed.
Lemma in_range_lo lo hi b : b < lo -> in_range lo hi b = false.
Proof. intros. unfold in_range. rewrite leb_f by assumption. reflexivity. Qed.
Lemma in_range_hi lo hi b : hi < b -> in_range lo hi b = false.
Proof. intros. unfold in_range. rewrite (leb_f b) by assumption. apply andb_false_r. Qed.
Lemma cont_t b : 128 <= b <= 191 -> cont_byte b = true.
Proof. apply in_range_t. Qed.

Lemma dec2 a b l : 194 <= a <= 223 -> 128 <= b <= 191 -> from_utf8 (a :: b :: l) = from_utf8 l.
Proof.
  intros. cbn [from_utf8]. destruct (N.ltb_spec a 128); [lia|].
  rewrite in_range_t, cont_t by lia. reflexivity.
Qed.
Lemma dec3 a b c l : 224 <= a <= 239 -> 128 <= b <= 191 -> 128 <= c <= 191 ->
  (a = 224 -> 160 <= b) -> (a = 237 -> b <= 159) -> from_utf8 (a :: b :: c :: l) = from_utf8 l.
Proof.
  intros. cbn [from_utf8]. destruct (N.ltb_spec a 128); [lia|].
  rewrite in_range_hi, in_range_t by lia. rewrite (cont_t b), (cont_t c) by lia.
  destruct (N.eqb_spec a 224); [rewrite in_range_t by lia; reflexivity|].
  destruct (N.eqb_spec a 237); [rewrite in_range_t by lia; reflexivity|]. reflexivity.
Qed.
Lemma dec4 a b c d l : 240 <= a <= 244 -> 128 <= b <= 191 -> 128 <= c <= 191 -> 128 <= d <= 191 ->
  (a = 240 -> 144 <= b) -> (a = 244 -> b <= 143) -> from_utf8 (a :: b :: c :: d :: l) = from_utf8 l.
Proof.
  intros. cbn [from_utf8]. destruct (N.ltb_spec a 128); [lia|].
  rewrite in_range_hi, in_range_hi, in_range_t by lia. rewrite (cont_t b), (cont_t c), (cont_t d) by lia.
  destruct (N.eqb_spec a 240); [rewrite in_range_t by lia; reflexivity|].
  destruct (N.eqb_spec a 244); [rewrite in_range_t by lia; reflexivity|]. reflexivity.
Qed.

Lemma from_utf8_encode c l : scalar c -> from_utf8 (utf8_encode c ++ l) = from_utf8 l.
Proof.
  unfold scalar, utf8_encode. intros Hc.
  destruct (N.ltb_spec c 128) as [A|A].
  { cbn [app from_utf8]. destruct (N.ltb_spec c 128); [reflexivity|lia]. }
  destruct (N.ltb_spec c 2048) as [B|B].
  { cbn [app]. apply dec2; lia. }
  destruct (N.ltb_spec c 65536) as [C|C].
  { cbn [app]. apply dec3; lia. }
  cbn [app]. apply dec4; lia.
Qed.

Lemma from_utf8_complete l : utf8 l -> from_utf8 l = true.
Proof.
  intros (cs & Hcs & ->). induction Hcs as [|c cs Hc Hcs IH]; [reflexivity|].
  cbn [flat_map]. rewrite from_utf8_encode by exact Hc. exact IH.
Qed.

Lemma utf8_cons c l : scalar c -> utf8 l -> utf8 (utf8_encode c ++ l).
Proof.
  intros Hc (cs & Hcs & ->). exists (c :: cs). split; [constructor; auto|reflexivity].
Qed.

Lemma enc2 a b : 194 <= a <= 223 -> 128 <= b <= 191 ->
  exists c, scalar c /\ utf8_encode c = [a; b].
Proof.
  intros. exists ((a - 192) * 64 + (b - 128)). split; [unfold scalar; lia|].
  unfold utf8_encode. cmp.
  repeat (apply f_equal2; [lia|]). reflexivity.
Qed.
Lemma enc3 a b c : 224 <= a <= 239 -> 128 <= b <= 191 -> 128 <= c <= 191 ->
  (a = 224 -> 160 <= b) -> (a = 237 -> b <= 159) ->
  exists x, scalar x /\ utf8_encode x = [a; b; c].
Proof.
  intros. exists ((a - 224) * 4096 + (b - 128) * 64 + (c - 128)). split; [unfold scalar; lia|].
  unfold utf8_encode. cmp.
  repeat (apply f_equal2; [lia|]). reflexivity.
Qed.
Lemma enc4 a b c d : 240 <= a <= 244 -> 128 <= b <= 191 -> 128 <= c <= 191 -> 128 <= d <= 191 ->
  (a = 240 -> 144 <= b) -> (a = 244 -> b <= 143) ->
  exists x, scalar x /\ utf8_encode x = [a; b; c; d].
Proof.
  intros. exists ((a - 240) * 262144 + (b - 128) * 4096 + (c - 128) * 64 + (d - 128)).
  split; [unfold scalar; lia|].
  unfold utf8_encode. cmp.
  repeat (apply f_equal2; [lia|]). reflexivity.
Qed.

Lemma from_utf8_sound n : forall l, (length l <= n)%nat -> from_utf8 l = true -> utf8 l.
Proof.
  induction n as [|n IH]; intros l Hn H.
  { destruct l; [|cbn in Hn; lia]. exists []. split; [constructor|reflexivity]. }
  destruct l as [|a l1]; [exists []; split; [constructor|reflexivity]|].
  cbn [from_utf8] in H. cbn [length] in Hn.
  destruct (N.ltb_spec a 128) as [A|A].
  { assert (E : [a] = utf8_encode a) by (unfold utf8_encode; cmp; reflexivity).
    change (a :: l1) with ([a] ++ l1). rewrite E. apply utf8_cons; [unfold scalar; lia|].
    apply IH; [lia|exact H]. }
  unfold in_range, cont_byte in H.
  destruct ((194 <=? a) && (a <=? 223)) eqn:B.
  { destruct l1 as [|b l2]; [discriminate|]. apply andb_prop in H. destruct H as [H1 H2].
    destruct (enc2 a b) as (c & Hc & E); [lia|lia|].
    change (a :: b :: l2) with ([a; b] ++ l2). rewrite <- E. apply utf8_cons; [exact Hc|].
    apply IH; [cbn [length] in Hn; lia|exact H2]. }
  destruct ((224 <=? a) && (a <=? 239)) eqn:C.
  { destruct l1 as [|b [|c l3]]; [discriminate|discriminate|].
    apply andb_prop in H. destruct H as [H1 H2]. apply andb_prop in H1. destruct H1 as [H1 H3].
    destruct (enc3 a b c) as (x & Hx & E); [lia| | lia | | |].
    1,2,3: destruct (N.eqb_spec a 224); [|destruct (N.eqb_spec a 237)]; lia.
    change (a :: b :: c :: l3) with ([a; b; c] ++ l3). rewrite <- E. apply utf8_cons; [exact Hx|].
    apply IH; [cbn [length] in Hn; lia|exact H2]. }
  destruct ((240 <=? a) && (a <=? 244)) eqn:D; [|discriminate].
  destruct l1 as [|b [|c [|d l4]]]; [discriminate|discriminate|discriminate|].
  apply andb_prop in H. destruct H as [H1 H2]. apply andb_prop in H1. destruct H1 as [H1 H4].
  apply andb_prop in H1. destruct H1 as [H1 H3].
  destruct (enc4 a b c d) as (x & Hx & E); [lia| | lia | lia | | |].
  1,2,3: destruct (N.eqb_spec a 240); [|destruct (N.eqb_spec a 244)]; lia.
  change (a :: b :: c :: d :: l4) with ([a; b; c; d] ++ l4). rewrite <- E. apply utf8_cons; [exact Hx|].
  apply IH; [cbn [length] in Hn; lia|exact H2].
Qed.

Lemma from_utf8_iff l : from_utf8 l = true <-> utf8 l.
Proof.
  split; [apply (from_utf8_sound (length l)); auto|apply from_utf8_complete].
Qed.
