(** C60: reading takes a number of steps linear in the number of bytes taken from the buffer. *)
From Verif Require Import Types MLib MSubAck Model MCost Driver Spec Wire Samples PBase PVarint PFrame TFraming PCost.

(** What is counted is Packet::read: dropping the count leaves its outcome and the stream. *)
Theorem C60_same_outcome ft s max : snd (c_Packet_read ft s max) = Packet_read ft s max.
Proof. apply c_Packet_read_same. Qed.

(** Five steps for every byte taken from the buffer and 27 more: however long the buffer is, whatever
    it holds, and whether or not a packet comes out.  A call that takes nothing stops after nine. *)
Theorem C60_linear ft s max steps r rest :
  c_Packet_read ft s max = (steps, (r, rest)) ->
  blen rest <= blen s /\
  steps <= 5 * (blen s - blen rest) + 27 /\
  (rest = s -> steps <= 9).
Proof.
  intros E. pose proof (Packet_read_steps ft s max) as H. rewrite E in H. destruct H as [H1 H2].
  split; [exact H1|]. split; [exact H2|]. intros ->. unfold c_Packet_read in E.
  pose proof (check_nine s max) as H. pose proof (c_check_same s max) as S.
  destruct (c_check s max) as [n [h|e| |]]; cbn [fst snd] in *;
    try (injection E as <- _; exact H). symmetry in S. apply check_frame in S. unfold op in E.
  unfold split_to in E. destruct (N.leb_spec (frame_length h) (blen s)) as [L|L]; [|lia]. exfalso.
  apply (f_equal (fun x => blen (snd (snd x)))) in E. cbn [snd] in E.
  unfold blen in *. rewrite skipn_length in E. lia.
Qed.

(** The calls of a reader that empties its buffer: one of them for every packet and one more. *)
Lemma drain_steps ft max k s ps e rest : c_drains ft max k s ps e rest ->
  blen rest + 2 * N.of_nat (length ps) <= blen s /\
  k <= 5 * (blen s - blen rest) + 27 * (N.of_nat (length ps) + 1).
Proof.
  induction 1 as [n s e rest E|n m s p s' ps e rest E _ [IH1 IH2]].
  - apply C60_linear in E. cbn [length]. lia.
  - assert (blen s' + 2 <= blen s) as G.
    { pose proof (C60_same_outcome ft s max) as S. rewrite E in S. cbn [snd] in S. symmetry in S.
      unfold Packet_read in S. destruct (check s max) as [h|?| |] eqn:C; try discriminate.
      pose proof (check_frame _ _ _ C) as [T1 T2]. unfold split_to in S.
      destruct (N.leb_spec (frame_length h) (blen s)) as [L|L]; [|lia].
      apply (f_equal (fun x => blen (snd x))) in S. cbn [snd] in S. unfold blen in *. rewrite skipn_length in S. lia. }
    apply C60_linear in E. cbn [length]. lia.
Qed.
Lemma drains_counted ft max s ps e rest : drains ft max s ps e rest <-> exists k, c_drains ft max k s ps e rest.
Proof.
  split.
  - induction 1 as [s e rest E|s p s' ps e rest E _ [k IH]];
      rewrite <- C60_same_outcome in E; destruct (c_Packet_read ft s max) as [n x] eqn:C; cbn [snd] in E; subst x.
    + exists n. apply c_drains_stop. exact C.
    + exists (n + k). eapply c_drains_packet; [exact C|exact IH].
  - intros [k H]. induction H as [n s e rest E|n m s p s' ps e rest E _ IH];
      apply (f_equal snd) in E; rewrite C60_same_outcome in E; cbn [snd] in E.
    + apply drains_stop. exact E.
    + eapply drains_packet; [exact E|exact IH].
Qed.

(** The receive loop, fed in any pieces: its run is the counted run with a number of steps linear in
    the bytes received and the number of pieces.  Nothing is quadratic: the steps spent on a frame that
    is still incomplete do not grow with what has already arrived of it. *)
Theorem C60_receive_loop ft max buf chunks ps e rest :
  receives ft max buf chunks ps e rest ->
  exists steps, c_receives ft max steps buf chunks ps e rest.
Proof.
  induction 1 as [buf ps n rest D|buf c cs ps n buf' ps' e rest D _ [m IH]|buf cs ps e buf' D H];
    apply drains_counted in D; destruct D as [k D].
  - exists k. apply c_receives_end. exact D.
  - exists (k + m). eapply c_receives_chunk; [exact D|exact IH].
  - exists k. apply c_receives_fail; assumption.
Qed.
Lemma receive_steps ft max k buf cs ps e rest : c_receives ft max k buf cs ps e rest ->
  blen rest + 2 * N.of_nat (length ps) <= blen buf + blen (concat cs) /\
  k <= 5 * (blen buf + blen (concat cs) - blen rest) + 27 * (N.of_nat (length ps) + N.of_nat (length cs) + 1).
Proof.
  induction 1 as [k buf ps n rest D|k m buf c cs ps n buf' ps' e rest D _ [IH1 IH2]|k buf cs ps e buf' D H];
    apply drain_steps in D; destruct D as [D1 D2].
  - cbn [concat length]. change (blen []) with 0. lia.
  - cbn [concat length]. rewrite blen_app in *. rewrite app_length. lia.
  - rewrite blen_app. lia.
Qed.
Theorem C60_receive_loop_linear ft max steps buf chunks ps e rest :
  c_receives ft max steps buf chunks ps e rest ->
  receives ft max buf chunks ps e rest /\
  2 * steps <= 37 * (blen buf + blen (concat chunks)) + 54 * (N.of_nat (length chunks) + 1).
Proof.
  intros H. split; [|apply receive_steps in H; lia].
  induction H as [k buf ps n rest D|k m buf c cs ps n buf' ps' e rest D _ IH|k buf cs ps e buf' D H];
    (assert (drains ft max buf ps _ _) as D' by (apply drains_counted; eauto)).
  - apply receives_end. exact D'.
  - eapply receives_chunk; [exact D'|exact IH].
  - apply receives_fail; assumption.
Qed.

(** Five is needed: a SUBACK with [k] codes takes five steps for each of them. *)
Lemma suback_loop_steps k : forall fuel acc, (k < fuel)%nat ->
  c_SubAck_read_loop fuel acc (repeat 0 k) = (5 * N.of_nat k + 1, Ok (acc ++ repeat (SRC_Success AtMostOnce) k)).
Proof.
  induction k as [|k IH]; intros [|fuel] acc H; try lia; cbn [c_SubAck_read_loop repeat].
  - rewrite app_nil_r. reflexivity.
  - unfold has_remaining, push, c_read_u8, op, cbind. cbn [fst snd read_u8 get_u8].
    change (SubAck_reason 0) with (Ok (SRC_Success AtMostOnce)). cbn [fst snd].
    rewrite IH by lia. cbn [fst snd]. rewrite <- app_assoc. cbn [app]. f_equal. lia.
Qed.
Lemma suback_steps ft h b cs : advance b (fh_fixed_header_len h) = Ok ([0; 1; 0] ++ repeat 0 (S cs)) ->
  c_SubAck_read ft h b = (5 * N.of_nat (S cs) + 6, Ok (mkSubAck 1 (repeat (SRC_Success AtMostOnce) (S cs)) None)).
Proof.
  intros E. set (t := repeat 0 (S cs)) in *.
  assert (H1 : c_read_u16 ([0; 1; 0] ++ t) = (2, Ok (1, 0 :: t))).
  { unfold c_read_u16, read_u16, op, cbind. cbn [fst snd]. rewrite blen_app. change (blen [0; 1; 0]) with 3.
    destruct (N.ltb_spec (3 + blen t) 2) as [L|_]; [lia|]. reflexivity. }
  assert (H2 : c_SubAckProperties_read ft (0 :: t) = (2, Ok (None, t))).
  { unfold c_SubAckProperties_read, c_props_read. change (c_length_ (0 :: t)) with (1, Ok (1, 0)). unfold cbind. cbn [fst snd].
    unfold c_advance, op, advance. rewrite blen_cons. destruct (N.leb_spec 1 (1 + blen t)) as [_|L]; [|lia]. reflexivity. }
  unfold c_SubAck_read, c_advance. rewrite E. unfold op, cbind. cbn [fst snd]. rewrite H1. cbn [fst snd]. rewrite H2. cbn [fst snd].
  destruct t as [|x t'] eqn:Et; [discriminate|]. rewrite <- Et. unfold t.
  rewrite suback_loop_steps by (rewrite repeat_length; lia). cbn [fst snd COk app]. f_equal. lia.
Qed.
Theorem C60_five_needed ft k : 1 <= k -> k <= 268435452 ->
  exists s steps, blen s <= k + 8 /\
    c_Packet_read ft s None
    = (steps, (Ok (P_SubAck (mkSubAck 1 (repeat (SRC_Success AtMostOnce) (N.to_nat k)) None)), [])) /\
    5 * k <= steps.
Proof.
  intros K1 K2. assert (Hk : exists c, N.to_nat k = S c) by (exists (N.to_nat (k - 1)); lia). destruct Hk as [c Hk]. rewrite Hk.
  set (cs := repeat 0 (S c)). assert (Hc : blen cs = k) by (unfold cs, blen; rewrite repeat_length; lia).
  set (body := [0; 1; 0] ++ cs). assert (Hb : blen body = k + 3) by (unfold body; rewrite blen_app, Hc; change (blen [0; 1; 0]) with 3; lia).
  assert (Ob : bytes_ok body) by (unfold body, cs; apply Forall_app; split; [repeat constructor|apply repeat_ok]).
  pose proof (varint_is_wire (k + 3) ltac:(unfold max_varint; lia)) as V.
  assert (Hv : 1 <= blen (varint (k + 3)) <= 4) by (apply varint_wire_bound in V; lia).
  pose proof (check_header 144 (varint (k + 3)) body (k + 3) None V Ob) as C. rewrite Hb in C.
  cbn [exceeds] in C. rewrite N.ltb_irrefl in C.
  set (s := 144 :: varint (k + 3) ++ body) in *. set (h := mkFixedHeader 144 (blen (varint (k + 3)) + 1) (k + 3)) in *.
  assert (Ls : blen s = blen (varint (k + 3)) + 1 + (k + 3)) by (unfold s; rewrite blen_cons, blen_app, Hb; lia).
  assert (A : advance s (fh_fixed_header_len h) = Ok body).
  { unfold advance. cbn [h fh_fixed_header_len]. destruct (N.leb_spec (blen (varint (k + 3)) + 1) (blen s)) as [_|L]; [|lia].
    f_equal. unfold s. rewrite N.add_1_r, N2Nat.inj_succ. cbn [skipn]. unfold blen. rewrite Nat2N.id.
    rewrite skipn_app, skipn_all, Nat.sub_diag. reflexivity. }
  pose proof (suback_steps ft h s c A) as R.
  assert (F : c_Packet_read_frame ft h s = (1 + (5 * N.of_nat (S c) + 6 + 0), Ok (P_SubAck (mkSubAck 1 (repeat (SRC_Success AtMostOnce) (S c)) None)))).
  { unfold c_Packet_read_frame. change (packet_type h) with (Ok PT_SubAck). unfold op. unfold cbind at 1. cbn [fst snd].
    cbn [h fh_remaining_len]. destruct (N.eqb_spec (k + 3) 0) as [L|_]; [lia|]. cbn [andb]. unfold cbind. rewrite R. reflexivity. }
  rewrite <- c_check_same in C. destruct (c_check s None) as [n x] eqn:Cs. cbn [snd] in C. subst x.
  exists s, (n + 1 + (1 + (5 * N.of_nat (S c) + 6 + 0))). split; [lia|].
  unfold c_Packet_read. rewrite Cs. unfold op, split_to.
  change (frame_length h) with (blen (varint (k + 3)) + 1 + (k + 3)). rewrite <- Ls. rewrite N.leb_refl.
  unfold blen. rewrite Nat2N.id, firstn_all, skipn_all. rewrite F. cbn [fst snd]. split; [reflexivity|]. lia.
Qed.

(** One PUBLISH, whole, and then in three pieces. *)
Example C60_instance : c_Packet_read F_default [48; 7; 0; 3; 97; 47; 98; 0; 120] None
  = (21, (Ok (P_Publish (mkPublish false AtMostOnce false [97; 47; 98] 0 [120] None)), [])).
Proof. vm_compute. reflexivity. Qed.
Example C60_instance_pieces : c_receives F_default None 33 [] [[48]; [7; 0; 3; 97]; [47; 98; 0; 120]]
  [P_Publish (mkPublish false AtMostOnce false [97; 47; 98] 0 [120] None)] (InsufficientBytes 2) [].
Proof.
  apply (c_receives_chunk _ _ 2 31 [] [48] _ [] 2 []); [apply c_drains_stop; vm_compute; reflexivity|].
  apply (c_receives_chunk _ _ 2 29 [48] _ _ [] 1 [48]); [apply c_drains_stop; vm_compute; reflexivity|].
  apply (c_receives_chunk _ _ 6 23 _ _ _ [] 4 [48; 7; 0; 3; 97]); [apply c_drains_stop; vm_compute; reflexivity|].
  apply c_receives_end. apply (c_drains_packet _ _ 21 2 _ _ []); [vm_compute; reflexivity|].
  apply c_drains_stop. vm_compute. reflexivity.
Qed.
