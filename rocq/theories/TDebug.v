(** Builds with overflow checks (C65). *)
From Verif Require Import Types Model MUsize MDebug Spec Wire PBase PVarint PRead PItems PProps PFrame PWire PWrite PTotal PRound PBack PDebug.
From Verif Require Import TFraming TWrite TRound TBack TStream TUsize Samples.
Ltac Zify.zify_post_hook ::= Z.div_mod_to_equations.

(** ** C65 *)

(** [Packet_write_d M], [check_d M], ... are the functions compiled with overflow checks, as in debug
    builds, on a machine with [M] values of usize (MDebug.v): a sum of M or more panics. *)

Lemma Disconnect_len_below M d : 1024 <= M -> body_size (P_Disconnect d) < M -> Disconnect_len d < M.
Proof.
  intros HM. unfold body_size. cbn [body_fields]. rewrite Disconnect_len_cases.
  set (items := opt_items DisconnectProperties_items (di_properties d)).
  destruct (disconnect_code (di_reason_code d) =? 0), (di_properties d) as [q|]; cbn [is_none andb];
    try (intros _; lia);
    (destruct (nonempty items) eqn:E;
      [cbn [negb andb]; rewrite fsize_app; intros H; exact H
      |intros _; assert (items = []) as -> by (destruct items; [reflexivity|discriminate E]);
       change (blen (fields_bytes (section_fields []))) with 1; lia]).
Qed.
Lemma Disconnect_len_above M d : 1024 <= M -> M <= body_size (P_Disconnect d) -> M <= Disconnect_len d.
Proof.
  intros HM. unfold body_size. cbn [body_fields]. rewrite Disconnect_len_cases.
  destruct (di_properties d) as [q|]; cbn [opt_items].
  - cbn [is_none]. rewrite andb_false_r. destruct (DisconnectProperties_items q) as [|i l].
    + cbn [nonempty negb]. rewrite andb_true_r. destruct (_ =? 0); [change (blen (fields_bytes [])) with 0; intros H; exfalso; lia|].
      intros H. exfalso. revert H. rewrite ?fsize_app. change (blen (fields_bytes [FByte (disconnect_code (di_reason_code d))])) with 1. change (blen (fields_bytes (section_fields []))) with 1. cbn. lia.
    + cbn [nonempty negb]. rewrite andb_false_r. rewrite fsize_app. intros H. exact H.
  - cbn [nonempty negb]. rewrite andb_true_r. intros H. exfalso. revert H.
    destruct (_ =? 0); [change (blen (fields_bytes [])) with 0; intros H; exfalso; lia|].
    rewrite ?fsize_app. change (blen (fields_bytes [FByte (disconnect_code (di_reason_code d))])) with 1. change (blen (fields_bytes (section_fields []))) with 1. cbn. lia.
Qed.

(** A packet whose body fits in usize is written as without overflow; one that does not fit panics,
    with at most one byte added to the buffer, where Packet::write without overflow returns
    PayloadTooLong. *)
Theorem C65_writes_or_panics M p buf : 2 ^ 32 <= M ->
  (body_size p < M -> Packet_write_d M p buf = Packet_write p buf)
  /\ (M <= body_size p ->
      (exists t, Packet_write_d M p buf = (Panic, buf ++ t) /\ blen t <= 1)
      /\ fst (Packet_write p buf) = Err PayloadTooLong).
Proof.
  intros HM. assert (HM' : 1024 <= M) by (change (2 ^ 32) with 4294967296 in HM; lia).
  split; intros H; destruct p as [c w l|a|p|a| | |s|a|a|a|a|u|a|d]; cbn [Packet_write_d Packet_write]; try unfold body_size in H.
  - apply Connect_write_checked; [exact HM|]. cbn [body_fields] in H. rewrite <- Connect_len_eq in H. exact H.
  - apply ConnAck_write_checked; [exact HM|]. rewrite ConnAck_len_eq. exact H.
  - apply Publish_write_checked; [exact HM|]. rewrite Publish_len_eq. exact H.
  - apply PubAck_write_checked; [exact HM|]. rewrite PubAck_len_eq. exact H.
  - reflexivity.
  - reflexivity.
  - apply Subscribe_write_checked; [exact HM|]. rewrite Subscribe_len_eq. exact H.
  - apply SubAck_write_checked; [exact HM|]. rewrite SubAck_len_eq. exact H.
  - apply PubRec_write_checked; [exact HM|]. rewrite PubRec_len_eq. exact H.
  - apply PubRel_write_checked; [exact HM|]. rewrite PubRel_len_eq. exact H.
  - apply PubComp_write_checked; [exact HM|]. rewrite PubComp_len_eq. exact H.
  - apply Unsubscribe_write_checked; [exact HM|]. rewrite Unsubscribe_len_eq. exact H.
  - apply UnsubAck_write_checked; [exact HM|]. rewrite UnsubAck_len_eq. exact H.
  - apply Disconnect_write_checked; [exact HM|]. apply Disconnect_len_below; [exact HM'|exact H].
  - apply Connect_write_panics; [exact HM|]. cbn [body_fields] in H. rewrite <- Connect_len_eq in H. exact H.
  - apply ConnAck_write_panics; [exact HM|]. rewrite ConnAck_len_eq. exact H.
  - apply Publish_write_panics; [exact HM|]. rewrite Publish_len_eq. exact H.
  - apply PubAck_write_panics; [exact HM|]. rewrite PubAck_len_eq. exact H.
  - exfalso. change (M <= 0) in H. lia.
  - exfalso. change (M <= 0) in H. lia.
  - apply Subscribe_write_panics; [exact HM|]. rewrite Subscribe_len_eq. exact H.
  - apply SubAck_write_panics; [exact HM|]. rewrite SubAck_len_eq. exact H.
  - apply PubRec_write_panics; [exact HM|]. rewrite PubRec_len_eq. exact H.
  - apply PubRel_write_panics; [exact HM|]. rewrite PubRel_len_eq. exact H.
  - apply PubComp_write_panics; [exact HM|]. rewrite PubComp_len_eq. exact H.
  - apply Unsubscribe_write_panics; [exact HM|]. rewrite Unsubscribe_len_eq. exact H.
  - apply UnsubAck_write_panics; [exact HM|]. rewrite UnsubAck_len_eq. exact H.
  - apply Disconnect_write_panics; [exact HM|]. apply Disconnect_len_above; [exact HM'|exact H].
Qed.

(** So a write succeeds exactly when it does without overflow, and with the same bytes; DISCONNECT is
    no exception here (compare C54_disconnect). *)
Theorem C65_successful_writes M p buf n buf' : 2 ^ 32 <= M ->
  Packet_write_d M p buf = (Ok n, buf') <-> Packet_write p buf = (Ok n, buf').
Proof.
  intros HM. destruct (C65_writes_or_panics M p buf HM) as [H1 H2].
  destruct (N.lt_ge_cases (body_size p) M) as [L|L].
  - rewrite (H1 L). reflexivity.
  - destruct (H2 L) as [(t & E1 & _) E2]. rewrite E1. split; intros E; [discriminate E|].
    rewrite E in E2. discriminate E2.
Qed.

(** Every packet that was read is written without a panic. *)
Theorem C65_packets_read ft max s p rest M buf :
  bytes_ok s -> Packet_read ft s max = (Ok p, rest) -> 2 ^ 32 <= M ->
  Packet_write_d M p buf = Packet_write p buf.
Proof.
  intros Hs E HM. apply C65_writes_or_panics; [exact HM|].
  pose proof (C54_packets_read_are_small ft max s p rest M Hs E HM) as H.
  unfold encode, packet_fields in H. rewrite frame_size in H. unfold body_size. lia.
Qed.

Lemma sum_exact M r x : sum M r x -> r = if x <? M then Ok x else Panic.
Proof. intros [[-> H]|[-> H]]; destruct (N.ltb_spec x M); try reflexivity; lia. Qed.
(** The public size functions are exact or panic. *)
Theorem C65_sizes M : 2 ^ 32 <= M ->
  (forall a, ConnAck_size_d M a = if ConnAck_size a <? M then Ok (ConnAck_size a) else Panic)
  /\ (forall a, Publish_size_d M a = if Publish_size a <? M then Ok (Publish_size a) else Panic)
  /\ (forall a, PubAck_size_d M a = if PubAck_size a <? M then Ok (PubAck_size a) else Panic)
  /\ (forall a, PubRec_size_d M a = if PubRec_size a <? M then Ok (PubRec_size a) else Panic)
  /\ (forall a, PubRel_size_d M a = if PubRel_size a <? M then Ok (PubRel_size a) else Panic)
  /\ (forall a, PubComp_size_d M a = if PubComp_size a <? M then Ok (PubComp_size a) else Panic)
  /\ (forall a, Subscribe_size_d M a = if Subscribe_size a <? M then Ok (Subscribe_size a) else Panic)
  /\ (forall a, SubAck_size_d M a = if SubAck_size a <? M then Ok (SubAck_size a) else Panic)
  /\ (forall a, Unsubscribe_size_d M a = if Unsubscribe_size a <? M then Ok (Unsubscribe_size a) else Panic)
  /\ (forall a, UnsubAck_size_d M a = if UnsubAck_size a <? M then Ok (UnsubAck_size a) else Panic)
  /\ (forall a, Disconnect_size_d M a = if Disconnect_size a <? M then Ok (Disconnect_size a) else Panic).
Proof.
  intros HM. repeat match goal with |- _ /\ _ => split end; intros a; apply sum_exact.
  - apply ConnAck_size_sum; exact HM.
  - apply Publish_size_sum; exact HM.
  - apply PubAck_size_sum; exact HM.
  - apply PubRec_size_sum; exact HM.
  - apply PubRel_size_sum; exact HM.
  - apply PubComp_size_sum; exact HM.
  - apply Subscribe_size_sum; exact HM.
  - apply SubAck_size_sum; exact HM.
  - apply Unsubscribe_size_sum; exact HM.
  - apply UnsubAck_size_sum; exact HM.
  - apply Disconnect_size_sum; exact HM.
Qed.

(** Reading: the framing never overflows. *)
Lemma cadd_ok M x y : x + y < M -> cadd M (Ok x) (Ok y) = Ok (x + y).
Proof. intros H. unfold cadd. cbn [rbind]. apply N.ltb_lt in H. rewrite H. reflexivity. Qed.
Lemma length_loop_checked M stream : 2 ^ 32 <= M -> bytes_ok stream ->
  forall len ll shift, shift <= 21 -> len < 2 ^ shift -> ll <= shift ->
  length_loop_d M stream len ll shift = length_loop stream len ll shift.
Proof.
  change (2 ^ 32) with 4294967296. intros HM Hok. induction Hok as [|b s Hb Hs IH]; intros len ll shift H1 H2 H3; [reflexivity|].
  cbn [length_loop_d length_loop].
  assert (B : N.land b 127 < 128) by (change 127 with (N.ones 7); rewrite N.land_ones; apply N.mod_lt; discriminate).
  assert (P1 : 2 ^ shift <= 2097152) by (change 2097152 with (2 ^ 21); apply N.pow_le_mono_r; lia).
  assert (P : N.shiftl (N.land b 127) shift <= 127 * 2 ^ shift) by (rewrite N.shiftl_mul_pow2; apply N.mul_le_mono_r; lia).
  repeat (rewrite cadd_ok by lia; cbn [rbind]). destruct (N.land b 128 =? 0); [reflexivity|].
  destruct (N.ltb_spec 21 (shift + 7)); [reflexivity|].
  apply IH; [lia| |lia]. rewrite N.pow_add_r. change (2 ^ 7) with 128. lia.
Qed.
Lemma parse_checked M stream : 2 ^ 32 <= M -> bytes_ok stream ->
  parse_fixed_header_d M stream = parse_fixed_header stream
  /\ forall h, parse_fixed_header stream = Ok h -> frame_length_d M h = Ok (frame_length h).
Proof.
  intros HM Hok. unfold parse_fixed_header_d, parse_fixed_header. destruct (blen stream <? 2); [split; [reflexivity|discriminate]|].
  destruct stream as [|b s]; [split; [reflexivity|discriminate]|]. inversion Hok as [|? ? Hb Hs]; subst.
  rewrite (length_loop_checked M s HM Hs 0 0 0) by (vm_compute; congruence). unfold length_.
  destruct (length_loop s 0 0 0) as [[a c]|e| |] eqn:E; cbn [rbind]; try (split; [reflexivity|discriminate]).
  apply length_loop_bound in E; [|assumption|vm_compute; congruence..]. destruct E as [E1 E2].
  change (2 ^ 28) with 268435456 in E2. change (2 ^ 32) with 4294967296 in *.
  unfold FixedHeader_new_d, FixedHeader_new. rewrite cadd_ok by lia. cbn [rbind]. split; [reflexivity|].
  intros h E. injection E as <-. unfold frame_length_d, frame_length. cbn [fh_fixed_header_len fh_remaining_len]. apply cadd_ok. lia.
Qed.
Theorem C65_framing M ft stream max : 2 ^ 32 <= M -> bytes_ok stream ->
  check_d M stream max = check stream max /\ Packet_read_d M ft stream max = Packet_read ft stream max
  /\ (forall h, check stream max = Ok h -> frame_length_d M h = Ok (frame_length h)).
Proof.
  intros HM Hok. destruct (parse_checked M stream HM Hok) as [E H].
  assert (C : check_d M stream max = check stream max).
  { unfold check_d, check. rewrite E. destruct (parse_fixed_header stream) as [h|e| |]; try reflexivity. cbn [rbind].
    rewrite (H h eq_refl). reflexivity. }
  assert (F : forall h, check stream max = Ok h -> frame_length_d M h = Ok (frame_length h)).
  { intros h Eh. apply H. unfold check in Eh. destruct (parse_fixed_header stream) as [g|e| |]; try discriminate Eh. cbn [rbind] in Eh.
    destruct (match max with Some m => _ | None => _ end) as [u|e| |]; try discriminate Eh. cbn [rbind] in Eh.
    destruct (blen stream <? frame_length g); [discriminate Eh|]. congruence. }
  split; [exact C|]. split; [|exact F]. unfold Packet_read_d, Packet_read. rewrite C.
  destruct (check stream max) as [h|e| |] eqn:Eh; try reflexivity. rewrite (F h eq_refl). reflexivity.
Qed.

(** A header that the caller made is exact or panics. *)
Theorem C65_header_of_the_caller M byte1 ll rl :
  FixedHeader_new_d M byte1 ll rl = (if ll + 1 <? M then Ok (FixedHeader_new byte1 ll rl) else Panic)
  /\ (forall h, frame_length_d M h = if frame_length h <? M then Ok (frame_length h) else Panic).
Proof.
  split; [unfold FixedHeader_new_d, cadd; cbn [rbind]; destruct (ll + 1 <? M); reflexivity|].
  intros h. reflexivity.
Qed.
Example C65_header_instance : frame_length_d (2 ^ 32) (mkFixedHeader 48 2 (2 ^ 32 - 1)) = Panic
  /\ frame_length_d (2 ^ 32) (mkFixedHeader 48 2 (2 ^ 32 - 3)) = Ok (2 ^ 32 - 1).
Proof. split; vm_compute; reflexivity. Qed.

(** The samples are written; the DISCONNECT and the UNSUBSCRIBE that C54 writes or measures wrongly
    panic here. *)
Example C65_samples : Forall (fun p => body_size p < 2 ^ 32 /\ exists n, fst (Packet_write_d (2 ^ 32) p [9]) = Ok n) samples.
Proof. repeat constructor; try (vm_compute; reflexivity); eexists; vm_compute; reflexivity. Qed.
Example C65_huge_disconnect buf : fst (Packet_write_d (2 ^ 32) (P_Disconnect huge_disconnect) buf) = Panic.
Proof.
  cbn [Packet_write_d]. destruct (Disconnect_write_panics (2 ^ 32) (N.le_refl _) huge_disconnect buf) as [(t & -> & _) _]; [|reflexivity].
  assert (El : user_props_len huge_user_props = 4294967296).
  { unfold user_props_len, huge_user_props. rewrite user_props_len_repeat, blen_repeat, blen_nil, N2Nat.id. reflexivity. }
  unfold Disconnect_len, huge_disconnect. cbn [di_reason_code di_properties]. unfold DisconnectProperties_len.
  cbn [dp_session_expiry_interval dp_reason_string dp_user_properties dp_server_reference len_if_some len_str].
  rewrite El. vm_compute. discriminate.
Qed.
Example C65_huge_size : Unsubscribe_size_d (2 ^ 32) huge_unsubscribe = Panic.
Proof.
  destruct (C65_sizes (2 ^ 32) (N.le_refl _)) as (_ & _ & _ & _ & _ & _ & _ & _ & H & _). rewrite H.
  rewrite (proj1 C54_huge_size_refuted). reflexivity.
Qed.
