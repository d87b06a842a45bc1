(** Machine integers on the writing side (C54). *)
From Verif Require Import Types Model MUsize Spec Wire PBase PVarint PRead PItems PProps PFrame PWire PWrite PTotal PRound PBack PUsize.
From Verif Require Import TFraming TWrite TRound TBack TStream Samples.
Ltac Zify.zify_post_hook ::= Z.div_mod_to_equations.

(** ** C54 *)

(** [Packet_write_m add] is Packet::write with the addition [add] for usize (MUsize.v).  All that is
    assumed of it is that it is right when the sum is less than [M], the number of values of usize:
    what happens on overflow is left open (wrapping, saturating, ...). *)
Definition right_below (M : N) (add : N -> N -> N) : Prop := forall a b, a + b < M -> add a b = a + b.
Definition wrapping (M a b : N) : N := (a + b) mod M.
Definition saturating (M a b : N) : N := N.min (a + b) (M - 1).

Example C54_both_are_right_below M : 0 < M -> right_below M (wrapping M) /\ right_below M (saturating M).
Proof.
  intros HM. split; intros a b H; [apply N.mod_small; exact H|]. unfold saturating. lia.
Qed.

(** With the addition of unbounded integers it is the Packet::write of the other theorems. *)
Theorem C54_machine_is_model p : Packet_write_m N.add p = Packet_write p.
Proof. apply machine_is_model. Qed.

(** A packet whose encoding is shorter than the address space is written as if integers were
    unbounded, whatever the outcome. *)
Theorem C54_small_packets M add p buf :
  1024 <= M -> right_below M add -> blen (encode p) < M ->
  Packet_write_m add p buf = Packet_write p buf.
Proof. intros HM Ha H. apply (machine_write_same add M); assumption. Qed.

Lemma small_total p M : blen (encode p) < M ->
  1 + len_len (blen (fields_bytes (body_fields p))) + blen (fields_bytes (body_fields p)) < M.
Proof. unfold encode, packet_fields. rewrite frame_size, varint_len. intros H. exact H. Qed.
(** The same for the public size functions. *)
Theorem C54_small_sizes M add :
  1024 <= M -> right_below M add ->
  (forall a, blen (encode (P_ConnAck a)) < M -> ConnAck_size_m add a = ConnAck_size a)
  /\ (forall a, blen (encode (P_Publish a)) < M -> Publish_size_m add a = Publish_size a)
  /\ (forall a, blen (encode (P_PubAck a)) < M -> PubAck_size_m add a = PubAck_size a)
  /\ (forall a, blen (encode (P_PubRec a)) < M -> PubRec_size_m add a = PubRec_size a)
  /\ (forall a, blen (encode (P_PubRel a)) < M -> PubRel_size_m add a = PubRel_size a)
  /\ (forall a, blen (encode (P_PubComp a)) < M -> PubComp_size_m add a = PubComp_size a)
  /\ (forall a, blen (encode (P_Subscribe a)) < M -> Subscribe_size_m add a = Subscribe_size a)
  /\ (forall a, blen (encode (P_SubAck a)) < M -> SubAck_size_m add a = SubAck_size a)
  /\ (forall a, blen (encode (P_Unsubscribe a)) < M -> Unsubscribe_size_m add a = Unsubscribe_size a)
  /\ (forall a, blen (encode (P_UnsubAck a)) < M -> UnsubAck_size_m add a = UnsubAck_size a)
  /\ (forall a, blen (encode (P_Disconnect a)) < M -> Disconnect_size_m add a = Disconnect_size a).
Proof.
  intros HM Ha.
  repeat match goal with |- _ /\ _ => split end; intros a H; apply small_total in H.
  - apply (ConnAck_size_same add M); try assumption. rewrite <- ConnAck_len_eq in H. exact H.
  - apply (Publish_size_same add M); try assumption. rewrite <- Publish_len_eq in H. exact H.
  - apply (PubAck_size_same add M); try assumption. rewrite <- PubAck_len_eq in H. exact H.
  - apply (PubRec_size_same add M); try assumption. rewrite <- PubRec_len_eq in H. exact H.
  - apply (PubRel_size_same add M); try assumption. rewrite <- PubRel_len_eq in H. exact H.
  - apply (PubComp_size_same add M); try assumption. rewrite <- PubComp_len_eq in H. exact H.
  - apply (Subscribe_size_same add M); try assumption. rewrite <- Subscribe_len_eq in H. exact H.
  - apply (SubAck_size_same add M); try assumption. rewrite <- SubAck_len_eq in H. exact H.
  - apply (Unsubscribe_size_same add M); try assumption. rewrite <- Unsubscribe_len_eq in H. exact H.
  - apply (UnsubAck_size_same add M); try assumption. rewrite <- UnsubAck_len_eq in H. exact H.
  - apply (Disconnect_size_same add M); try assumption. apply (Disconnect_total add M); assumption.
Qed.

(** Every packet that was read is of that kind on 32 bit and larger machines. *)
Theorem C54_packets_read_are_small ft max s p rest M :
  bytes_ok s -> Packet_read ft s max = (Ok p, rest) -> 2 ^ 32 <= M -> blen (encode p) < M.
Proof.
  intros Hs E HM. destruct (decoded_sound _ _ _ _ _ Hs E) as (n & [_ _ _ _ _ Hz _] & Hn & _).
  unfold encode, packet_fields. rewrite frame_size. pose proof (varint_len_le (blen (fields_bytes (body_fields p)))).
  pose proof (growth_le p). unfold max_varint in Hn. change (2 ^ 32) with 4294967296 in HM. lia.
Qed.

Lemma written_is_small p buf n buf' : Packet_write p buf = (Ok n, buf') -> blen (encode p) <= 268435460.
Proof.
  intros E. destruct (bad_disconnect p) eqn:B.
  - apply bad_disconnect_cases in B. destruct B as (d & -> & Hr & H). unfold encode, packet_fields. rewrite frame_size.
    cbn [body_fields].
    assert (opt_items DisconnectProperties_items (di_properties d) = []) as ->
      by (destruct H as [-> |(q & -> & Hi)]; [reflexivity|exact Hi]).
    cbn [nonempty negb]. rewrite andb_true_r. destruct (disconnect_code (di_reason_code d) =? 0); vm_compute; discriminate.
  - destruct (written_size p buf n buf' E B) as [He <-].
    apply (C50_written_packet_fits_a_frame _ _ _ _ E).
Qed.
(** On a machine where usize has at least 32 bits, Packet::write returns Ok with a given buffer
    exactly when it would with unbounded integers, as long as the buffer has a length at all: an
    overflow is never visible in the outcome of a successful write.  (DISCONNECT is next.) *)
Theorem C54_successful_writes M add p buf n buf' :
  2 ^ 32 <= M -> right_below M add -> (forall d, p <> P_Disconnect d) -> blen buf' < M ->
  Packet_write_m add p buf = (Ok n, buf') <-> Packet_write p buf = (Ok n, buf').
Proof.
  change (2 ^ 32) with 4294967296. intros HM Ha Hd Hb. split; intros E.
  - destruct (machine_write_fits add M ltac:(lia) Ha p buf n buf' E Hb) as [H|[H _]].
    + rewrite <- (machine_write_same add M ltac:(lia) Ha p buf H). exact E.
    + destruct p; try discriminate H. exfalso. eapply Hd. reflexivity.
  - rewrite (machine_write_same add M); [exact E|lia|exact Ha|]. apply written_is_small in E. lia.
Qed.
Example C54_successful_writes_instance :
  Forall (fun p => blen (encode p) < 2 ^ 32 /\ (exists n, fst (Packet_write_m (wrapping (2 ^ 32)) p [9]) = Ok n)) samples.
Proof. repeat constructor; try (vm_compute; reflexivity); eexists; vm_compute; reflexivity. Qed.

(** DISCONNECT compares the computed length with 2 before it writes anything: the only other
    outcome is that the two bytes of a normal disconnection are written for a packet of at least M
    bytes. *)
Theorem C54_disconnect M add d buf n buf' :
  2 ^ 32 <= M -> right_below M add -> blen buf' < M ->
  (Packet_write (P_Disconnect d) buf = (Ok n, buf') -> Packet_write_m add (P_Disconnect d) buf = (Ok n, buf'))
  /\ (Packet_write_m add (P_Disconnect d) buf = (Ok n, buf') ->
      Packet_write (P_Disconnect d) buf = (Ok n, buf')
      \/ M <= blen (encode (P_Disconnect d)) /\ n = 2 /\ buf' = buf ++ [224; 0]).
Proof.
  change (2 ^ 32) with 4294967296. intros HM Ha Hb. split; intros E.
  - rewrite (machine_write_same add M); [exact E|lia|exact Ha|]. apply written_is_small in E. lia.
  - destruct (N.lt_ge_cases (blen (encode (P_Disconnect d))) M) as [H|H].
    + left. rewrite <- (machine_write_same add M ltac:(lia) Ha _ buf H). exact E.
    + right. destruct (machine_write_fits add M ltac:(lia) Ha _ buf n buf' E Hb) as [H'|(_ & Hn & Hf)]; [exfalso; lia|auto].
Qed.

(** And that does happen where additions wrap around: 65536 user properties of 65536 bytes (which
    can share their memory in the binary_string build) on a 32 bit machine. *)
Definition huge_user_props : user_props := repeat (repeat 97 (N.to_nat 65531), []) (N.to_nat 65536).
Definition huge_disconnect : Disconnect :=
  mkDisconnect DRC_ServerBusy (Some (mkDisconnectProperties None None huge_user_props None)).

Lemma blen_repeat x n : blen (repeat x (N.to_nat n)) = n.
Proof. unfold blen. rewrite repeat_length. lia. Qed.
Lemma user_props_len_repeat k v n acc :
  fold_left (fun len '(k, v) => len + (1 + 2 + blen k + 2 + blen v)) (repeat (k, v) n) acc
  = acc + N.of_nat n * (5 + blen k + blen v).
Proof.
  revert acc. induction n as [|n IH]; intros acc; cbn [repeat fold_left]; [lia|]. rewrite IH. lia.
Qed.
Lemma user_props_len_wraps M l : 4 < M -> user_props_len_m (wrapping M) l = user_props_len l mod M.
Proof.
  intros HM. unfold user_props_len_m, user_props_len.
  replace 0 with (0 mod M) at 1 by (apply N.mod_small; lia). generalize 0 as acc.
  induction l as [|[k v] l IH]; intros acc; cbn [fold_left]; [reflexivity|]. rewrite <- IH. f_equal. unfold wrapping.
  rewrite (N.mod_small (1 + 2)) by lia.
  rewrite (N.add_mod_idemp_l (1 + 2 + blen k) 2), (N.add_mod_idemp_l (1 + 2 + blen k + 2) (blen v)) by lia.
  rewrite N.add_mod_idemp_l, N.add_mod_idemp_r by lia. reflexivity.
Qed.
Theorem C54_huge_disconnect_refuted buf :
  Forall (fun '(k, v) => blen k <= 65535 /\ blen v <= 65535) huge_user_props
  /\ fst (Packet_write (P_Disconnect huge_disconnect) buf) = Err PayloadTooLong
  /\ Packet_write_m (wrapping (2 ^ 32)) (P_Disconnect huge_disconnect) buf = (Ok 2, buf ++ [224; 0]).
Proof.
  assert (El : user_props_len huge_user_props = 4294967296).
  { unfold user_props_len, huge_user_props. rewrite user_props_len_repeat, blen_repeat, blen_nil, N2Nat.id. reflexivity. }
  split; [|split].
  - apply Forall_forall. intros [k v] H. apply repeat_spec, pair_equal_spec in H. destruct H as [-> ->]. rewrite blen_repeat, blen_nil. lia.
  - cbn [Packet_write]. unfold Disconnect_write.
    assert (E : Disconnect_len huge_disconnect = 4294967301).
    { unfold Disconnect_len, huge_disconnect. cbn [di_reason_code di_properties]. unfold DisconnectProperties_len.
      cbn [dp_session_expiry_interval dp_reason_string dp_user_properties dp_server_reference len_if_some len_str].
      rewrite El. reflexivity. }
    rewrite E. change (4294967301 =? 2) with false. cbv iota. unfold wbind, put_u8, put_slice.
    rewrite write_remaining_length_eq. reflexivity.
  - cbn [Packet_write_m]. unfold Disconnect_write_m.
    assert (E : Disconnect_len_m (wrapping (2 ^ 32)) huge_disconnect = 2).
    { unfold Disconnect_len_m, huge_disconnect. cbn [di_reason_code di_properties]. unfold DisconnectProperties_len_m.
      cbn [dp_session_expiry_interval dp_reason_string dp_user_properties dp_server_reference len_if_some len_str_m].
      rewrite user_props_len_wraps, El by (vm_compute; reflexivity). reflexivity. }
    rewrite E. change (2 =? 2) with true. cbv iota zeta. unfold wbind, put_u8, put_slice, wret. rewrite <- app_assoc. reflexivity.
Qed.

(** The size functions do wrap around: 65536 topic filters of 65534 bytes have size 5. *)
Definition huge_unsubscribe : Unsubscribe :=
  mkUnsubscribe 1 (repeat (repeat 97 (N.to_nat 65534)) (N.to_nat 65536)) None.
Theorem C54_huge_size_refuted :
  Unsubscribe_size huge_unsubscribe = 4294967304 /\ Unsubscribe_size_m (wrapping (2 ^ 32)) huge_unsubscribe = 5.
Proof.
  assert (E1 : forall t n acc, fold_left (fun s t => 2 + s + blen t) (repeat t n) acc = acc + N.of_nat n * (2 + blen t)).
  { intros t n. induction n as [|n IH]; intros acc; cbn [repeat fold_left]; [lia|]. rewrite IH. lia. }
  assert (E2 : forall (l : list bytes) acc, fold_left (fun s t => wrapping (2 ^ 32) (wrapping (2 ^ 32) 2 s) (blen t)) l (acc mod 2 ^ 32)
               = (fold_left (fun s t => 2 + s + blen t) l acc) mod 2 ^ 32).
  { change (2 ^ 32) with 4294967296. induction l as [|t l IH]; intros acc; cbn [fold_left]; [reflexivity|].
    rewrite <- IH. f_equal. unfold wrapping. rewrite N.add_mod_idemp_r, N.add_mod_idemp_l by lia. reflexivity. }
  split.
  - unfold Unsubscribe_size, Unsubscribe_len, huge_unsubscribe. cbn [un_filters un_properties].
    rewrite E1, blen_repeat, N2Nat.id. reflexivity.
  - unfold Unsubscribe_size_m, Unsubscribe_len_m, huge_unsubscribe. cbn [un_filters un_properties].
    pose proof (E2 (repeat (repeat 97 (N.to_nat 65534)) (N.to_nat 65536)) 0) as E3.
    change (0 mod 2 ^ 32) with 0 in E3. rewrite E3, E1, blen_repeat, N2Nat.id. reflexivity.
Qed.

(** Framing: whatever the addition does on overflow, it does not happen. *)
Lemma length_loop_same M add stream : 2 ^ 32 <= M -> right_below M add -> bytes_ok stream ->
  forall len ll shift, shift <= 21 -> len < 2 ^ shift -> ll <= shift ->
  length_loop_m add stream len ll shift = length_loop stream len ll shift.
Proof.
  change (2 ^ 32) with 4294967296. intros HM Ha Hok. induction Hok as [|b s Hb Hs IH]; intros len ll shift H1 H2 H3; [reflexivity|].
  cbn [length_loop_m length_loop].
  assert (B : N.land b 127 < 128) by (change 127 with (N.ones 7); rewrite N.land_ones; apply N.mod_lt; discriminate).
  assert (P1 : 2 ^ shift <= 2097152) by (change 2097152 with (2 ^ 21); apply N.pow_le_mono_r; lia).
  assert (P : N.shiftl (N.land b 127) shift <= 127 * 2 ^ shift) by (rewrite N.shiftl_mul_pow2; apply N.mul_le_mono_r; lia).
  rewrite !Ha by lia. destruct (N.land b 128 =? 0); [reflexivity|]. destruct (N.ltb_spec 21 (shift + 7)); [reflexivity|].
  apply IH; [lia| |lia]. rewrite N.pow_add_r. change (2 ^ 7) with 128. lia.
Qed.
Lemma length_loop_bound stream : bytes_ok stream -> forall len ll shift a b, shift <= 21 -> len < 2 ^ shift -> ll <= shift ->
  length_loop stream len ll shift = Ok (a, b) -> a <= 22 /\ b < 2 ^ 28.
Proof.
  change (2 ^ 28) with 268435456. intros Hok. induction Hok as [|c s Hb Hs IH]; intros len ll shift a b H1 H2 H3 E; [discriminate|].
  cbn [length_loop] in E.
  assert (B : N.land c 127 < 128) by (change 127 with (N.ones 7); rewrite N.land_ones; apply N.mod_lt; discriminate).
  assert (P1 : 2 ^ shift <= 2097152) by (change 2097152 with (2 ^ 21); apply N.pow_le_mono_r; lia).
  assert (P : N.shiftl (N.land c 127) shift <= 127 * 2 ^ shift) by (rewrite N.shiftl_mul_pow2; apply N.mul_le_mono_r; lia).
  destruct (N.land c 128 =? 0); [injection E as <- <-; lia|]. destruct (N.ltb_spec 21 (shift + 7)); [discriminate|].
  eapply IH; [..|exact E]; [lia| |lia]. rewrite N.pow_add_r. change (2 ^ 7) with 128. lia.
Qed.
Lemma parse_same M add stream : 2 ^ 32 <= M -> right_below M add -> bytes_ok stream ->
  parse_fixed_header_m add stream = parse_fixed_header stream
  /\ forall h, parse_fixed_header stream = Ok h -> frame_length_m add h = frame_length h /\ frame_length h < 2 ^ 32.
Proof.
  intros HM Ha Hok. unfold parse_fixed_header_m, parse_fixed_header. destruct (blen stream <? 2); [split; [reflexivity|discriminate]|].
  destruct stream as [|b s]; [split; [reflexivity|discriminate]|]. inversion Hok as [|? ? Hb Hs]; subst.
  rewrite (length_loop_same M add s HM Ha Hs 0 0 0) by (vm_compute; congruence). unfold length_.
  destruct (length_loop s 0 0 0) as [[a c]|e| |] eqn:E; cbn [rbind]; try (split; [reflexivity|discriminate]).
  apply length_loop_bound in E; [|assumption|vm_compute; congruence..]. destruct E as [E1 E2].
  change (2 ^ 28) with 268435456 in E2. change (2 ^ 32) with 4294967296 in *.
  unfold FixedHeader_new_m, FixedHeader_new. rewrite (Ha a 1) by lia. split; [reflexivity|].
  intros h E. injection E as <-. unfold frame_length_m, frame_length. cbn [fh_fixed_header_len fh_remaining_len]. rewrite Ha; lia.
Qed.
Theorem C54_framing M add ft stream max :
  2 ^ 32 <= M -> right_below M add -> bytes_ok stream ->
  check_m add stream max = check stream max /\ Packet_read_m add ft stream max = Packet_read ft stream max
  /\ (forall h, check stream max = Ok h -> frame_length_m add h = frame_length h).
Proof.
  intros HM Ha Hok. destruct (parse_same M add stream HM Ha Hok) as [E H].
  assert (C : check_m add stream max = check stream max).
  { unfold check_m, check. rewrite E. destruct (parse_fixed_header stream) as [h|e| |]; try reflexivity. cbn [rbind].
    rewrite (proj1 (H h eq_refl)). reflexivity. }
  assert (F : forall h, check stream max = Ok h -> frame_length_m add h = frame_length h).
  { intros h Eh. apply H. unfold check in Eh. destruct (parse_fixed_header stream) as [g|e| |]; try discriminate Eh. cbn [rbind] in Eh.
    destruct (match max with Some m => _ | None => _ end) as [u|e| |]; try discriminate Eh. cbn [rbind] in Eh.
    destruct (blen stream <? frame_length g); [discriminate Eh|]. congruence. }
  split; [exact C|]. split; [|exact F]. unfold Packet_read_m, Packet_read. rewrite C.
  destruct (check stream max) as [h|e| |] eqn:Eh; try reflexivity. rewrite (F h eq_refl). reflexivity.
Qed.
(** For a header that the caller made with FixedHeader::new it does: the frame length is too small
    where addition wraps.  (With overflow checks, as in debug builds, it panics.) *)
Theorem C54_header_of_the_caller_refuted M byte1 : 2 ^ 32 <= M ->
  frame_length_m (wrapping M) (FixedHeader_new_m (wrapping M) byte1 1 (M - 1)) = 1
  /\ frame_length_m (wrapping M) (FixedHeader_new_m (wrapping M) byte1 (M - 1) 5) = 5.
Proof.
  change (2 ^ 32) with 4294967296. intros HM. unfold frame_length_m, FixedHeader_new_m, wrapping. cbn [fh_fixed_header_len fh_remaining_len]. split.
  - rewrite (N.mod_small (1 + 1)) by lia. replace (1 + 1 + (M - 1)) with (1 + 1 * M) by lia. rewrite N.mod_add by lia. apply N.mod_small. lia.
  - replace (M - 1 + 1) with (0 + 1 * M) by lia. rewrite N.mod_add by lia. rewrite (N.mod_small 0) by lia. apply N.mod_small. lia.
Qed.
(** The largest remaining length there is. *)
Example C54_framing_instance ft : Packet_read_m (wrapping (2 ^ 32)) ft [48; 255; 255; 255; 127; 0] None
  = (Err (InsufficientBytes 268435454), [48; 255; 255; 255; 127; 0]).
Proof. destruct ft; reflexivity. Qed.
