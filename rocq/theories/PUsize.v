(** The writers with machine arithmetic against the model's writers. *)
From Verif Require Import Types MLib MConnect Model MUsize Spec Wire PBase PVarint PRead PItems PProps PFrame PWire PWrite.

Ltac unfold_all :=
  cbv beta delta [user_props_len_m user_props_len len_str_m len_str ConnectProperties_len_m ConnectProperties_len
ConnectProperties_write_m ConnectProperties_write LastWillProperties_len_m LastWillProperties_len
LastWillProperties_write_m LastWillProperties_write LastWill_len_m LastWill_len LastWill_write_m
LastWill_write Login_len_m Login_len Connect_len_m Connect_len Connect_write_m Connect_write
ConnAckProperties_len_m ConnAckProperties_len ConnAckProperties_write_m ConnAckProperties_write
ConnAck_len_m ConnAck_len ConnAck_size_m ConnAck_size ConnAck_write_m ConnAck_write
PublishProperties_len_m PublishProperties_len PublishProperties_write_m PublishProperties_write
Publish_len_m Publish_len Publish_size_m Publish_size Publish_write_m Publish_write
PubAckProperties_len_m PubAckProperties_len PubAckProperties_write_m PubAckProperties_write
PubAck_len_m PubAck_len PubAck_size_m PubAck_size PubAck_write_m PubAck_write PubRecProperties_len_m
PubRecProperties_len PubRecProperties_write_m PubRecProperties_write PubRec_len_m PubRec_len
PubRec_size_m PubRec_size PubRec_write_m PubRec_write PubRelProperties_len_m PubRelProperties_len
PubRelProperties_write_m PubRelProperties_write PubRel_len_m PubRel_len PubRel_size_m PubRel_size
PubRel_write_m PubRel_write PubCompProperties_len_m PubCompProperties_len PubCompProperties_write_m
PubCompProperties_write PubComp_len_m PubComp_len PubComp_size_m PubComp_size PubComp_write_m
PubComp_write SubscribeProperties_len_m SubscribeProperties_len SubscribeProperties_write_m
SubscribeProperties_write Filter_len_m Filter_len Subscribe_len_m Subscribe_len Subscribe_size_m
Subscribe_size Subscribe_write_m Subscribe_write SubAckProperties_len_m SubAckProperties_len
SubAckProperties_write_m SubAckProperties_write SubAck_len_m SubAck_len SubAck_size_m SubAck_size
SubAck_write_m SubAck_write UnsubscribeProperties_len_m UnsubscribeProperties_len
UnsubscribeProperties_write_m UnsubscribeProperties_write Unsubscribe_len_m Unsubscribe_len
Unsubscribe_size_m Unsubscribe_size Unsubscribe_write_m Unsubscribe_write UnsubAckProperties_len_m
UnsubAckProperties_len UnsubAckProperties_write_m UnsubAckProperties_write UnsubAck_len_m
UnsubAck_len UnsubAck_size_m UnsubAck_size UnsubAck_write_m UnsubAck_write
DisconnectProperties_len_m DisconnectProperties_len DisconnectProperties_write_m
DisconnectProperties_write Disconnect_len_m Disconnect_len Disconnect_size_m Disconnect_size
Disconnect_write_m Disconnect_write Packet_write_m Packet_write].
(** The copy is faithful: with the addition of N it is the model. *)
Lemma machine_is_model p : Packet_write_m N.add p = Packet_write p.
Proof. unfold_all. reflexivity. Qed.
Lemma machine_sizes_are_model :
  ConnAck_size_m N.add = ConnAck_size /\ Publish_size_m N.add = Publish_size /\ PubAck_size_m N.add = PubAck_size
  /\ PubRec_size_m N.add = PubRec_size /\ PubRel_size_m N.add = PubRel_size /\ PubComp_size_m N.add = PubComp_size
  /\ Subscribe_size_m N.add = Subscribe_size /\ SubAck_size_m N.add = SubAck_size
  /\ Unsubscribe_size_m N.add = Unsubscribe_size /\ UnsubAck_size_m N.add = UnsubAck_size
  /\ Disconnect_size_m N.add = Disconnect_size.
Proof. unfold_all. repeat match goal with |- _ /\ _ => split end; reflexivity. Qed.

(** ---------- Sums that stay below the modulus ---------- *)

Section Sums.
Context (add : N -> N -> N) (M : N).
Context (small : 1024 <= M) (agrees : forall a b, a + b < M -> add a b = a + b).

Lemma user_props_len_same l : user_props_len l < M -> user_props_len_m add l = user_props_len l.
Proof.
  unfold user_props_len, user_props_len_m. generalize 0 as acc.
  assert (Mono : forall l acc, acc <= fold_left (fun len '(k, v) => len + (1 + 2 + blen k + 2 + blen v)) l acc).
  { clear. induction l as [|[k v] l IH]; intros acc; cbn [fold_left]; [lia|]. etransitivity; [|apply IH]. lia. }
  induction l as [|[k v] l IH]; intros acc H; cbn [fold_left] in *; [reflexivity|].
  pose proof (Mono l (acc + (1 + 2 + blen k + 2 + blen v))).
  replace (add acc (add (add (add (add 1 2) (blen k)) 2) (blen v))) with (acc + (1 + 2 + blen k + 2 + blen v)).
  { apply IH. exact H. }
  rewrite (agrees 1 2), (agrees _ (blen k)), (agrees _ 2), (agrees _ (blen v)), (agrees acc) by lia. reflexivity.
Qed.
Lemma len_str_same s : len_str s < M -> len_str_m add s = len_str s.
Proof.
  destruct s as [s|]; [|reflexivity]. cbn [len_str len_str_m]. intros H.
  rewrite (agrees 1 2), (agrees _ (blen s)) by lia. reflexivity.
Qed.
Lemma ids_len_same l : fold_left (fun len id => len + (1 + len_len id)) l 0 < M ->
  fold_left (fun len id => add len (add 1 (len_len id))) l 0 = fold_left (fun len id => len + (1 + len_len id)) l 0.
Proof.
  generalize 0 as acc.
  assert (Mono : forall l acc, acc <= fold_left (fun len id => len + (1 + len_len id)) l acc).
  { clear. induction l as [|v l IH]; intros acc; cbn [fold_left]; [lia|]. etransitivity; [|apply IH]. lia. }
  induction l as [|v l IH]; intros acc H; cbn [fold_left] in *; [reflexivity|].
  pose proof (Mono l (acc + (1 + len_len v))).
  rewrite (agrees 1 (len_len v)), (agrees acc) by lia. apply IH. exact H.
Qed.
Lemma filters_len_same l : fold_left (fun a t => a + Filter_len t) l 0 < M ->
  fold_left (fun a t => add a (Filter_len_m add t)) l 0 = fold_left (fun a t => a + Filter_len t) l 0.
Proof.
  generalize 0 as acc.
  assert (Mono : forall l acc, acc <= fold_left (fun a t => a + Filter_len t) l acc).
  { clear. induction l as [|v l IH]; intros acc; cbn [fold_left]; [lia|]. etransitivity; [|apply IH]. lia. }
  induction l as [|v l IH]; intros acc H; cbn [fold_left] in *; [reflexivity|].
  pose proof (Mono l (acc + Filter_len v)).
  replace (Filter_len_m add v) with (Filter_len v).
  2: { unfold Filter_len_m, Filter_len in *. rewrite (agrees 2), (agrees _ 1) by lia. reflexivity. }
  rewrite (agrees acc) by lia. apply IH. exact H.
Qed.
Lemma strs_len_same l : fold_left (fun s t => 2 + s + blen t) l 0 < M ->
  fold_left (fun s t => add (add 2 s) (blen t)) l 0 = fold_left (fun s t => 2 + s + blen t) l 0.
Proof.
  generalize 0 as acc.
  assert (Mono : forall (l : list bytes) acc, acc <= fold_left (fun s t => 2 + s + blen t) l acc).
  { clear. induction l as [|v l IH]; intros acc; cbn [fold_left]; [lia|]. etransitivity; [|apply IH]. lia. }
  induction l as [|v l IH]; intros acc H; cbn [fold_left] in *; [reflexivity|].
  pose proof (Mono l (2 + acc + blen v)).
  rewrite (agrees 2), (agrees _ (blen v)) by lia. apply IH. exact H.
Qed.

Lemma add_same X Y x y : (x < M -> X = x) -> (y < M -> Y = y) -> x + y < M -> add X Y = x + y.
Proof. intros H1 H2 H. rewrite H1, H2 by lia. apply agrees. exact H. Qed.
Lemma if_some_same (o : option N) a b : a + b < M -> len_if_some o (add a b) = len_if_some o (a + b).
Proof. intros H. rewrite agrees by exact H. reflexivity. Qed.
Ltac sums_then tac :=
  first [ reflexivity
        | apply if_some_same; lia
        | apply add_same; [sums_then tac|sums_then tac]
        | exact (len_str_same _)
        | exact (user_props_len_same _)
        | exact (ids_len_same _)
        | tac
        | intros ?; first [reflexivity | apply if_some_same; lia] ].
Ltac sums := sums_then fail.

Lemma ConnectProperties_len_same p : ConnectProperties_len p < M -> ConnectProperties_len_m add p = ConnectProperties_len p.
Proof.
  unfold ConnectProperties_len_m, ConnectProperties_len.  sums.
Qed.
Lemma ConnectProperties_write_same p : ConnectProperties_len p < M -> ConnectProperties_write_m add p = ConnectProperties_write p.
Proof. intros H. unfold ConnectProperties_write_m. rewrite ConnectProperties_len_same by exact H. reflexivity. Qed.

Lemma LastWillProperties_len_same p : LastWillProperties_len p < M -> LastWillProperties_len_m add p = LastWillProperties_len p.
Proof.
  unfold LastWillProperties_len_m, LastWillProperties_len.  sums.
Qed.
Lemma LastWillProperties_write_same p : LastWillProperties_len p < M -> LastWillProperties_write_m add p = LastWillProperties_write p.
Proof. intros H. unfold LastWillProperties_write_m. rewrite LastWillProperties_len_same by exact H. reflexivity. Qed.

Lemma ConnAckProperties_len_same p : ConnAckProperties_len p < M -> ConnAckProperties_len_m add p = ConnAckProperties_len p.
Proof.
  unfold ConnAckProperties_len_m, ConnAckProperties_len.  sums.
Qed.
Lemma ConnAckProperties_write_same p : ConnAckProperties_len p < M -> ConnAckProperties_write_m add p = ConnAckProperties_write p.
Proof. intros H. unfold ConnAckProperties_write_m. rewrite ConnAckProperties_len_same by exact H. reflexivity. Qed.

Lemma PublishProperties_len_same p : PublishProperties_len p < M -> PublishProperties_len_m add p = PublishProperties_len p.
Proof.
  unfold PublishProperties_len_m, PublishProperties_len.  sums.
Qed.
Lemma PublishProperties_write_same p : PublishProperties_len p < M -> PublishProperties_write_m add p = PublishProperties_write p.
Proof. intros H. unfold PublishProperties_write_m. rewrite PublishProperties_len_same by exact H. reflexivity. Qed.

Lemma PubAckProperties_len_same p : PubAckProperties_len p < M -> PubAckProperties_len_m add p = PubAckProperties_len p.
Proof.
  unfold PubAckProperties_len_m, PubAckProperties_len.  sums.
Qed.
Lemma PubAckProperties_write_same p : PubAckProperties_len p < M -> PubAckProperties_write_m add p = PubAckProperties_write p.
Proof. intros H. unfold PubAckProperties_write_m. rewrite PubAckProperties_len_same by exact H. reflexivity. Qed.

Lemma PubRecProperties_len_same p : PubRecProperties_len p < M -> PubRecProperties_len_m add p = PubRecProperties_len p.
Proof.
  unfold PubRecProperties_len_m, PubRecProperties_len.  sums.
Qed.
Lemma PubRecProperties_write_same p : PubRecProperties_len p < M -> PubRecProperties_write_m add p = PubRecProperties_write p.
Proof. intros H. unfold PubRecProperties_write_m. rewrite PubRecProperties_len_same by exact H. reflexivity. Qed.

Lemma PubRelProperties_len_same p : PubRelProperties_len p < M -> PubRelProperties_len_m add p = PubRelProperties_len p.
Proof.
  unfold PubRelProperties_len_m, PubRelProperties_len.  sums.
Qed.
Lemma PubRelProperties_write_same p : PubRelProperties_len p < M -> PubRelProperties_write_m add p = PubRelProperties_write p.
Proof. intros H. unfold PubRelProperties_write_m. rewrite PubRelProperties_len_same by exact H. reflexivity. Qed.

Lemma PubCompProperties_len_same p : PubCompProperties_len p < M -> PubCompProperties_len_m add p = PubCompProperties_len p.
Proof.
  unfold PubCompProperties_len_m, PubCompProperties_len.  sums.
Qed.
Lemma PubCompProperties_write_same p : PubCompProperties_len p < M -> PubCompProperties_write_m add p = PubCompProperties_write p.
Proof. intros H. unfold PubCompProperties_write_m. rewrite PubCompProperties_len_same by exact H. reflexivity. Qed.

Lemma SubscribeProperties_len_same p : SubscribeProperties_len p < M -> SubscribeProperties_len_m add p = SubscribeProperties_len p.
Proof.
  unfold SubscribeProperties_len_m, SubscribeProperties_len. destruct (sp_id p); sums.
Qed.
Lemma SubscribeProperties_write_same p : SubscribeProperties_len p < M -> SubscribeProperties_write_m add p = SubscribeProperties_write p.
Proof. intros H. unfold SubscribeProperties_write_m. rewrite SubscribeProperties_len_same by exact H. reflexivity. Qed.

Lemma SubAckProperties_len_same p : SubAckProperties_len p < M -> SubAckProperties_len_m add p = SubAckProperties_len p.
Proof.
  unfold SubAckProperties_len_m, SubAckProperties_len.  sums.
Qed.
Lemma SubAckProperties_write_same p : SubAckProperties_len p < M -> SubAckProperties_write_m add p = SubAckProperties_write p.
Proof. intros H. unfold SubAckProperties_write_m. rewrite SubAckProperties_len_same by exact H. reflexivity. Qed.

Lemma UnsubscribeProperties_len_same p : UnsubscribeProperties_len p < M -> UnsubscribeProperties_len_m add p = UnsubscribeProperties_len p.
Proof.
  unfold UnsubscribeProperties_len_m, UnsubscribeProperties_len.  sums.
Qed.
Lemma UnsubscribeProperties_write_same p : UnsubscribeProperties_len p < M -> UnsubscribeProperties_write_m add p = UnsubscribeProperties_write p.
Proof. intros H. unfold UnsubscribeProperties_write_m. rewrite UnsubscribeProperties_len_same by exact H. reflexivity. Qed.

Lemma UnsubAckProperties_len_same p : UnsubAckProperties_len p < M -> UnsubAckProperties_len_m add p = UnsubAckProperties_len p.
Proof.
  unfold UnsubAckProperties_len_m, UnsubAckProperties_len.  sums.
Qed.
Lemma UnsubAckProperties_write_same p : UnsubAckProperties_len p < M -> UnsubAckProperties_write_m add p = UnsubAckProperties_write p.
Proof. intros H. unfold UnsubAckProperties_write_m. rewrite UnsubAckProperties_len_same by exact H. reflexivity. Qed.

Lemma DisconnectProperties_len_same p : DisconnectProperties_len p < M -> DisconnectProperties_len_m add p = DisconnectProperties_len p.
Proof.
  unfold DisconnectProperties_len_m, DisconnectProperties_len.  sums.
Qed.
Lemma DisconnectProperties_write_same p : DisconnectProperties_len p < M -> DisconnectProperties_write_m add p = DisconnectProperties_write p.
Proof. intros H. unfold DisconnectProperties_write_m. rewrite DisconnectProperties_len_same by exact H. reflexivity. Qed.

(** ---------- Packets whose size stays below the modulus ---------- *)

Lemma section_len_same {A} (len len_m : A -> N) (o : option A) :
  (forall q, len q < M -> len_m q = len q) ->
  (match o with Some q => len_len (len q) + len q | None => 1 end) < M ->
  (match o with Some q => add (len_len (len_m q)) (len_m q) | None => 1 end)
  = (match o with Some q => len_len (len q) + len q | None => 1 end).
Proof.
  intros H. destruct o as [q|]; [|reflexivity]. intros Hl. rewrite H by lia. apply agrees. exact Hl.
Qed.
Lemma opt_len_same {A} (len len_m : A -> N) (o : option A) :
  (forall q, len q < M -> len_m q = len q) ->
  (match o with Some q => len q | None => 0 end) < M ->
  (match o with Some q => len_m q | None => 0 end) = (match o with Some q => len q | None => 0 end).
Proof. intros H. destruct o as [q|]; [|reflexivity]. intros Hl. apply H. exact Hl. Qed.

Ltac packet_sums tac := cbv zeta; sums_then tac.

Lemma ConnAck_len_same p : ConnAck_len p < M -> ConnAck_len_m add p = ConnAck_len p.
Proof.
  unfold ConnAck_len_m, ConnAck_len. packet_sums ltac:(exact (section_len_same _ _ _ ConnAckProperties_len_same)).
Qed.
Lemma Publish_len_same p : Publish_len p < M -> Publish_len_m add p = Publish_len p.
Proof.
  unfold Publish_len_m, Publish_len. packet_sums ltac:(exact (section_len_same _ _ _ PublishProperties_len_same)).
Qed.
Lemma SubAck_len_same p : SubAck_len p < M -> SubAck_len_m add p = SubAck_len p.
Proof.
  unfold SubAck_len_m, SubAck_len. packet_sums ltac:(exact (section_len_same _ _ _ SubAckProperties_len_same)).
Qed.
Lemma UnsubAck_len_same p : UnsubAck_len p < M -> UnsubAck_len_m add p = UnsubAck_len p.
Proof.
  unfold UnsubAck_len_m, UnsubAck_len. packet_sums ltac:(exact (section_len_same _ _ _ UnsubAckProperties_len_same)).
Qed.
Lemma PubAck_len_same p : PubAck_len p < M -> PubAck_len_m add p = PubAck_len p.
Proof.
  unfold PubAck_len_m, PubAck_len. destruct (PubAck_is_short p); [reflexivity|].
  packet_sums ltac:(exact (section_len_same _ _ _ PubAckProperties_len_same)).
Qed.
Lemma PubRec_len_same p : PubRec_len p < M -> PubRec_len_m add p = PubRec_len p.
Proof.
  unfold PubRec_len_m, PubRec_len. destruct (PubRec_is_short p); [reflexivity|].
  packet_sums ltac:(exact (section_len_same _ _ _ PubRecProperties_len_same)).
Qed.
Lemma PubRel_len_same p : PubRel_len p < M -> PubRel_len_m add p = PubRel_len p.
Proof.
  unfold PubRel_len_m, PubRel_len. destruct (PubRel_is_short p); [reflexivity|].
  packet_sums ltac:(exact (section_len_same _ _ _ PubRelProperties_len_same)).
Qed.
Lemma PubComp_len_same p : PubComp_len p < M -> PubComp_len_m add p = PubComp_len p.
Proof.
  unfold PubComp_len_m, PubComp_len. destruct (PubComp_is_short p); [reflexivity|].
  packet_sums ltac:(exact (section_len_same _ _ _ PubCompProperties_len_same)).
Qed.
Lemma Subscribe_len_same p : Subscribe_len p < M -> Subscribe_len_m add p = Subscribe_len p.
Proof.
  unfold Subscribe_len_m, Subscribe_len.
  packet_sums ltac:(first [exact (section_len_same _ _ _ SubscribeProperties_len_same) | exact (filters_len_same _)]).
Qed.
Lemma Unsubscribe_len_same p : Unsubscribe_len p < M -> Unsubscribe_len_m add p = Unsubscribe_len p.
Proof.
  unfold Unsubscribe_len_m, Unsubscribe_len.
  packet_sums ltac:(first [exact (section_len_same _ _ _ UnsubscribeProperties_len_same) | exact (strs_len_same _)]).
Qed.
Lemma Disconnect_len_same p : Disconnect_len p < M -> Disconnect_len_m add p = Disconnect_len p.
Proof.
  unfold Disconnect_len_m, Disconnect_len.
  destruct (di_reason_code p), (di_properties p) as [q|]; cbv zeta;
    try (intros H; rewrite (DisconnectProperties_len_same q) by lia; revert H); sums.
Qed.
Lemma LastWill_len_same p : LastWill_len p < M -> LastWill_len_m add p = LastWill_len p.
Proof.
  unfold LastWill_len_m, LastWill_len. packet_sums ltac:(exact (section_len_same _ _ _ LastWillProperties_len_same)).
Qed.
Lemma Login_len_same p : Login_len p < M -> Login_len_m add p = Login_len p.
Proof.
  unfold Login_len_m, Login_len. destruct (is_empty (lo_username p)), (is_empty (lo_password p)); cbn [negb]; sums.
Qed.
Lemma Connect_len_same c w l : Connect_len c w l < M -> Connect_len_m add c w l = Connect_len c w l.
Proof.
  unfold Connect_len_m, Connect_len.
  packet_sums ltac:(first [exact (section_len_same _ _ _ ConnectProperties_len_same)
                          |exact (opt_len_same _ _ _ LastWill_len_same)|exact (opt_len_same _ _ _ Login_len_same)]).
Qed.

Lemma total_same n : 1 + len_len n + n < M -> add (add 1 (len_len n)) n = 1 + len_len n + n.
Proof. intros H. rewrite (agrees 1), (agrees _ n) by lia. reflexivity. Qed.

(** Property sections below the modulus. *)
Lemma section_write_same {A} (len : A -> N) (wr wr_m : A -> W unit) (o : option A) :
  (forall q, len q < M -> wr_m q = wr q) ->
  (match o with Some q => len_len (len q) + len q | None => 1 end) < M ->
  (match o with Some q => wr_m q | None => do_ write_remaining_length 0; wret tt end)
  = (match o with Some q => wr q | None => do_ write_remaining_length 0; wret tt end).
Proof. intros H. destruct o as [q|]; [|reflexivity]. intros Hl. apply H. lia. Qed.

(** The common frame: a byte, the length, the rest. *)
Lemma frame_same b n (k k' : N -> W N) : 1 + len_len n + n < M ->
  (k (len_len n) = k' (len_len n)) ->
  forall buf, (do_ put_u8 b; wbind (write_remaining_length n) k) buf = (do_ put_u8 b; wbind (write_remaining_length n) k') buf.
Proof.
  intros Hn H buf. unfold wbind. destruct (put_u8 b buf) as [[]?]; try reflexivity.
  rewrite write_remaining_length_eq. destruct (n <=? max_varint); [|reflexivity].
  rewrite varint_len, H. reflexivity.
Qed.

(** What a frame with a body of n bytes takes. *)
Definition frame_total (n : N) : N := 1 + len_len n + n.

Lemma ConnAck_write_same p buf : frame_total (ConnAck_len p) < M -> ConnAck_write_m add p buf = ConnAck_write p buf.
Proof.
  unfold frame_total. intros H. unfold ConnAck_write_m, ConnAck_write. rewrite ConnAck_len_same by lia. cbv zeta.
  apply frame_same; [exact H|]. rewrite ?(total_same (ConnAck_len p)) by exact H. 
  rewrite (section_write_same ConnAckProperties_len ConnAckProperties_write); [reflexivity|exact ConnAckProperties_write_same|].
  pose proof H as Hl. unfold ConnAck_len in Hl. cbv zeta in Hl. lia.
Qed.
Lemma ConnAck_size_same p : frame_total (ConnAck_len p) < M -> ConnAck_size_m add p = ConnAck_size p.
Proof.
  unfold frame_total. intros H. unfold ConnAck_size_m, ConnAck_size. rewrite ConnAck_len_same by lia. cbv zeta.
  rewrite ?(total_same (ConnAck_len p)) by exact H. reflexivity.
Qed.
Lemma Publish_write_same p buf : frame_total (Publish_len p) < M -> Publish_write_m add p buf = Publish_write p buf.
Proof.
  unfold frame_total. intros H. unfold Publish_write_m, Publish_write. rewrite Publish_len_same by lia. cbv zeta.
  apply frame_same; [exact H|]. rewrite ?(total_same (Publish_len p)) by exact H. 
  rewrite (section_write_same PublishProperties_len PublishProperties_write); [reflexivity|exact PublishProperties_write_same|].
  pose proof H as Hl. unfold Publish_len in Hl. cbv zeta in Hl. lia.
Qed.
Lemma Publish_size_same p : frame_total (Publish_len p) < M -> Publish_size_m add p = Publish_size p.
Proof.
  unfold frame_total. intros H. unfold Publish_size_m, Publish_size. rewrite Publish_len_same by lia. cbv zeta.
  rewrite ?(total_same (Publish_len p)) by exact H. reflexivity.
Qed.
Lemma SubAck_write_same p buf : frame_total (SubAck_len p) < M -> SubAck_write_m add p buf = SubAck_write p buf.
Proof.
  unfold frame_total. intros H. unfold SubAck_write_m, SubAck_write. rewrite SubAck_len_same by lia. cbv zeta.
  apply frame_same; [exact H|]. rewrite ?(total_same (SubAck_len p)) by exact H. 
  rewrite (section_write_same SubAckProperties_len SubAckProperties_write); [reflexivity|exact SubAckProperties_write_same|].
  pose proof H as Hl. unfold SubAck_len in Hl. cbv zeta in Hl. lia.
Qed.
Lemma SubAck_size_same p : frame_total (SubAck_len p) < M -> SubAck_size_m add p = SubAck_size p.
Proof.
  unfold frame_total. intros H. unfold SubAck_size_m, SubAck_size. rewrite SubAck_len_same by lia. cbv zeta.
  rewrite ?(total_same (SubAck_len p)) by exact H. reflexivity.
Qed.
Lemma UnsubAck_write_same p buf : frame_total (UnsubAck_len p) < M -> UnsubAck_write_m add p buf = UnsubAck_write p buf.
Proof.
  unfold frame_total. intros H. unfold UnsubAck_write_m, UnsubAck_write. rewrite UnsubAck_len_same by lia. cbv zeta.
  apply frame_same; [exact H|]. rewrite ?(total_same (UnsubAck_len p)) by exact H. 
  rewrite (section_write_same UnsubAckProperties_len UnsubAckProperties_write); [reflexivity|exact UnsubAckProperties_write_same|].
  pose proof H as Hl. unfold UnsubAck_len in Hl. cbv zeta in Hl. lia.
Qed.
Lemma UnsubAck_size_same p : frame_total (UnsubAck_len p) < M -> UnsubAck_size_m add p = UnsubAck_size p.
Proof.
  unfold frame_total. intros H. unfold UnsubAck_size_m, UnsubAck_size. rewrite UnsubAck_len_same by lia. cbv zeta.
  rewrite ?(total_same (UnsubAck_len p)) by exact H. reflexivity.
Qed.
Lemma PubAck_write_same p buf : frame_total (PubAck_len p) < M -> PubAck_write_m add p buf = PubAck_write p buf.
Proof.
  unfold frame_total. intros H. unfold PubAck_write_m, PubAck_write. rewrite PubAck_len_same by lia. cbv zeta.
  apply frame_same; [exact H|]. rewrite ?(total_same (PubAck_len p)) by exact H. destruct (PubAck_is_short p) eqn:Es; [reflexivity|]. 
  rewrite (section_write_same PubAckProperties_len PubAckProperties_write); [reflexivity|exact PubAckProperties_write_same|].
  pose proof H as Hl. unfold PubAck_len in Hl. rewrite Es in Hl; cbv zeta in Hl. lia.
Qed.
Lemma PubAck_size_same p : frame_total (PubAck_len p) < M -> PubAck_size_m add p = PubAck_size p.
Proof.
  unfold frame_total. intros H. unfold PubAck_size_m, PubAck_size. rewrite PubAck_len_same by lia. cbv zeta.
  rewrite ?(total_same (PubAck_len p)) by exact H. reflexivity.
Qed.
Lemma PubRec_write_same p buf : frame_total (PubRec_len p) < M -> PubRec_write_m add p buf = PubRec_write p buf.
Proof.
  unfold frame_total. intros H. unfold PubRec_write_m, PubRec_write. rewrite PubRec_len_same by lia. cbv zeta.
  apply frame_same; [exact H|]. rewrite ?(total_same (PubRec_len p)) by exact H. destruct (PubRec_is_short p) eqn:Es; [reflexivity|]. 
  rewrite (section_write_same PubRecProperties_len PubRecProperties_write); [reflexivity|exact PubRecProperties_write_same|].
  pose proof H as Hl. unfold PubRec_len in Hl. rewrite Es in Hl; cbv zeta in Hl. lia.
Qed.
Lemma PubRec_size_same p : frame_total (PubRec_len p) < M -> PubRec_size_m add p = PubRec_size p.
Proof.
  unfold frame_total. intros H. unfold PubRec_size_m, PubRec_size. rewrite PubRec_len_same by lia. cbv zeta.
  rewrite ?(total_same (PubRec_len p)) by exact H. reflexivity.
Qed.
Lemma PubRel_write_same p buf : frame_total (PubRel_len p) < M -> PubRel_write_m add p buf = PubRel_write p buf.
Proof.
  unfold frame_total. intros H. unfold PubRel_write_m, PubRel_write. rewrite PubRel_len_same by lia. cbv zeta.
  apply frame_same; [exact H|]. rewrite ?(total_same (PubRel_len p)) by exact H. destruct (PubRel_is_short p) eqn:Es; [reflexivity|]. 
  rewrite (section_write_same PubRelProperties_len PubRelProperties_write); [reflexivity|exact PubRelProperties_write_same|].
  pose proof H as Hl. unfold PubRel_len in Hl. rewrite Es in Hl; cbv zeta in Hl. lia.
Qed.
Lemma PubRel_size_same p : frame_total (PubRel_len p) < M -> PubRel_size_m add p = PubRel_size p.
Proof.
  unfold frame_total. intros H. unfold PubRel_size_m, PubRel_size. rewrite PubRel_len_same by lia. cbv zeta.
  rewrite ?(total_same (PubRel_len p)) by exact H. reflexivity.
Qed.
Lemma PubComp_write_same p buf : frame_total (PubComp_len p) < M -> PubComp_write_m add p buf = PubComp_write p buf.
Proof.
  unfold frame_total. intros H. unfold PubComp_write_m, PubComp_write. rewrite PubComp_len_same by lia. cbv zeta.
  apply frame_same; [exact H|]. rewrite ?(total_same (PubComp_len p)) by exact H. destruct (PubComp_is_short p) eqn:Es; [reflexivity|]. 
  rewrite (section_write_same PubCompProperties_len PubCompProperties_write); [reflexivity|exact PubCompProperties_write_same|].
  pose proof H as Hl. unfold PubComp_len in Hl. rewrite Es in Hl; cbv zeta in Hl. lia.
Qed.
Lemma PubComp_size_same p : frame_total (PubComp_len p) < M -> PubComp_size_m add p = PubComp_size p.
Proof.
  unfold frame_total. intros H. unfold PubComp_size_m, PubComp_size. rewrite PubComp_len_same by lia. cbv zeta.
  rewrite ?(total_same (PubComp_len p)) by exact H. reflexivity.
Qed.
Lemma Subscribe_write_same p buf : frame_total (Subscribe_len p) < M -> Subscribe_write_m add p buf = Subscribe_write p buf.
Proof.
  unfold frame_total. intros H. unfold Subscribe_write_m, Subscribe_write. rewrite Subscribe_len_same by lia. cbv zeta.
  apply frame_same; [exact H|]. rewrite ?(total_same (Subscribe_len p)) by exact H. 
  rewrite (section_write_same SubscribeProperties_len SubscribeProperties_write); [reflexivity|exact SubscribeProperties_write_same|].
  pose proof H as Hl. unfold Subscribe_len in Hl. cbv zeta in Hl. lia.
Qed.
Lemma Subscribe_size_same p : frame_total (Subscribe_len p) < M -> Subscribe_size_m add p = Subscribe_size p.
Proof.
  unfold frame_total. intros H. unfold Subscribe_size_m, Subscribe_size. rewrite Subscribe_len_same by lia. cbv zeta.
  rewrite ?(total_same (Subscribe_len p)) by exact H. reflexivity.
Qed.
Lemma Unsubscribe_write_same p buf : frame_total (Unsubscribe_len p) < M -> Unsubscribe_write_m add p buf = Unsubscribe_write p buf.
Proof.
  unfold frame_total. intros H. unfold Unsubscribe_write_m, Unsubscribe_write. rewrite Unsubscribe_len_same by lia. cbv zeta.
  apply frame_same; [exact H|]. rewrite ?(total_same (Unsubscribe_len p)) by exact H. 
  rewrite (section_write_same UnsubscribeProperties_len UnsubscribeProperties_write); [reflexivity|exact UnsubscribeProperties_write_same|].
  pose proof H as Hl. unfold Unsubscribe_len in Hl. cbv zeta in Hl. lia.
Qed.
Lemma Unsubscribe_size_same p : frame_total (Unsubscribe_len p) < M -> Unsubscribe_size_m add p = Unsubscribe_size p.
Proof.
  unfold frame_total. intros H. unfold Unsubscribe_size_m, Unsubscribe_size. rewrite Unsubscribe_len_same by lia. cbv zeta.
  rewrite ?(total_same (Unsubscribe_len p)) by exact H. reflexivity.
Qed.

Lemma Disconnect_write_same p buf : frame_total (Disconnect_len p) < M -> Disconnect_write_m add p buf = Disconnect_write p buf.
Proof.
  unfold frame_total. intros H. unfold Disconnect_write_m, Disconnect_write. rewrite Disconnect_len_same by lia. cbv zeta.
  destruct (Disconnect_len p =? 2); [reflexivity|].
  apply frame_same; [exact H|]. rewrite ?(total_same (Disconnect_len p)) by exact H.
  rewrite (section_write_same DisconnectProperties_len DisconnectProperties_write); [reflexivity|exact DisconnectProperties_write_same|].
  pose proof H as Hl. unfold Disconnect_len in Hl. destruct (di_reason_code p), (di_properties p); cbv zeta in Hl; lia.
Qed.
Lemma Disconnect_size_same p : frame_total (Disconnect_len p) < M -> Disconnect_size_m add p = Disconnect_size p.
Proof.
  unfold frame_total. intros H. unfold Disconnect_size_m, Disconnect_size. rewrite Disconnect_len_same by lia. cbv zeta.
  rewrite ?(total_same (Disconnect_len p)) by exact H. reflexivity.
Qed.
Lemma LastWill_write_same w : LastWill_len w < M -> LastWill_write_m add w = LastWill_write w.
Proof.
  intros H. unfold LastWill_write_m, LastWill_write. cbv zeta.
  rewrite (section_write_same LastWillProperties_len LastWillProperties_write); [reflexivity|exact LastWillProperties_write_same|].
  unfold LastWill_len in H. cbv zeta in H. lia.
Qed.
Lemma len_len_four n : len_len n <= 4.
Proof. unfold len_len. destruct (2097152 <=? n), (16384 <=? n), (128 <=? n); lia. Qed.
Lemma Connect_write_same c w l buf : frame_total (Connect_len c w l) < M ->
  Connect_write_m add c w l buf = Connect_write c w l buf.
Proof.
  unfold frame_total. intros H. unfold Connect_write_m, Connect_write. rewrite Connect_len_same by lia. cbv zeta.
  apply frame_same; [exact H|]. rewrite ?(total_same (Connect_len c w l)) by exact H.
  pose proof (len_len_four (Connect_len c w l)).
  assert (E : add (add (add (add 1 (len_len (Connect_len c w l))) 2) 4) 1 = 1 + len_len (Connect_len c w l) + 2 + 4 + 1).
  { rewrite (agrees 1), (agrees _ 2), (agrees _ 4), (agrees _ 1) by lia. reflexivity. }
  rewrite E. pose proof H as Hl. unfold Connect_len in Hl. cbv zeta in Hl.
  rewrite (section_write_same ConnectProperties_len ConnectProperties_write); [|exact ConnectProperties_write_same|lia].
  destruct w as [w|]; [rewrite (LastWill_write_same w) by lia|]; reflexivity.
Qed.

Lemma Disconnect_total d :
  1 + len_len (blen (fields_bytes (body_fields (P_Disconnect d)))) + blen (fields_bytes (body_fields (P_Disconnect d))) < M ->
  frame_total (Disconnect_len d) < M.
Proof.
  intros H. unfold frame_total. rewrite Disconnect_len_cases. cbn [body_fields] in H. revert H.
  set (items := opt_items DisconnectProperties_items (di_properties d)).
    destruct (disconnect_code (di_reason_code d) =? 0), (di_properties d) as [q|]; cbn [is_none andb];
      try (intros _; change (len_len 2) with 1; change (len_len 1) with 1; lia);
      (destruct (nonempty items) eqn:E;
        [cbn [negb andb]; rewrite fsize_app; intros H; exact H
        |intros _; assert (items = []) as -> by (destruct items; [reflexivity|discriminate E]);
         change (blen (fields_bytes (section_fields []))) with 1; change (len_len (1 + 1)) with 1; lia]).
Qed.

(** The size of the exact encoding decides. *)
Theorem machine_write_same p buf : blen (encode p) < M -> Packet_write_m add p buf = Packet_write p buf.
Proof.
  unfold encode, packet_fields. rewrite frame_size, varint_len. intros H.
  destruct p as [c w l|a|p|a| | |s|a|a|a|a|u|a|d]; cbn [Packet_write_m Packet_write].
  - apply Connect_write_same. cbn [body_fields] in H. rewrite <- Connect_len_eq in H. exact H.
  - apply ConnAck_write_same. rewrite <- ConnAck_len_eq in H. exact H.
  - apply Publish_write_same. rewrite <- Publish_len_eq in H. exact H.
  - apply PubAck_write_same. rewrite <- PubAck_len_eq in H. exact H.
  - reflexivity.
  - reflexivity.
  - apply Subscribe_write_same. rewrite <- Subscribe_len_eq in H. exact H.
  - apply SubAck_write_same. rewrite <- SubAck_len_eq in H. exact H.
  - apply PubRec_write_same. rewrite <- PubRec_len_eq in H. exact H.
  - apply PubRel_write_same. rewrite <- PubRel_len_eq in H. exact H.
  - apply PubComp_write_same. rewrite <- PubComp_len_eq in H. exact H.
  - apply Unsubscribe_write_same. rewrite <- Unsubscribe_len_eq in H. exact H.
  - apply UnsubAck_write_same. rewrite <- UnsubAck_len_eq in H. exact H.
  - apply Disconnect_write_same. apply Disconnect_total. exact H.
Qed.

(** ---------- Packets too large for the address space ---------- *)

(** A successful write that ends with less than M bytes in the buffer has appended at least k. *)
Definition fits {A} (w : W A) (k : N) : Prop :=
  forall buf a buf', w buf = (Ok a, buf') -> blen buf' < M -> blen buf + k <= blen buf'.
Lemma fits_bind {A B} (w : W A) (f : A -> W B) k1 k2 : fits w k1 -> (forall a, fits (f a) k2) -> fits (wbind w f) (k1 + k2).
Proof.
  intros H1 H2 buf b buf' E Hb. unfold wbind in E. destruct (w buf) as [[a| | |] mid] eqn:Ew; try discriminate E.
  pose proof (H2 a _ _ _ E Hb). pose proof (H1 _ _ _ Ew). lia.
Qed.
Lemma fits_ret {A} (a : A) : fits (wret a) 0.
Proof. intros buf b buf' E _. injection E as <- <-. lia. Qed.
Lemma fits_weaken {A} (w : W A) k k' : fits w k -> k' <= k -> fits w k'.
Proof. intros H Hk buf a buf' E Hb. pose proof (H _ _ _ E Hb). lia. Qed.
Lemma fits_end {A B} (w : W A) (a : B) k : fits w k -> fits (do_ w; wret a) k.
Proof. intros H. replace k with (k + 0) by lia. apply fits_bind; [exact H|intros _; apply fits_ret]. Qed.
Lemma writes_fits w l : writes w l -> fits w (blen (fields_bytes l)).
Proof.
  intros H buf a buf' E _. rewrite H, emit_eq in E. destruct (first_error l); [discriminate E|].
  injection E as <- <-. rewrite blen_app. lia.
Qed.
Lemma fits_var n : fits (write_remaining_length n) (len_len n).
Proof.
  intros buf a buf' E _. rewrite write_remaining_length_eq in E. destruct (n <=? max_varint); [|discriminate E].
  injection E as <- <-. rewrite blen_app, varint_len. lia.
Qed.
Lemma fits_u8 n : fits (put_u8 n) 1.
Proof. apply (writes_fits _ [FByte n]). apply writes_u8. Qed.
Lemma fits_u16 n : fits (put_u16 n) 2.
Proof. apply (writes_fits _ [FTwo n]). apply writes_u16. Qed.
Lemma fits_str s : fits (write_mqtt_string s) (2 + blen s).
Proof. rewrite <- fsize_bin. change (blen (field_bytes (FBin s))) with (blen (field_bytes (FBin s))).
  eapply fits_weaken; [apply writes_fits; apply writes_string|]. rewrite fsize_cons. lia. Qed.
Lemma fits_bin s : fits (write_mqtt_bytes s) (2 + blen s).
Proof. rewrite <- fsize_bin. eapply fits_weaken; [apply writes_fits; apply writes_bytes|]. rewrite fsize_cons. lia. Qed.
Lemma fits_slice s : fits (put_slice s) (blen s).
Proof. intros buf a buf' E _. injection E as <- <-. rewrite blen_app. lia. Qed.
Lemma fits_section {A} (len len_m : A -> N) (wr_m : A -> W unit) (items : A -> list item) o :
  (forall q, writes (wr_m q) (FVar (len_m q) :: items_fields (items q))) ->
  (forall q, len q = isize (items q)) ->
  (forall q, len q < M -> len_m q = len q) ->
  fits (match o with Some q => wr_m q | None => do_ write_remaining_length 0; wret tt end)
       (match o with Some q => len_len (len q) + len q | None => 1 end).
Proof.
  intros Hw Hl Hm. destruct o as [q|].
  - intros buf a buf' E Hb. pose proof (writes_fits _ _ (Hw q) _ _ _ E Hb) as G.
    rewrite fsize_cons in G. cbn [field_bytes] in G. rewrite varint_len in G.
    change (blen (fields_bytes (items_fields (items q)))) with (isize (items q)) in G. rewrite <- Hl in G.
    rewrite Hm in G by lia. exact G.
  - apply fits_end. apply (fits_var 0).
Qed.
Lemma ConnectProperties_write_m_eq p : writes (ConnectProperties_write_m add p) (FVar (ConnectProperties_len_m add p) :: items_fields (ConnectProperties_items p)).
Proof.
  unfold ConnectProperties_write_m. apply writes_var. unfold ConnectProperties_items, ack_items. items_writes.
Qed.
Lemma LastWillProperties_write_m_eq p : writes (LastWillProperties_write_m add p) (FVar (LastWillProperties_len_m add p) :: items_fields (LastWillProperties_items p)).
Proof.
  unfold LastWillProperties_write_m. apply writes_var. unfold LastWillProperties_items, ack_items. items_writes.
Qed.
Lemma ConnAckProperties_write_m_eq p : writes (ConnAckProperties_write_m add p) (FVar (ConnAckProperties_len_m add p) :: items_fields (ConnAckProperties_items p)).
Proof.
  unfold ConnAckProperties_write_m. apply writes_var. unfold ConnAckProperties_items, ack_items. items_writes.
Qed.
Lemma PublishProperties_write_m_eq p : writes (PublishProperties_write_m add p) (FVar (PublishProperties_len_m add p) :: items_fields (PublishProperties_items p)).
Proof.
  unfold PublishProperties_write_m. apply writes_var. unfold PublishProperties_items, ack_items. items_writes.
Qed.
Lemma PubAckProperties_write_m_eq p : writes (PubAckProperties_write_m add p) (FVar (PubAckProperties_len_m add p) :: items_fields (PubAckProperties_items p)).
Proof.
  unfold PubAckProperties_write_m. apply writes_var. unfold PubAckProperties_items, ack_items. items_writes.
Qed.
Lemma PubRecProperties_write_m_eq p : writes (PubRecProperties_write_m add p) (FVar (PubRecProperties_len_m add p) :: items_fields (PubRecProperties_items p)).
Proof.
  unfold PubRecProperties_write_m. apply writes_var. unfold PubRecProperties_items, ack_items. items_writes.
Qed.
Lemma PubRelProperties_write_m_eq p : writes (PubRelProperties_write_m add p) (FVar (PubRelProperties_len_m add p) :: items_fields (PubRelProperties_items p)).
Proof.
  unfold PubRelProperties_write_m. apply writes_var. unfold PubRelProperties_items, ack_items. items_writes.
Qed.
Lemma PubCompProperties_write_m_eq p : writes (PubCompProperties_write_m add p) (FVar (PubCompProperties_len_m add p) :: items_fields (PubCompProperties_items p)).
Proof.
  unfold PubCompProperties_write_m. apply writes_var. unfold PubCompProperties_items, ack_items. items_writes.
Qed.
Lemma SubscribeProperties_write_m_eq p : writes (SubscribeProperties_write_m add p) (FVar (SubscribeProperties_len_m add p) :: items_fields (SubscribeProperties_items p)).
Proof.
  unfold SubscribeProperties_write_m. apply writes_var. unfold SubscribeProperties_items, ack_items. items_writes.
Qed.
Lemma SubAckProperties_write_m_eq p : writes (SubAckProperties_write_m add p) (FVar (SubAckProperties_len_m add p) :: items_fields (SubAckProperties_items p)).
Proof.
  unfold SubAckProperties_write_m. apply writes_var. unfold SubAckProperties_items, ack_items. items_writes.
Qed.
Lemma UnsubscribeProperties_write_m_eq p : writes (UnsubscribeProperties_write_m add p) (FVar (UnsubscribeProperties_len_m add p) :: items_fields (UnsubscribeProperties_items p)).
Proof.
  unfold UnsubscribeProperties_write_m. apply writes_var. unfold UnsubscribeProperties_items, ack_items. items_writes.
Qed.
Lemma UnsubAckProperties_write_m_eq p : writes (UnsubAckProperties_write_m add p) (FVar (UnsubAckProperties_len_m add p) :: items_fields (UnsubAckProperties_items p)).
Proof.
  unfold UnsubAckProperties_write_m. apply writes_var. unfold UnsubAckProperties_items, ack_items. items_writes.
Qed.
Lemma DisconnectProperties_write_m_eq p : writes (DisconnectProperties_write_m add p) (FVar (DisconnectProperties_len_m add p) :: items_fields (DisconnectProperties_items p)).
Proof.
  unfold DisconnectProperties_write_m. apply writes_var. unfold DisconnectProperties_items, ack_items. items_writes.
Qed.

Lemma fits_end' {A B} (w : W A) (f : A -> B) k : fits w k -> fits (do x <- w; wret (f x)) k.
Proof. intros H. replace k with (k + 0) by lia. apply fits_bind; [exact H|intros x; apply fits_ret]. Qed.
(** With the content accounted for, the length that was computed was right. *)
Lemma fits_framed {A} (w : W A) n n_m : fits w (1 + (len_len n_m + n)) -> (n < M -> n_m = n) ->
  forall buf a buf', w buf = (Ok a, buf') -> blen buf' < M -> frame_total n < M.
Proof.
  intros H Hn buf a buf' E Hb. pose proof (H _ _ _ E Hb) as G. rewrite Hn in G by lia. unfold frame_total. lia.
Qed.
Lemma fits_frame b n_m n (k : N -> W N) : (forall c, fits (k c) n) ->
  fits (do_ put_u8 b; wbind (write_remaining_length n_m) k) (1 + (len_len n_m + n)).
Proof. intros H. apply fits_bind; [apply fits_u8|intros _]. apply fits_bind; [apply fits_var|exact H]. Qed.


Lemma fits_fail {A} e k : fits (wfail (A:=A) e) k.
Proof. intros buf a buf' E. discriminate E. Qed.
Lemma fits_lift {A} (r : res A) : fits (wlift r) 0.
Proof. intros buf a buf' E _. unfold wlift in E. destruct r; inversion E; subst. lia. Qed.
Lemma fits_codes {A} (f : A -> N) l : fits (put_slice (map f l)) (N.of_nat (length l)).
Proof. eapply fits_weaken; [apply fits_slice|]. unfold blen. rewrite map_length. lia. Qed.
Lemma fits_filters l : fits (wfor l Filter_write) (fold_left (fun a t => a + Filter_len t) l 0).
Proof.
  rewrite <- filters_size, N.add_0_l. apply writes_fits. apply writes_for. apply Filter_writes.
Qed.
Lemma fits_strs l : fits (wfor l write_mqtt_string) (fold_left (fun s t => 2 + s + blen t) l 0).
Proof.
  rewrite <- strs_size, N.add_0_l, map_flat. apply writes_fits. apply writes_for. apply writes_string.
Qed.
Ltac fit sec :=
  first [ apply fits_ret | apply fits_u8 | apply fits_u16 | apply fits_str | apply fits_bin | apply fits_codes | apply fits_slice
        | apply fits_filters | apply fits_strs | apply fits_lift
        | sec | eapply fits_bind; [fit sec|intros ?; cbv beta; fit sec] ].
Lemma ConnAck_fits p buf n buf' : ConnAck_write_m add p buf = (Ok n, buf') -> blen buf' < M -> frame_total (ConnAck_len p) < M.
Proof.
  apply (fits_framed _ _ (ConnAck_len_m add p)); [|apply ConnAck_len_same]. unfold ConnAck_write_m. cbv zeta. apply fits_frame. intros c.
  unfold ConnAck_len. cbv zeta. eapply fits_weaken; [fit ltac:(apply (fits_section _ _ _ _ _ ConnAckProperties_write_m_eq ConnAckProperties_len_eq ConnAckProperties_len_same))|]. lia.
Qed.
Lemma SubAck_fits p buf n buf' : SubAck_write_m add p buf = (Ok n, buf') -> blen buf' < M -> frame_total (SubAck_len p) < M.
Proof.
  apply (fits_framed _ _ (SubAck_len_m add p)); [|apply SubAck_len_same]. unfold SubAck_write_m. cbv zeta. apply fits_frame. intros c.
  unfold SubAck_len. cbv zeta. eapply fits_weaken; [fit ltac:(apply (fits_section _ _ _ _ _ SubAckProperties_write_m_eq SubAckProperties_len_eq SubAckProperties_len_same))|]. lia.
Qed.
Lemma UnsubAck_fits p buf n buf' : UnsubAck_write_m add p buf = (Ok n, buf') -> blen buf' < M -> frame_total (UnsubAck_len p) < M.
Proof.
  apply (fits_framed _ _ (UnsubAck_len_m add p)); [|apply UnsubAck_len_same]. unfold UnsubAck_write_m. cbv zeta. apply fits_frame. intros c.
  unfold UnsubAck_len. cbv zeta. eapply fits_weaken; [fit ltac:(apply (fits_section _ _ _ _ _ UnsubAckProperties_write_m_eq UnsubAckProperties_len_eq UnsubAckProperties_len_same))|]. lia.
Qed.
Lemma PubAck_fits p buf n buf' : PubAck_write_m add p buf = (Ok n, buf') -> blen buf' < M -> frame_total (PubAck_len p) < M.
Proof.
  apply (fits_framed _ _ (PubAck_len_m add p)); [|apply PubAck_len_same]. unfold PubAck_write_m. cbv zeta. apply fits_frame. intros c.
  unfold PubAck_len. destruct (PubAck_is_short p).
  - eapply fits_weaken; [fit fail|]. lia.
  - cbv zeta. eapply fits_weaken; [fit ltac:(apply (fits_section _ _ _ _ _ PubAckProperties_write_m_eq PubAckProperties_len_eq PubAckProperties_len_same))|]. lia.
Qed.
Lemma PubRec_fits p buf n buf' : PubRec_write_m add p buf = (Ok n, buf') -> blen buf' < M -> frame_total (PubRec_len p) < M.
Proof.
  apply (fits_framed _ _ (PubRec_len_m add p)); [|apply PubRec_len_same]. unfold PubRec_write_m. cbv zeta. apply fits_frame. intros c.
  unfold PubRec_len. destruct (PubRec_is_short p).
  - eapply fits_weaken; [fit fail|]. lia.
  - cbv zeta. eapply fits_weaken; [fit ltac:(apply (fits_section _ _ _ _ _ PubRecProperties_write_m_eq PubRecProperties_len_eq PubRecProperties_len_same))|]. lia.
Qed.
Lemma PubRel_fits p buf n buf' : PubRel_write_m add p buf = (Ok n, buf') -> blen buf' < M -> frame_total (PubRel_len p) < M.
Proof.
  apply (fits_framed _ _ (PubRel_len_m add p)); [|apply PubRel_len_same]. unfold PubRel_write_m. cbv zeta. apply fits_frame. intros c.
  unfold PubRel_len. destruct (PubRel_is_short p).
  - eapply fits_weaken; [fit fail|]. lia.
  - cbv zeta. eapply fits_weaken; [fit ltac:(apply (fits_section _ _ _ _ _ PubRelProperties_write_m_eq PubRelProperties_len_eq PubRelProperties_len_same))|]. lia.
Qed.
Lemma PubComp_fits p buf n buf' : PubComp_write_m add p buf = (Ok n, buf') -> blen buf' < M -> frame_total (PubComp_len p) < M.
Proof.
  apply (fits_framed _ _ (PubComp_len_m add p)); [|apply PubComp_len_same]. unfold PubComp_write_m. cbv zeta. apply fits_frame. intros c.
  unfold PubComp_len. destruct (PubComp_is_short p).
  - eapply fits_weaken; [fit fail|]. lia.
  - cbv zeta. eapply fits_weaken; [fit ltac:(apply (fits_section _ _ _ _ _ PubCompProperties_write_m_eq PubCompProperties_len_eq PubCompProperties_len_same))|]. lia.
Qed.
Lemma Subscribe_fits p buf n buf' : Subscribe_write_m add p buf = (Ok n, buf') -> blen buf' < M -> frame_total (Subscribe_len p) < M.
Proof.
  apply (fits_framed _ _ (Subscribe_len_m add p)); [|apply Subscribe_len_same]. unfold Subscribe_write_m. cbv zeta. apply fits_frame. intros c.
  unfold Subscribe_len. cbv zeta. eapply fits_weaken; [fit ltac:(apply (fits_section _ _ _ _ _ SubscribeProperties_write_m_eq SubscribeProperties_len_eq SubscribeProperties_len_same))|]. lia.
Qed.
Lemma Unsubscribe_fits p buf n buf' : Unsubscribe_write_m add p buf = (Ok n, buf') -> blen buf' < M -> frame_total (Unsubscribe_len p) < M.
Proof.
  apply (fits_framed _ _ (Unsubscribe_len_m add p)); [|apply Unsubscribe_len_same]. unfold Unsubscribe_write_m. cbv zeta. apply fits_frame. intros c.
  unfold Unsubscribe_len. cbv zeta. eapply fits_weaken; [fit ltac:(apply (fits_section _ _ _ _ _ UnsubscribeProperties_write_m_eq UnsubscribeProperties_len_eq UnsubscribeProperties_len_same))|]. lia.
Qed.
Lemma Publish_fits p buf n buf' : Publish_write_m add p buf = (Ok n, buf') -> blen buf' < M -> frame_total (Publish_len p) < M.
Proof.
  apply (fits_framed _ _ (Publish_len_m add p)); [|apply Publish_len_same]. unfold Publish_write_m. cbv zeta. apply fits_frame. intros c.
  unfold Publish_len. cbv zeta.
  destruct (QoS_eqb (pu_qos p) AtMostOnce); cbn [negb andb].
  - eapply fits_weaken; [fit ltac:(apply (fits_section _ _ _ _ _ PublishProperties_write_m_eq PublishProperties_len_eq PublishProperties_len_same))|]. lia.
  - destruct (pu_pkid p =? 0); cbn [negb].
    + eapply fits_weaken.
      * eapply fits_bind; [apply fits_str|intros ?]. apply (fits_bind _ _ (2 + blen (pu_payload p) + (match pu_properties p with Some q => len_len (PublishProperties_len q) + PublishProperties_len q | None => 1 end)) 0); [apply fits_fail|intros ?].
        eapply fits_weaken; [fit ltac:(apply (fits_section _ _ _ _ _ PublishProperties_write_m_eq PublishProperties_len_eq PublishProperties_len_same))|]. lia.
      * lia.
    + eapply fits_weaken; [fit ltac:(apply (fits_section _ _ _ _ _ PublishProperties_write_m_eq PublishProperties_len_eq PublishProperties_len_same))|]. lia.
Qed.
(** DISCONNECT compares the computed length with 2 and then writes nothing of its content. *)
Lemma Disconnect_fits p buf n buf' : Disconnect_write_m add p buf = (Ok n, buf') -> blen buf' < M ->
  frame_total (Disconnect_len p) < M \/ (n = 2 /\ buf' = buf ++ [224; 0]).
Proof.
  destruct (di_properties p) as [q|] eqn:Eq.
  2: { intros _ _. left. unfold Disconnect_len. rewrite Eq. destruct (di_reason_code p); unfold frame_total;
       change (len_len 2) with 1; change (len_len 1) with 1; lia. }
  assert (El : Disconnect_len p = 1 + (len_len (DisconnectProperties_len q) + DisconnectProperties_len q)).
  { unfold Disconnect_len. rewrite Eq. destruct (di_reason_code p); reflexivity. }
  unfold Disconnect_write_m. cbv zeta. destruct (N.eqb_spec (Disconnect_len_m add p) 2) as [E|E].
  - intros Ew _. right. unfold wbind, put_u8, put_slice, wret in Ew. injection Ew as <- <-.
    split; [exact E|]. rewrite <- app_assoc. reflexivity.
  - intros Ew Hb. left. revert Ew Hb.
    apply (fits_framed _ _ (Disconnect_len_m add p)); [|apply Disconnect_len_same]. apply fits_frame. intros c.
    rewrite Eq, El. eapply fits_weaken; [fit ltac:(apply (fits_section _ _ _ _ (Some q) DisconnectProperties_write_m_eq DisconnectProperties_len_eq DisconnectProperties_len_same))|]. lia.
Qed.

Lemma LastWill_write_fits w : fits (LastWill_write_m add w) (LastWill_len w).
Proof.
  unfold LastWill_write_m, LastWill_len. cbv zeta.
  eapply fits_weaken; [fit ltac:(apply (fits_section _ _ _ _ _ LastWillProperties_write_m_eq LastWillProperties_len_eq LastWillProperties_len_same))|]. lia.
Qed.
Lemma Login_write_fits l : fits (Login_write l) (Login_len l).
Proof.
  unfold Login_write, Login_len.
  destruct (is_empty (lo_username l)), (is_empty (lo_password l)); cbn [negb];
    (eapply fits_weaken; [fit fail|]; lia).
Qed.
Lemma fits_index i v : fits (set_index i v) 0.
Proof.
  intros buf a buf' E _. unfold set_index in E. destruct (N.ltb_spec i (blen buf)); [|discriminate E].
  apply (f_equal snd) in E. cbn [snd] in E. subst buf'. rewrite blen_app, blen_cons. unfold blen in *.
  rewrite firstn_length, skipn_length. lia.
Qed.
Lemma Connect_fits c w l buf n buf' : Connect_write_m add c w l buf = (Ok n, buf') -> blen buf' < M ->
  frame_total (Connect_len c w l) < M.
Proof.
  apply (fits_framed _ _ (Connect_len_m add c w l)); [|apply Connect_len_same]. unfold Connect_write_m. cbv zeta. apply fits_frame. intros k.
  unfold Connect_len. cbv zeta.
  eapply fits_weaken.
  - eapply fits_bind; [apply fits_str|intros _]. eapply fits_bind; [apply fits_u8|intros _].
    eapply fits_bind; [apply fits_u8|intros _]. eapply fits_bind; [apply fits_u16|intros _].
    eapply fits_bind; [apply (fits_section _ _ _ _ _ ConnectProperties_write_m_eq ConnectProperties_len_eq ConnectProperties_len_same)|intros _].
    eapply fits_bind; [apply fits_str|intros _].
    apply (fits_bind _ _ (match w with Some w => LastWill_len w | None => 0 end)).
    { destruct w as [w|]; [|apply fits_ret]. apply fits_end'. apply LastWill_write_fits. }
    intros f. apply (fits_bind _ _ (match l with Some l => Login_len l | None => 0 end)).
    { destruct l as [l|]; [|apply fits_ret]. apply fits_end'. apply Login_write_fits. }
    intros f'. apply fits_end. apply fits_index.
  - change (blen str_MQTT) with 4. lia.
Qed.

Definition is_disconnect (p : Packet) : bool := match p with P_Disconnect _ => true | _ => false end.

(** A machine write that returns Ok with the buffer still within the address space: the packet was
    not too large after all. *)
Theorem machine_write_fits p buf n buf' :
  Packet_write_m add p buf = (Ok n, buf') -> blen buf' < M ->
  blen (encode p) < M \/ (is_disconnect p = true /\ n = 2 /\ buf' = buf ++ [224; 0]).
Proof.
  unfold encode, packet_fields. rewrite frame_size, varint_len.
  destruct p as [c w l|a|p|a| | |s|a|a|a|a|u|a|d]; cbn [Packet_write_m is_disconnect]; intros E Hb;
    try (left; cbn [body_fields]; rewrite <- Connect_len_eq; exact (Connect_fits _ _ _ _ _ _ E Hb));
    try (left; rewrite <- ConnAck_len_eq; exact (ConnAck_fits _ _ _ _ E Hb));
    try (left; rewrite <- Publish_len_eq; exact (Publish_fits _ _ _ _ E Hb));
    try (left; rewrite <- PubAck_len_eq; exact (PubAck_fits _ _ _ _ E Hb));
    try (left; rewrite <- PubRec_len_eq; exact (PubRec_fits _ _ _ _ E Hb));
    try (left; rewrite <- PubRel_len_eq; exact (PubRel_fits _ _ _ _ E Hb));
    try (left; rewrite <- PubComp_len_eq; exact (PubComp_fits _ _ _ _ E Hb));
    try (left; rewrite <- Subscribe_len_eq; exact (Subscribe_fits _ _ _ _ E Hb));
    try (left; rewrite <- SubAck_len_eq; exact (SubAck_fits _ _ _ _ E Hb));
    try (left; rewrite <- Unsubscribe_len_eq; exact (Unsubscribe_fits _ _ _ _ E Hb));
    try (left; rewrite <- UnsubAck_len_eq; exact (UnsubAck_fits _ _ _ _ E Hb)).
  - left. change (blen (fields_bytes (body_fields P_PingReq))) with 0. change (len_len 0) with 1. lia.
  - left. change (blen (fields_bytes (body_fields P_PingResp))) with 0. change (len_len 0) with 1. lia.
  - destruct (Disconnect_fits _ _ _ _ E Hb) as [H|H]; [left|right; auto]. clear E. revert H.
    unfold frame_total. rewrite Disconnect_len_cases. cbn [body_fields].
    set (items := opt_items DisconnectProperties_items (di_properties d)).
    destruct (disconnect_code (di_reason_code d) =? 0), (di_properties d) as [q|] eqn:Eq; cbn [is_none andb].
    all: destruct (nonempty items) eqn:En; cbn [negb andb].
    all: try (assert (items = []) as -> by (destruct items; [reflexivity|discriminate En])).
    all: try (intros _; match goal with |- 1 + len_len (blen ?x) + _ < _ => change (blen x) with 0 end; change (len_len 0) with 1; lia).
    all: try (rewrite fsize_app; intros H; exact H).
    all: try (subst items; discriminate En).
    all: intros _; change (blen (fields_bytes ([FByte (disconnect_code (di_reason_code d))] ++ section_fields []))) with 2; change (len_len 2) with 1; lia.
Qed.
End Sums.
