(** The writers and the framing with checked additions against the model's. *)
From Verif Require Import Types MLib MConnect Model MDebug Spec Wire PBase PVarint PRead PItems PProps PFrame PWire PWrite.

Section Checked.
Context (M : N) (big : 2 ^ 32 <= M).

(** A sum that is exact, or a panic because it is too large; [some] is the same for a number that
    need not be a sum. *)
Definition some (r : res N) (x : N) : Prop := r = Ok x \/ r = Panic /\ M <= x.
Definition sum (r : res N) (x : N) : Prop := r = Ok x /\ x < M \/ r = Panic /\ M <= x.

Lemma small x : x < 1024 -> x < M.
Proof. clear -big. change (2 ^ 32) with 4294967296 in big. lia. Qed.
Lemma sum_some r x : sum r x -> some r x.
Proof. intros [[H _]|H]; [left; exact H|right; exact H]. Qed.
Lemma some_ok x : some (Ok x) x.
Proof. left. reflexivity. Qed.
Lemma sum_ok x : x < 1024 -> sum (Ok x) x.
Proof. intros H. left. split; [reflexivity|apply small; exact H]. Qed.
Lemma sum_add r s x y : some r x -> some s y -> sum (cadd M r s) (x + y).
Proof.
  intros [->|[-> H1]] [->|[-> H2]]; unfold cadd; cbn [rbind]; try (right; split; [reflexivity|lia]).
  destruct (N.ltb_spec (x + y) M) as [H|H]; [left|right]; auto.
Qed.
Lemma sum_if_some (o : option N) r x : sum r x -> sum (len_if_some_d o r) (len_if_some o x).
Proof. intros H. destruct o; [exact H|]. apply (sum_ok 0). lia. Qed.
Lemma sum_str o : sum (len_str_d M o) (len_str o).
Proof. destruct o as [s|]; [|apply (sum_ok 0); lia]. cbn [len_str_d len_str]. repeat apply sum_add; try apply sum_some, sum_add; apply some_ok. Qed.
Lemma sum_fold {A} (f : res N -> A -> res N) (g : N -> A -> N) l r x :
  (forall r x a, sum r x -> sum (f r a) (g x a)) -> sum r x -> sum (fold_left f l r) (fold_left g l x).
Proof. intros Hf. revert r x. induction l as [|a l IH]; intros r x H; cbn [fold_left]; [exact H|]. apply IH, Hf, H. Qed.

Ltac sums :=
  first [ eassumption
        | apply sum_if_some; sums
        | apply sum_add; (first [apply some_ok | apply sum_some; sums])
        | apply sum_str
        | apply sum_ok; lia
        | apply sum_fold; [intros ? ? ? ?; sums | sums] ].

Lemma sum_user_props l : sum (user_props_len_d M l) (user_props_len l).
Proof. unfold user_props_len_d, user_props_len. apply sum_fold; [intros r x [k v] H; sums|sums]. Qed.

Ltac sums' :=
  first [ eassumption
        | apply sum_user_props
        | apply sum_if_some; sums'
        | apply sum_add; (first [apply some_ok | apply sum_some; sums'])
        | apply sum_str
        | apply sum_ok; lia
        | apply sum_fold; [intros ? ? ? ?; sums' | sums'] ].

Lemma ConnectProperties_sum p : sum (ConnectProperties_len_d M p) (ConnectProperties_len p).
Proof. unfold ConnectProperties_len_d, ConnectProperties_len. sums'. Qed.
Lemma ConnectProperties_write_checked p : ConnectProperties_len p < M -> ConnectProperties_write_d M p = ConnectProperties_write p.
Proof. intros H. unfold ConnectProperties_write_d. destruct (ConnectProperties_sum p) as [[-> _]|[_ G]]; [reflexivity|lia]. Qed.
Lemma LastWillProperties_sum p : sum (LastWillProperties_len_d M p) (LastWillProperties_len p).
Proof. unfold LastWillProperties_len_d, LastWillProperties_len. sums'. Qed.
Lemma LastWillProperties_write_checked p : LastWillProperties_len p < M -> LastWillProperties_write_d M p = LastWillProperties_write p.
Proof. intros H. unfold LastWillProperties_write_d. destruct (LastWillProperties_sum p) as [[-> _]|[_ G]]; [reflexivity|lia]. Qed.
Lemma ConnAckProperties_sum p : sum (ConnAckProperties_len_d M p) (ConnAckProperties_len p).
Proof. unfold ConnAckProperties_len_d, ConnAckProperties_len. sums'. Qed.
Lemma ConnAckProperties_write_checked p : ConnAckProperties_len p < M -> ConnAckProperties_write_d M p = ConnAckProperties_write p.
Proof. intros H. unfold ConnAckProperties_write_d. destruct (ConnAckProperties_sum p) as [[-> _]|[_ G]]; [reflexivity|lia]. Qed.
Lemma PublishProperties_sum p : sum (PublishProperties_len_d M p) (PublishProperties_len p).
Proof. unfold PublishProperties_len_d, PublishProperties_len. sums'. Qed.
Lemma PublishProperties_write_checked p : PublishProperties_len p < M -> PublishProperties_write_d M p = PublishProperties_write p.
Proof. intros H. unfold PublishProperties_write_d. destruct (PublishProperties_sum p) as [[-> _]|[_ G]]; [reflexivity|lia]. Qed.
Lemma PubAckProperties_sum p : sum (PubAckProperties_len_d M p) (PubAckProperties_len p).
Proof. unfold PubAckProperties_len_d, PubAckProperties_len. sums'. Qed.
Lemma PubAckProperties_write_checked p : PubAckProperties_len p < M -> PubAckProperties_write_d M p = PubAckProperties_write p.
Proof. intros H. unfold PubAckProperties_write_d. destruct (PubAckProperties_sum p) as [[-> _]|[_ G]]; [reflexivity|lia]. Qed.
Lemma PubRecProperties_sum p : sum (PubRecProperties_len_d M p) (PubRecProperties_len p).
Proof. unfold PubRecProperties_len_d, PubRecProperties_len. sums'. Qed.
Lemma PubRecProperties_write_checked p : PubRecProperties_len p < M -> PubRecProperties_write_d M p = PubRecProperties_write p.
Proof. intros H. unfold PubRecProperties_write_d. destruct (PubRecProperties_sum p) as [[-> _]|[_ G]]; [reflexivity|lia]. Qed.
Lemma PubRelProperties_sum p : sum (PubRelProperties_len_d M p) (PubRelProperties_len p).
Proof. unfold PubRelProperties_len_d, PubRelProperties_len. sums'. Qed.
Lemma PubRelProperties_write_checked p : PubRelProperties_len p < M -> PubRelProperties_write_d M p = PubRelProperties_write p.
Proof. intros H. unfold PubRelProperties_write_d. destruct (PubRelProperties_sum p) as [[-> _]|[_ G]]; [reflexivity|lia]. Qed.
Lemma PubCompProperties_sum p : sum (PubCompProperties_len_d M p) (PubCompProperties_len p).
Proof. unfold PubCompProperties_len_d, PubCompProperties_len. sums'. Qed.
Lemma PubCompProperties_write_checked p : PubCompProperties_len p < M -> PubCompProperties_write_d M p = PubCompProperties_write p.
Proof. intros H. unfold PubCompProperties_write_d. destruct (PubCompProperties_sum p) as [[-> _]|[_ G]]; [reflexivity|lia]. Qed.
Lemma SubscribeProperties_sum p : sum (SubscribeProperties_len_d M p) (SubscribeProperties_len p).
Proof. unfold SubscribeProperties_len_d, SubscribeProperties_len. destruct (sp_id p) as [i|]; sums'. Qed.
Lemma SubscribeProperties_write_checked p : SubscribeProperties_len p < M -> SubscribeProperties_write_d M p = SubscribeProperties_write p.
Proof. intros H. unfold SubscribeProperties_write_d. destruct (SubscribeProperties_sum p) as [[-> _]|[_ G]]; [reflexivity|lia]. Qed.
Lemma SubAckProperties_sum p : sum (SubAckProperties_len_d M p) (SubAckProperties_len p).
Proof. unfold SubAckProperties_len_d, SubAckProperties_len. sums'. Qed.
Lemma SubAckProperties_write_checked p : SubAckProperties_len p < M -> SubAckProperties_write_d M p = SubAckProperties_write p.
Proof. intros H. unfold SubAckProperties_write_d. destruct (SubAckProperties_sum p) as [[-> _]|[_ G]]; [reflexivity|lia]. Qed.
Lemma UnsubscribeProperties_sum p : sum (UnsubscribeProperties_len_d M p) (UnsubscribeProperties_len p).
Proof. unfold UnsubscribeProperties_len_d, UnsubscribeProperties_len. sums'. Qed.
Lemma UnsubscribeProperties_write_checked p : UnsubscribeProperties_len p < M -> UnsubscribeProperties_write_d M p = UnsubscribeProperties_write p.
Proof. intros H. unfold UnsubscribeProperties_write_d. destruct (UnsubscribeProperties_sum p) as [[-> _]|[_ G]]; [reflexivity|lia]. Qed.
Lemma UnsubAckProperties_sum p : sum (UnsubAckProperties_len_d M p) (UnsubAckProperties_len p).
Proof. unfold UnsubAckProperties_len_d, UnsubAckProperties_len. sums'. Qed.
Lemma UnsubAckProperties_write_checked p : UnsubAckProperties_len p < M -> UnsubAckProperties_write_d M p = UnsubAckProperties_write p.
Proof. intros H. unfold UnsubAckProperties_write_d. destruct (UnsubAckProperties_sum p) as [[-> _]|[_ G]]; [reflexivity|lia]. Qed.
Lemma DisconnectProperties_sum p : sum (DisconnectProperties_len_d M p) (DisconnectProperties_len p).
Proof. unfold DisconnectProperties_len_d, DisconnectProperties_len. sums'. Qed.
Lemma DisconnectProperties_write_checked p : DisconnectProperties_len p < M -> DisconnectProperties_write_d M p = DisconnectProperties_write p.
Proof. intros H. unfold DisconnectProperties_write_d. destruct (DisconnectProperties_sum p) as [[-> _]|[_ G]]; [reflexivity|lia]. Qed.

Lemma len_len_small n : len_len n <= 4.
Proof. unfold len_len. repeat match goal with |- context [?a <=? ?b] => destruct (a <=? b) end; lia. Qed.
(** Length of a section of properties with its own length before it. *)
Lemma sum_section {A} (len : A -> N) (len_d : A -> res N) (o : option A) : (forall p, sum (len_d p) (len p)) ->
  sum (match o with Some p => let properties_len := len_d p in cadd M (len_len_d properties_len) properties_len | None => Ok 1 end)
      (match o with Some p => let properties_len := len p in len_len properties_len + properties_len | None => 1 end).
Proof.
  intros H. destruct o as [p|]; [|apply (sum_ok 1); lia]. cbv zeta.
  destruct (H p) as [[-> G]|[-> G]].
  - apply sum_add; apply some_ok.
  - right. split; [reflexivity|lia].
Qed.
Lemma section_write_checked {A} (len : A -> N) (wr wr_d : A -> W unit) (o : option A) :
  (forall p, len p < M -> wr_d p = wr p) -> match o with Some p => len_len (len p) + len p | None => 1 end < M ->
  match o with Some p => wr_d p | None => do_ write_remaining_length 0; wret tt end
  = match o with Some p => wr p | None => do_ write_remaining_length 0; wret tt end.
Proof. intros H L. destruct o as [p|]; [|reflexivity]. apply H. lia. Qed.
Lemma ConnAck_sum p : sum (ConnAck_len_d M p) (ConnAck_len p).
Proof.
  unfold ConnAck_len_d, ConnAck_len. pose proof (sum_section ConnAckProperties_len (ConnAckProperties_len_d M) (ck_properties p) ConnAckProperties_sum) as S.
  sums'.
Qed.
Lemma Publish_sum p : sum (Publish_len_d M p) (Publish_len p).
Proof.
  unfold Publish_len_d, Publish_len. pose proof (sum_section PublishProperties_len (PublishProperties_len_d M) (pu_properties p) PublishProperties_sum) as S.
  destruct (negb (QoS_eqb (pu_qos p) AtMostOnce) && negb (pu_pkid p =? 0)); sums'.
Qed.
Lemma PubAck_sum p : sum (PubAck_len_d M p) (PubAck_len p).
Proof.
  unfold PubAck_len_d, PubAck_len. pose proof (sum_section PubAckProperties_len (PubAckProperties_len_d M) (pa_properties p) PubAckProperties_sum) as S.
  destruct (PubAck_is_short p); [apply (sum_ok 2); lia|]. sums'.
Qed.
Lemma PubRec_sum p : sum (PubRec_len_d M p) (PubRec_len p).
Proof.
  unfold PubRec_len_d, PubRec_len. pose proof (sum_section PubRecProperties_len (PubRecProperties_len_d M) (pr_properties p) PubRecProperties_sum) as S.
  destruct (PubRec_is_short p); [apply (sum_ok 2); lia|]. sums'.
Qed.
Lemma PubRel_sum p : sum (PubRel_len_d M p) (PubRel_len p).
Proof.
  unfold PubRel_len_d, PubRel_len. pose proof (sum_section PubRelProperties_len (PubRelProperties_len_d M) (pl_properties p) PubRelProperties_sum) as S.
  destruct (PubRel_is_short p); [apply (sum_ok 2); lia|]. sums'.
Qed.
Lemma PubComp_sum p : sum (PubComp_len_d M p) (PubComp_len p).
Proof.
  unfold PubComp_len_d, PubComp_len. pose proof (sum_section PubCompProperties_len (PubCompProperties_len_d M) (pc_properties p) PubCompProperties_sum) as S.
  destruct (PubComp_is_short p); [apply (sum_ok 2); lia|]. sums'.
Qed.
Lemma Subscribe_sum p : sum (Subscribe_len_d M p) (Subscribe_len p).
Proof.
  unfold Subscribe_len_d, Subscribe_len. pose proof (sum_section SubscribeProperties_len (SubscribeProperties_len_d M) (su_properties p) SubscribeProperties_sum) as S.
  sums'.
Qed.
Lemma SubAck_sum p : sum (SubAck_len_d M p) (SubAck_len p).
Proof.
  unfold SubAck_len_d, SubAck_len. pose proof (sum_section SubAckProperties_len (SubAckProperties_len_d M) (sa_properties p) SubAckProperties_sum) as S.
  sums'.
Qed.
Lemma Unsubscribe_sum p : sum (Unsubscribe_len_d M p) (Unsubscribe_len p).
Proof.
  unfold Unsubscribe_len_d, Unsubscribe_len. pose proof (sum_section UnsubscribeProperties_len (UnsubscribeProperties_len_d M) (un_properties p) UnsubscribeProperties_sum) as S.
  sums'.
Qed.
Lemma UnsubAck_sum p : sum (UnsubAck_len_d M p) (UnsubAck_len p).
Proof.
  unfold UnsubAck_len_d, UnsubAck_len. pose proof (sum_section UnsubAckProperties_len (UnsubAckProperties_len_d M) (ua_properties p) UnsubAckProperties_sum) as S.
  sums'.
Qed.
Lemma Disconnect_sum p : sum (Disconnect_len_d M p) (Disconnect_len p).
Proof.
  unfold Disconnect_len_d, Disconnect_len. pose proof (sum_section DisconnectProperties_len (DisconnectProperties_len_d M) (di_properties p) DisconnectProperties_sum) as S.
  destruct (di_properties p) as [q|]; [|destruct (di_reason_code p); first [apply (sum_ok 2); lia|apply (sum_ok 1); lia]].
  cbv zeta in *. destruct (di_reason_code p); apply sum_add; first [apply some_ok|apply sum_some; exact S].
Qed.
Lemma LastWill_sum w : sum (LastWill_len_d M w) (LastWill_len w).
Proof.
  unfold LastWill_len_d, LastWill_len. pose proof (sum_section LastWillProperties_len (LastWillProperties_len_d M) (lw_properties w) LastWillProperties_sum) as S.
  sums'.
Qed.
Lemma Login_sum l : sum (Login_len_d M l) (Login_len l).
Proof. unfold Login_len_d, Login_len. destruct (negb (is_empty (lo_username l))), (negb (is_empty (lo_password l))); sums'. Qed.
Lemma Connect_sum c w l : sum (Connect_len_d M c w l) (Connect_len c w l).
Proof.
  unfold Connect_len_d, Connect_len. pose proof (sum_section ConnectProperties_len (ConnectProperties_len_d M) (co_properties c) ConnectProperties_sum) as S.
  assert (S1 : sum (match w with Some w => LastWill_len_d M w | None => Ok 0 end) (match w with Some w => LastWill_len w | None => 0 end))
    by (destruct w as [w|]; [apply LastWill_sum|apply (sum_ok 0); lia]).
  assert (S2 : sum (match l with Some l => Login_len_d M l | None => Ok 0 end) (match l with Some l => Login_len l | None => 0 end))
    by (destruct l as [l|]; [apply Login_sum|apply (sum_ok 0); lia]).
  sums'.
Qed.

(** ---------- Sizes ---------- *)

(** What a frame with a body of n bytes takes. *)
Definition total (n : N) : N := 1 + len_len n + n.
Lemma sum_total r n : sum r n -> sum (let len := r in cadd M (cadd M (Ok 1) (len_len_d len)) len) (let len := n in 1 + len_len len + len).
Proof.
  intros [[-> H]|[-> H]]; cbv zeta.
  - apply sum_add; [apply sum_some, sum_add; apply some_ok|apply some_ok].
  - right. split; [reflexivity|lia].
Qed.
Lemma ConnAck_size_sum p : sum (ConnAck_size_d M p) (ConnAck_size p).
Proof. unfold ConnAck_size_d, ConnAck_size. apply sum_total, ConnAck_sum. Qed.
Lemma Publish_size_sum p : sum (Publish_size_d M p) (Publish_size p).
Proof. unfold Publish_size_d, Publish_size. apply sum_total, Publish_sum. Qed.
Lemma PubAck_size_sum p : sum (PubAck_size_d M p) (PubAck_size p).
Proof. unfold PubAck_size_d, PubAck_size. destruct (PubAck_is_short p); [apply (sum_ok 4); lia|]. apply sum_total, PubAck_sum. Qed.
Lemma PubRec_size_sum p : sum (PubRec_size_d M p) (PubRec_size p).
Proof. unfold PubRec_size_d, PubRec_size. apply sum_total, PubRec_sum. Qed.
Lemma PubRel_size_sum p : sum (PubRel_size_d M p) (PubRel_size p).
Proof. unfold PubRel_size_d, PubRel_size. destruct (PubRel_is_short p); [apply (sum_ok 4); lia|]. apply sum_total, PubRel_sum. Qed.
Lemma PubComp_size_sum p : sum (PubComp_size_d M p) (PubComp_size p).
Proof. unfold PubComp_size_d, PubComp_size. destruct (PubComp_is_short p); [apply (sum_ok 4); lia|]. apply sum_total, PubComp_sum. Qed.
Lemma Subscribe_size_sum p : sum (Subscribe_size_d M p) (Subscribe_size p).
Proof. unfold Subscribe_size_d, Subscribe_size. apply sum_total, Subscribe_sum. Qed.
Lemma SubAck_size_sum p : sum (SubAck_size_d M p) (SubAck_size p).
Proof. unfold SubAck_size_d, SubAck_size. apply sum_total, SubAck_sum. Qed.
Lemma Unsubscribe_size_sum p : sum (Unsubscribe_size_d M p) (Unsubscribe_size p).
Proof. unfold Unsubscribe_size_d, Unsubscribe_size. apply sum_total, Unsubscribe_sum. Qed.
Lemma UnsubAck_size_sum p : sum (UnsubAck_size_d M p) (UnsubAck_size p).
Proof. unfold UnsubAck_size_d, UnsubAck_size. apply sum_total, UnsubAck_sum. Qed.
Lemma Disconnect_size_sum p : sum (Disconnect_size_d M p) (Disconnect_size p).
Proof.
  unfold Disconnect_size_d, Disconnect_size. destruct (Disconnect_sum p) as [[-> H]|[-> H]]; cbn [rbind]; cbv zeta.
  - destruct (Disconnect_len p =? 2); [left; auto|]. sums'.
  - right. split; [reflexivity|]. destruct (N.eqb_spec (Disconnect_len p) 2) as [E|_]; lia.
Qed.

(** ---------- Writers ---------- *)

Lemma total_ok n : n <= max_varint -> cadd M (cadd M (Ok 1) (Ok (len_len n))) (Ok n) = Ok (1 + len_len n + n).
Proof.
  intros H. pose proof (len_len_small n). unfold max_varint in H. change (2 ^ 32) with 4294967296 in big.
  destruct (sum_add (cadd M (Ok 1) (Ok (len_len n))) (Ok n) (1 + len_len n) n) as [[E _]|[_ E]]; [apply sum_some, sum_add; apply some_ok|apply some_ok|exact E|lia].
Qed.
(** The common frame: a byte, the length, the rest; the rest only runs when the length fits. *)
Lemma frame_checked b n (k k' : N -> W N) :
  (n <= max_varint -> k (len_len n) = k' (len_len n)) ->
  forall buf, (do_ put_u8 b; wbind (write_remaining_length n) k) buf = (do_ put_u8 b; wbind (write_remaining_length n) k') buf.
Proof.
  intros H buf. unfold wbind. destruct (put_u8 b buf) as [[]?]; try reflexivity.
  rewrite write_remaining_length_eq. destruct (N.leb_spec n max_varint) as [L|L]; [|reflexivity].
  rewrite varint_len, H by exact L. reflexivity.
Qed.
(** A write that panics having added at most one byte. *)
Definition panics (w : W N) (buf : bytes) : Prop := exists t, w buf = (Panic, buf ++ t) /\ blen t <= 1.
Lemma panics_early (f : N -> W N) buf : panics (wbind (wlift Panic) f) buf.
Proof. exists []. rewrite app_nil_r. split; [reflexivity|vm_compute; discriminate]. Qed.
Lemma panics_late b (f : N -> W N) buf : panics (do_ put_u8 b; wbind (wlift Panic) f) buf.
Proof. eexists. split; [reflexivity|]. vm_compute. discriminate. Qed.
Lemma too_long b n (k : N -> W N) buf : M <= n -> fst ((do_ put_u8 b; wbind (write_remaining_length n) k) buf) = Err PayloadTooLong.
Proof.
  intros H. change (2 ^ 32) with 4294967296 in big. unfold wbind, put_u8, put_slice. rewrite write_remaining_length_eq.
  destruct (N.leb_spec n max_varint) as [L|L]; [unfold max_varint in L; exfalso; lia|reflexivity].
Qed.
Lemma lift_ok {A B} (a : A) (f : A -> W B) : wbind (wlift (Ok a)) f = f a.
Proof. reflexivity. Qed.
Lemma ConnAck_write_checked p buf : ConnAck_len p < M -> ConnAck_write_d M p buf = ConnAck_write p buf.
Proof.
  intros H. unfold ConnAck_write_d, ConnAck_write. destruct (ConnAck_sum p) as [[-> _]|[_ G]]; [|lia]. cbv zeta.
  rewrite lift_ok.
  apply frame_checked. intros L. rewrite (total_ok _ L).
  rewrite (section_write_checked ConnAckProperties_len ConnAckProperties_write); [reflexivity|exact ConnAckProperties_write_checked|].
  pose proof H as Hl. unfold ConnAck_len in Hl. cbv zeta in Hl. lia.
Qed.
Lemma ConnAck_write_panics p buf : M <= ConnAck_len p -> panics (ConnAck_write_d M p) buf /\ fst (ConnAck_write p buf) = Err PayloadTooLong.
Proof.
  intros H. split; [unfold ConnAck_write_d; destruct (ConnAck_sum p) as [[_ G]|[-> _]]; [lia|apply panics_early]|].
  unfold ConnAck_write. cbv zeta. apply too_long. exact H.
Qed.
Lemma Publish_write_checked p buf : Publish_len p < M -> Publish_write_d M p buf = Publish_write p buf.
Proof.
  intros H. unfold Publish_write_d, Publish_write. destruct (Publish_sum p) as [[-> _]|[_ G]]; [|lia]. cbv zeta.
  rewrite lift_ok.
  apply frame_checked. intros L. rewrite (total_ok _ L).
  rewrite (section_write_checked PublishProperties_len PublishProperties_write); [reflexivity|exact PublishProperties_write_checked|].
  pose proof H as Hl. unfold Publish_len in Hl. cbv zeta in Hl. lia.
Qed.
Lemma Publish_write_panics p buf : M <= Publish_len p -> panics (Publish_write_d M p) buf /\ fst (Publish_write p buf) = Err PayloadTooLong.
Proof.
  intros H. split; [unfold Publish_write_d; destruct (Publish_sum p) as [[_ G]|[-> _]]; [lia|apply panics_early]|].
  unfold Publish_write. cbv zeta. apply too_long. exact H.
Qed.
Lemma PubAck_write_checked p buf : PubAck_len p < M -> PubAck_write_d M p buf = PubAck_write p buf.
Proof.
  intros H. unfold PubAck_write_d, PubAck_write. destruct (PubAck_sum p) as [[-> _]|[_ G]]; [|lia]. cbv zeta.
  rewrite lift_ok.
  apply frame_checked. intros L. destruct (PubAck_is_short p) eqn:Es; [reflexivity|]. rewrite (total_ok _ L).
  rewrite (section_write_checked PubAckProperties_len PubAckProperties_write); [reflexivity|exact PubAckProperties_write_checked|].
  pose proof H as Hl. unfold PubAck_len in Hl. rewrite Es in Hl; cbv zeta in Hl. lia.
Qed.
Lemma PubAck_write_panics p buf : M <= PubAck_len p -> panics (PubAck_write_d M p) buf /\ fst (PubAck_write p buf) = Err PayloadTooLong.
Proof.
  intros H. split; [unfold PubAck_write_d; destruct (PubAck_sum p) as [[_ G]|[-> _]]; [lia|apply panics_early]|].
  unfold PubAck_write. cbv zeta. apply too_long. exact H.
Qed.
Lemma PubRec_write_checked p buf : PubRec_len p < M -> PubRec_write_d M p buf = PubRec_write p buf.
Proof.
  intros H. unfold PubRec_write_d, PubRec_write. destruct (PubRec_sum p) as [[-> _]|[_ G]]; [|lia]. cbv zeta.
  rewrite lift_ok.
  apply frame_checked. intros L. destruct (PubRec_is_short p) eqn:Es; [reflexivity|]. rewrite (total_ok _ L).
  rewrite (section_write_checked PubRecProperties_len PubRecProperties_write); [reflexivity|exact PubRecProperties_write_checked|].
  pose proof H as Hl. unfold PubRec_len in Hl. rewrite Es in Hl; cbv zeta in Hl. lia.
Qed.
Lemma PubRec_write_panics p buf : M <= PubRec_len p -> panics (PubRec_write_d M p) buf /\ fst (PubRec_write p buf) = Err PayloadTooLong.
Proof.
  intros H. split; [unfold PubRec_write_d; destruct (PubRec_sum p) as [[_ G]|[-> _]]; [lia|apply panics_early]|].
  unfold PubRec_write. cbv zeta. apply too_long. exact H.
Qed.
Lemma PubRel_write_checked p buf : PubRel_len p < M -> PubRel_write_d M p buf = PubRel_write p buf.
Proof.
  intros H. unfold PubRel_write_d, PubRel_write. destruct (PubRel_sum p) as [[-> _]|[_ G]]; [|lia]. cbv zeta.
  rewrite lift_ok.
  apply frame_checked. intros L. destruct (PubRel_is_short p) eqn:Es; [reflexivity|]. rewrite (total_ok _ L).
  rewrite (section_write_checked PubRelProperties_len PubRelProperties_write); [reflexivity|exact PubRelProperties_write_checked|].
  pose proof H as Hl. unfold PubRel_len in Hl. rewrite Es in Hl; cbv zeta in Hl. lia.
Qed.
Lemma PubRel_write_panics p buf : M <= PubRel_len p -> panics (PubRel_write_d M p) buf /\ fst (PubRel_write p buf) = Err PayloadTooLong.
Proof.
  intros H. split; [unfold PubRel_write_d; destruct (PubRel_sum p) as [[_ G]|[-> _]]; [lia|apply panics_early]|].
  unfold PubRel_write. cbv zeta. apply too_long. exact H.
Qed.
Lemma PubComp_write_checked p buf : PubComp_len p < M -> PubComp_write_d M p buf = PubComp_write p buf.
Proof.
  intros H. unfold PubComp_write_d, PubComp_write. destruct (PubComp_sum p) as [[-> _]|[_ G]]; [|lia]. cbv zeta.
  rewrite lift_ok.
  apply frame_checked. intros L. destruct (PubComp_is_short p) eqn:Es; [reflexivity|]. rewrite (total_ok _ L).
  rewrite (section_write_checked PubCompProperties_len PubCompProperties_write); [reflexivity|exact PubCompProperties_write_checked|].
  pose proof H as Hl. unfold PubComp_len in Hl. rewrite Es in Hl; cbv zeta in Hl. lia.
Qed.
Lemma PubComp_write_panics p buf : M <= PubComp_len p -> panics (PubComp_write_d M p) buf /\ fst (PubComp_write p buf) = Err PayloadTooLong.
Proof.
  intros H. split; [unfold PubComp_write_d; destruct (PubComp_sum p) as [[_ G]|[-> _]]; [lia|apply panics_early]|].
  unfold PubComp_write. cbv zeta. apply too_long. exact H.
Qed.
Lemma Subscribe_write_checked p buf : Subscribe_len p < M -> Subscribe_write_d M p buf = Subscribe_write p buf.
Proof.
  intros H. unfold Subscribe_write_d, Subscribe_write. destruct (Subscribe_sum p) as [[-> _]|[_ G]]; [|lia]. cbv zeta.
  
  apply frame_checked. intros L. rewrite (total_ok _ L).
  rewrite (section_write_checked SubscribeProperties_len SubscribeProperties_write); [reflexivity|exact SubscribeProperties_write_checked|].
  pose proof H as Hl. unfold Subscribe_len in Hl. cbv zeta in Hl. lia.
Qed.
Lemma Subscribe_write_panics p buf : M <= Subscribe_len p -> panics (Subscribe_write_d M p) buf /\ fst (Subscribe_write p buf) = Err PayloadTooLong.
Proof.
  intros H. split; [unfold Subscribe_write_d; destruct (Subscribe_sum p) as [[_ G]|[-> _]]; [lia|apply panics_late]|].
  unfold Subscribe_write. cbv zeta. apply too_long. exact H.
Qed.
Lemma SubAck_write_checked p buf : SubAck_len p < M -> SubAck_write_d M p buf = SubAck_write p buf.
Proof.
  intros H. unfold SubAck_write_d, SubAck_write. destruct (SubAck_sum p) as [[-> _]|[_ G]]; [|lia]. cbv zeta.
  
  apply frame_checked. intros L. rewrite (total_ok _ L).
  rewrite (section_write_checked SubAckProperties_len SubAckProperties_write); [reflexivity|exact SubAckProperties_write_checked|].
  pose proof H as Hl. unfold SubAck_len in Hl. cbv zeta in Hl. lia.
Qed.
Lemma SubAck_write_panics p buf : M <= SubAck_len p -> panics (SubAck_write_d M p) buf /\ fst (SubAck_write p buf) = Err PayloadTooLong.
Proof.
  intros H. split; [unfold SubAck_write_d; destruct (SubAck_sum p) as [[_ G]|[-> _]]; [lia|apply panics_late]|].
  unfold SubAck_write. cbv zeta. apply too_long. exact H.
Qed.
Lemma Unsubscribe_write_checked p buf : Unsubscribe_len p < M -> Unsubscribe_write_d M p buf = Unsubscribe_write p buf.
Proof.
  intros H. unfold Unsubscribe_write_d, Unsubscribe_write. destruct (Unsubscribe_sum p) as [[-> _]|[_ G]]; [|lia]. cbv zeta.
  
  apply frame_checked. intros L. rewrite (total_ok _ L).
  rewrite (section_write_checked UnsubscribeProperties_len UnsubscribeProperties_write); [reflexivity|exact UnsubscribeProperties_write_checked|].
  pose proof H as Hl. unfold Unsubscribe_len in Hl. cbv zeta in Hl. lia.
Qed.
Lemma Unsubscribe_write_panics p buf : M <= Unsubscribe_len p -> panics (Unsubscribe_write_d M p) buf /\ fst (Unsubscribe_write p buf) = Err PayloadTooLong.
Proof.
  intros H. split; [unfold Unsubscribe_write_d; destruct (Unsubscribe_sum p) as [[_ G]|[-> _]]; [lia|apply panics_late]|].
  unfold Unsubscribe_write. cbv zeta. apply too_long. exact H.
Qed.
Lemma UnsubAck_write_checked p buf : UnsubAck_len p < M -> UnsubAck_write_d M p buf = UnsubAck_write p buf.
Proof.
  intros H. unfold UnsubAck_write_d, UnsubAck_write. destruct (UnsubAck_sum p) as [[-> _]|[_ G]]; [|lia]. cbv zeta.
  
  apply frame_checked. intros L. rewrite (total_ok _ L).
  rewrite (section_write_checked UnsubAckProperties_len UnsubAckProperties_write); [reflexivity|exact UnsubAckProperties_write_checked|].
  pose proof H as Hl. unfold UnsubAck_len in Hl. cbv zeta in Hl. lia.
Qed.
Lemma UnsubAck_write_panics p buf : M <= UnsubAck_len p -> panics (UnsubAck_write_d M p) buf /\ fst (UnsubAck_write p buf) = Err PayloadTooLong.
Proof.
  intros H. split; [unfold UnsubAck_write_d; destruct (UnsubAck_sum p) as [[_ G]|[-> _]]; [lia|apply panics_late]|].
  unfold UnsubAck_write. cbv zeta. apply too_long. exact H.
Qed.
Lemma Disconnect_write_checked p buf : Disconnect_len p < M -> Disconnect_write_d M p buf = Disconnect_write p buf.
Proof.
  intros H. unfold Disconnect_write_d, Disconnect_write. destruct (Disconnect_sum p) as [[-> _]|[_ G]]; [|lia]. cbv zeta.
  change (wbind (wlift (Ok (Disconnect_len p)))) with (fun f : N -> W N => f (Disconnect_len p)). cbv beta.
  destruct (Disconnect_len p =? 2); [reflexivity|].
  apply frame_checked. intros L. rewrite (total_ok _ L).
  rewrite (section_write_checked DisconnectProperties_len DisconnectProperties_write); [reflexivity|exact DisconnectProperties_write_checked|].
  pose proof H as Hl. unfold Disconnect_len in Hl. destruct (di_reason_code p), (di_properties p); cbv zeta in Hl; change (2 ^ 32) with 4294967296 in big; lia.
Qed.
Lemma Disconnect_write_panics p buf : M <= Disconnect_len p -> panics (Disconnect_write_d M p) buf /\ fst (Disconnect_write p buf) = Err PayloadTooLong.
Proof.
  intros H. split; [unfold Disconnect_write_d; destruct (Disconnect_sum p) as [[_ G]|[-> _]]; [lia|apply panics_late]|].
  unfold Disconnect_write. cbv zeta. destruct (N.eqb_spec (Disconnect_len p) 2) as [E|_].
  - exfalso. rewrite E in H. change (2 ^ 32) with 4294967296 in big. lia.
  - apply too_long. exact H.
Qed.
Lemma LastWill_write_checked w : LastWill_len w < M -> LastWill_write_d M w = LastWill_write w.
Proof.
  intros H. unfold LastWill_write_d, LastWill_write. cbv zeta.
  rewrite (section_write_checked LastWillProperties_len LastWillProperties_write); [reflexivity|exact LastWillProperties_write_checked|].
  unfold LastWill_len in H. cbv zeta in H. lia.
Qed.
Lemma index_ok n : cadd M (cadd M (cadd M (cadd M (Ok 1) (Ok (len_len n))) (Ok 2)) (Ok 4)) (Ok 1) = Ok (1 + len_len n + 2 + 4 + 1).
Proof.
  pose proof (len_len_small n). change (2 ^ 32) with 4294967296 in big.
  assert (S : sum (cadd M (cadd M (cadd M (cadd M (Ok 1) (Ok (len_len n))) (Ok 2)) (Ok 4)) (Ok 1)) (1 + len_len n + 2 + 4 + 1)) by sums'.
  destruct S as [[E _]|[_ E]]; [exact E|lia].
Qed.
Lemma Connect_write_checked c w l buf : Connect_len c w l < M -> Connect_write_d M c w l buf = Connect_write c w l buf.
Proof.
  intros H. unfold Connect_write_d, Connect_write. destruct (Connect_sum c w l) as [[-> _]|[_ G]]; [|lia]. cbv zeta. rewrite lift_ok.
  apply frame_checked. intros L. rewrite (total_ok _ L), index_ok.
  pose proof H as Hl. unfold Connect_len in Hl. cbv zeta in Hl.
  rewrite (section_write_checked ConnectProperties_len ConnectProperties_write); [|exact ConnectProperties_write_checked|lia].
  destruct w as [w|]; [rewrite (LastWill_write_checked w) by lia|]; reflexivity.
Qed.
Lemma Connect_write_panics c w l buf : M <= Connect_len c w l -> panics (Connect_write_d M c w l) buf /\ fst (Connect_write c w l buf) = Err PayloadTooLong.
Proof.
  intros H. split; [unfold Connect_write_d; destruct (Connect_sum c w l) as [[_ G]|[-> _]]; [lia|apply panics_early]|].
  unfold Connect_write. cbv zeta. apply too_long. exact H.
Qed.

End Checked.
