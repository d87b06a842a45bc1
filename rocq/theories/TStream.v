(** Streams: frames do not influence each other (C47), fetching what is asked for (C48),
    progress and how much is buffered (C49). *)
From Verif Require Import Types Model Spec Wire Sites Faults Driver PBase PVarint PUtf8 PRead PItems PProps PFrame PWire PTotal
  PWrite PRound PBack PFaults TFraming TWrite TRound TDriver TProps Samples.
Import Faults.
Ltac Zify.zify_post_hook ::= Z.div_mod_to_equations.

(** A frame whose body is within the limit. *)
Definition limited_frame (max : option N) (f : bytes) : Prop :=
  exists byte1 body, framed byte1 body f /\ within max (blen body).

Lemma limited_read ft max f rest : limited_frame max f -> bytes_ok (f ++ rest) ->
  Packet_read ft (f ++ rest) max = (fst (Packet_read ft f max), rest).
Proof.
  intros (byte1 & body & Hf & Hm) Hok. rewrite (framed_unlimited ft max byte1 body f rest) by assumption.
  apply bytes_ok_app in Hok. destruct Hok as [Ho Hr].
  assert (Hb : bytes_ok body). { destruct Hf as (lb & -> & _). bok; auto. }
  rewrite (framed_read ft max byte1 body f rest) by assumption. reflexivity.
Qed.

(** ** C47 *)

(** Frames in a row, whatever is in them: each gives what it would give alone, and exactly these
    frames are consumed.  In particular a defective frame costs no other frame. *)
Theorem C47_frames_are_independent ft max fs rest :
  Forall (limited_frame max) fs -> bytes_ok (concat fs ++ rest) ->
  read_times ft max (concat fs ++ rest) (map (fun f => fst (Packet_read ft f max)) fs) rest
  /\ forall rs rest', read_times ft max (concat fs ++ rest) rs rest' -> length rs = length fs ->
       rs = map (fun f => fst (Packet_read ft f max)) fs /\ rest' = rest.
Proof.
  intros Hfs. induction Hfs as [|f fs Hf Hfs IH]; intros Hok.
  - split; [constructor|]. intros rs rest' H Hl. destruct rs; [|discriminate]. inversion H; subst. auto.
  - cbn [concat map] in *. rewrite <- app_assoc in *.
    pose proof (limited_read ft max f _ Hf Hok) as E. apply bytes_ok_app in Hok. destruct Hok as [_ Hok].
    destruct (IH Hok) as [IH1 IH2]. split.
    + eapply read_times_once; [exact E|exact IH1].
    + intros rs rest' H Hl. inversion H as [|s r s' rs0 rest0 E' H']; subst; [discriminate|].
      rewrite E in E'. injection E' as <- <-. cbn [length] in Hl. destruct (IH2 _ _ H') as [-> ->]; [lia|]. auto.
Qed.
(** Conversely, whatever a row of calls consumed were such frames: as long as each call changes
    the stream, its beginning is cut into frames within the limit, one per call. *)
Theorem C47_only_frames_are_consumed ft max s rs rest :
  bytes_ok s -> read_times ft max s rs rest ->
  exists fs, s = concat fs ++ rest /\ Forall (limited_frame max) fs /\ (length fs <= length rs)%nat.
Proof.
  intros Hs H. induction H as [s|s r s' rs rest E H IH].
  - exists []. auto.
  - destruct (C04_nothing_or_one_frame ft max s r s' Hs E) as [[-> _]|(b & body & f & -> & Hf & Hm)].
    + destruct (IH Hs) as (fs & -> & Hfs & Hl). exists fs. cbn [length]. auto.
    + apply bytes_ok_app in Hs. destruct Hs as [_ Hs]. destruct (IH Hs) as (fs & -> & Hfs & Hl).
      exists (f :: fs). cbn [concat length]. rewrite <- app_assoc. split; [reflexivity|].
      split; [constructor; [exists b, body; auto|exact Hfs]|lia].
Qed.
(** An instance: a PUBACK with an unknown reason between two PINGREQs. *)
Example C47_instance :
  Forall (limited_frame (Some 3)) [[192; 0]; [64; 3; 0; 1; 7]; [192; 0]]
  /\ read_times F_default (Some 3) [192; 0; 64; 3; 0; 1; 7; 192; 0; 99]
       [Ok P_PingReq; Err (InvalidConnectReturnCode 7); Ok P_PingReq] [99].
Proof.
  assert (F : Forall (limited_frame (Some 3)) [[192; 0]; [64; 3; 0; 1; 7]; [192; 0]]).
  { constructor; [|constructor; [|constructor; [|constructor]]].
    - exists 192, []. split; [exists [0]; split; [reflexivity|apply (varint_is_wire 0); unfold max_varint; lia]|vm_compute; discriminate].
    - exists 64, [0; 1; 7]. split; [exists [3]; split; [reflexivity|apply (varint_is_wire 3); unfold max_varint; lia]|vm_compute; discriminate].
    - exists 192, []. split; [exists [0]; split; [reflexivity|apply (varint_is_wire 0); unfold max_varint; lia]|vm_compute; discriminate]. }
  split; [exact F|].
  exact (proj1 (C47_frames_are_independent F_default (Some 3) _ [99] F ltac:(repeat constructor))).
Qed.

(** ** C48 *)

Lemma shape_cont l1 : forall l2, varint_shape (l1 ++ l2) -> l2 <> [] -> all_cont l1.
Proof.
  induction l1 as [|b l1 IH]; intros l2 H Hne; [constructor|]. cbn [app varint_shape] in H.
  destruct (l1 ++ l2) as [|x y] eqn:E; [destruct l1, l2; try discriminate; congruence|].
  destruct H as (H1 & _ & H). rewrite <- E in H. constructor; [exact H1|]. eapply IH; eassumption.
Qed.
Lemma fetch_body ft max byte1 lb body rest : varint_wire (blen body) lb -> bytes_ok (body ++ rest) -> within max (blen body) ->
  exists k, (k <= 1)%nat /\ fetches ft max (byte1 :: lb) (body ++ rest) k (body_read ft byte1 body) [] rest.
Proof.
  intros Hw Hok Hm. apply bytes_ok_app in Hok. destruct Hok as [Hb Hr]. apply within_exceeds in Hm.
  assert (D : fetches ft max (byte1 :: lb ++ body) rest 0 (body_read ft byte1 body) [] rest).
  { apply fetches_done; [|discriminate].
    pose proof (read_full ft byte1 lb body [] max Hw Hb ltac:(constructor) Hm) as E. rewrite app_nil_r in E. exact E. }
  destruct body as [|x body].
  - exists 0%nat. split; [lia|]. rewrite app_nil_r in D. exact D.
  - exists 1%nat. split; [lia|]. eapply fetches_more; [|reflexivity|exact D].
    pose proof (read_partial ft byte1 lb [] _ max Hw ltac:(constructor) Hm) as E. rewrite app_nil_r in E.
    rewrite E; [rewrite blen_nil, N.sub_0_r; reflexivity|]. rewrite blen_nil, blen_cons. lia.
Qed.
Lemma fetch_header ft max byte1 l2 : forall l1 src (Q : nat -> res Packet -> bytes -> bytes -> Prop),
  bytes_ok (l1 ++ l2) -> varint_shape (l1 ++ l2) -> (length (l1 ++ l2) <= 4)%nat -> l1 <> [] ->
  (exists k r buf left, fetches ft max (byte1 :: l1 ++ l2) src k r buf left /\ Q k r buf left) ->
  exists k r buf left, fetches ft max (byte1 :: l1) (l2 ++ src) (length l2 + k) r buf left /\ Q k r buf left.
Proof.
  induction l2 as [|x l2 IH]; intros l1 src Q Hok Hsh Hlen Hne (k & r & buf & left & H & HQ).
  - rewrite app_nil_r in H. exists k, r, buf, left. auto.
  - destruct (IH (l1 ++ [x]) src Q) as (k' & r' & buf' & left' & H' & HQ'); rewrite <- ?app_assoc; cbn [app]; auto.
    { destruct l1; discriminate. }
    { exists k, r, buf, left. auto. }
    exists k', r', buf', left'. split; [|exact HQ']. cbn [length]. refine (fetches_more ft max (byte1 :: l1) 1 [x] (l2 ++ src) _ r' buf' left' _ eq_refl H').
    apply read_header; [apply bytes_ok_app in Hok; tauto|exact Hne| |eapply shape_cont; [exact Hsh|discriminate]].
    rewrite app_length in Hlen. cbn [length] in Hlen. unfold blen. lia.
Qed.
Lemma fetch_start ft max byte1 lb src Q : byte1 < 256 -> bytes_ok lb -> varint_shape lb -> (length lb <= 4)%nat ->
  (exists k r buf left, fetches ft max (byte1 :: lb) src k r buf left /\ Q k r buf left) ->
  exists k r buf left, fetches ft max [] (byte1 :: lb ++ src) (length lb + k) r buf left /\ Q k r buf left.
Proof.
  intros Hb Hok Hsh Hlen H. destruct lb as [|x l2]; [destruct Hsh|].
  destruct (fetch_header ft max byte1 l2 [x] src Q Hok Hsh Hlen ltac:(discriminate) H) as (k & r & buf & left & Hf & HQ).
  exists k, r, buf, left. split; [|exact HQ]. cbn [length app plus].
  refine (fetches_more ft max [] 2 [byte1; x] (l2 ++ src) _ r buf left _ eq_refl Hf). reflexivity.
Qed.

(** Fetching exactly what is asked for, at most 5 times, takes exactly one frame from the source
    and gives what that frame gives. *)
Theorem C48_exactly_one_frame_is_fetched ft max f rest :
  limited_frame max f -> bytes_ok (f ++ rest) ->
  exists k, (1 <= k <= 5)%nat /\ fetches ft max [] (f ++ rest) k (fst (Packet_read ft f max)) [] rest.
Proof.
  intros Hl Hok. pose proof (limited_read ft max f rest Hl Hok) as E.
  destruct Hl as (byte1 & body & (lb & -> & Hw) & Hm). cbn [app] in *. rewrite <- app_assoc in *.
  apply bytes_ok_cons in Hok. destruct Hok as [H1 Hok]. apply bytes_ok_app in Hok. destruct Hok as [Hlb Hok].
  pose proof (fetch_body ft max byte1 lb body rest Hw Hok Hm) as (k & Hk & HF).
  assert (R : fst (Packet_read ft (byte1 :: lb ++ body) max) = body_read ft byte1 body).
  { apply bytes_ok_app in Hok. destruct Hok as [Hb Hr].
    rewrite read_full in E; auto; [|apply within_exceeds; exact Hm]. injection E as E. symmetry. exact E. }
  rewrite R. destruct Hw as (W1 & W2 & W3).
  destruct (fetch_start ft max byte1 lb (body ++ rest)
     (fun k r buf left => (k <= 1)%nat /\ r = body_read ft byte1 body /\ buf = [] /\ left = rest) H1 Hlb W2 W1)
    as (k' & r & buf & left & HF' & Hk' & -> & -> & ->).
  { exists k, (body_read ft byte1 body), [], rest. auto. }
  exists (length lb + k')%nat. split; [|exact HF']. destruct lb; [destruct W2|]. cbn [length] in *. lia.
Qed.
(** A PUBACK is fetched in two steps: two bytes, then the two bytes of its body. *)
Example C48_instance ft :
  limited_frame (Some 2) [64; 2; 0; 10]
  /\ fetches ft (Some 2) [] ([64; 2; 0; 10] ++ [192; 0]) 2 (Ok (P_PubAck (mkPubAck 10 PAR_Success None))) [] [192; 0].
Proof.
  split.
  - exists 64, [0; 10]. split; [exists [2]; split; [reflexivity|apply (varint_is_wire 2); unfold max_varint; lia]|vm_compute; discriminate].
  - apply (fetches_more ft (Some 2) [] 2 [64; 2] ([0; 10] ++ [192; 0])); [destruct ft; reflexivity|reflexivity|].
    apply (fetches_more ft (Some 2) [64; 2] 2 [0; 10] [192; 0]); [destruct ft; reflexivity|reflexivity|].
    apply fetches_done; [destruct ft; reflexivity|discriminate].
Qed.
(** A packet over the limit is refused after its fixed header, at most 5 bytes. *)
Theorem C48_oversized_refused_early ft m byte1 lb n rest :
  byte1 < 256 -> varint_wire n lb -> bytes_ok rest -> m < n ->
  exists k, (1 <= k <= 4)%nat /\ blen (byte1 :: lb) <= 5
    /\ fetches ft (Some m) [] ((byte1 :: lb) ++ rest) k (Err (PayloadSizeLimitExceeded n m)) (byte1 :: lb) rest.
Proof.
  intros H1 Hw Hr Hlt. pose proof (varint_wire_ok _ _ Hw) as Hlb. pose proof (varint_wire_bound _ _ Hw) as (_ & B1 & B2).
  assert (D : fetches ft (Some m) (byte1 :: lb) rest 0 (Err (PayloadSizeLimitExceeded n m)) (byte1 :: lb) rest).
  { apply fetches_done; [|discriminate].
    pose proof (read_over ft byte1 lb [] n (Some m) Hw ltac:(constructor) (proj2 (N.ltb_lt m n) Hlt)) as E.
    rewrite app_nil_r in E. exact E. }
  destruct Hw as (W1 & W2 & W3).
  destruct (fetch_start ft (Some m) byte1 lb rest
     (fun k r buf left => k = 0%nat /\ r = Err (PayloadSizeLimitExceeded n m) /\ buf = byte1 :: lb /\ left = rest) H1 Hlb W2 W1)
    as (k' & r & buf & left & HF' & -> & -> & -> & ->).
  { eexists _, _, _, _. split; [exact D|auto]. }
  exists (length lb + 0)%nat. split; [|split; [rewrite blen_cons; lia|exact HF']].
  destruct lb; [destruct W2|]. cbn [length] in *. lia.
Qed.
Example C48_oversized_instance ft :
  varint_wire 200 [200; 1]
  /\ fetches ft (Some 100) [] ([48; 200; 1] ++ [7; 7]) 2 (Err (PayloadSizeLimitExceeded 200 100)) [48; 200; 1] [7; 7].
Proof.
  split; [apply (varint_is_wire 200); unfold max_varint; lia|].
  apply (fetches_more ft (Some 100) [] 2 [48; 200] ([1] ++ [7; 7])); [destruct ft; reflexivity|reflexivity|].
  apply (fetches_more ft (Some 100) [48; 200] 1 [1] [7; 7]); [destruct ft; reflexivity|reflexivity|].
  apply fetches_done; [destruct ft; reflexivity|discriminate].
Qed.
(** There is only one way this can go. *)
Lemma fetches_det ft max buf src k r buf' left : fetches ft max buf src k r buf' left ->
  forall k2 r2 buf2 left2, fetches ft max buf src k2 r2 buf2 left2 -> k2 = k /\ r2 = r /\ buf2 = buf' /\ left2 = left.
Proof.
  induction 1 as [buf n more src k r buf' left E Hl H IH|buf src r buf' E Hn]; intros k2 r2 buf2 left2 H2;
    inversion H2 as [b0 n2 more2 src2 k2' r2' b2' l2' E2 Hl2 H2'|b0 s0 r0 b1 E2 Hn2]; subst.
  - rewrite E in E2. injection E2 as E2.
    match goal with X : more2 ++ src2 = more ++ src |- _ => apply blen_app_inv_tail in X; [destruct X as [-> ->]|symmetry; exact E2] end.
    destruct (IH _ _ _ _ H2') as (-> & -> & -> & ->). auto.
  - rewrite E in E2. injection E2 as <- <-. exfalso. eapply Hn2; reflexivity.
  - rewrite E in E2. injection E2 as -> ->. exfalso. eapply Hn; reflexivity.
  - rewrite E in E2. injection E2 as <- <-. auto.
Qed.
Theorem C48_fetching_is_deterministic ft max src k r buf left k' r' buf' left' :
  fetches ft max [] src k r buf left -> fetches ft max [] src k' r' buf' left' ->
  k' = k /\ r' = r /\ buf' = buf /\ left' = left.
Proof. intros H H'. eapply fetches_det; eassumption. Qed.

(** ** C49 *)

(** The largest body a caller with this limit is made to hold: never more than a remaining
    length can say. *)
Definition body_cap (max : option N) : N :=
  match max with Some m => N.min m max_varint | None => max_varint end.

Lemma within_cap max n : within max n -> n <= max_varint -> n <= body_cap max.
Proof. destruct max; unfold within, body_cap; lia. Qed.
Lemma framed_size max byte1 body f : framed byte1 body f -> within max (blen body) ->
  2 <= blen f <= body_cap max + 5.
Proof.
  intros (lb & -> & Hw) Hm. pose proof (varint_wire_bound _ _ Hw) as (B1 & B2 & B3).
  apply within_cap in Hm; [|exact B1]. rewrite blen_cons, blen_app. lia.
Qed.

(** A call takes nothing, or at least 2 and at most 5 bytes more than the limit allows; it takes
    nothing only when it gives an error. *)
Theorem C49_bytes_taken_by_a_call ft max s r s' :
  bytes_ok s -> Packet_read ft s max = (r, s') ->
  (s' = s /\ exists e, r = Err e)
  \/ (blen s' + 2 <= blen s /\ blen s <= blen s' + body_cap max + 5).
Proof.
  intros Hs E. destruct (C04_nothing_or_one_frame ft max s r s' Hs E) as [H|(b & body & f & -> & Hf & Hm)]; [auto|].
  right. pose proof (framed_size max b body f Hf Hm). rewrite blen_app. lia.
Qed.
(** So reading in a loop ends after at most one round per two bytes, with fewer bytes left. *)
Theorem C49_rounds_bounded ft max s ps e rest :
  bytes_ok s -> drains ft max s ps e rest -> 2 * N.of_nat (length ps) + blen rest <= blen s.
Proof.
  intros Hs H. induction H as [s e rest E|s p s1 ps e rest E H IH].
  - destruct (C49_bytes_taken_by_a_call ft max s _ _ Hs E) as [[-> _]|H]; cbn [length]; lia.
  - destruct (C04_nothing_or_one_frame ft max s _ _ Hs E) as [[_ [? X]]|(b & body & f & -> & Hf & Hm)]; [discriminate|].
    pose proof (framed_size max b body f Hf Hm). apply bytes_ok_app in Hs. destruct Hs as [_ Hs].
    specialize (IH Hs). rewrite blen_app. cbn [length]. lia.
Qed.
(** What is held while more is asked for, and what is asked for, are together at most 5 bytes
    more than the limit. *)
Theorem C49_wait_is_bounded ft max s n :
  bytes_ok s -> Packet_read ft s max = (Err (InsufficientBytes n), s) ->
  1 <= n /\ blen s + n <= body_cap max + 5.
Proof.
  intros Hs E. pose proof (read_outcome ft s max Hs) as O.
  destruct O as [s H|b t H1 H2 H3|b l t H1 H2|b lb t m Hw Hx|b lb t m Hw Hx Hl|b lb body rest Hw Hx].
  - injection E as <-. lia.
  - injection E as <-. rewrite blen_cons. lia.
  - discriminate.
  - destruct max; discriminate.
  - injection E as <-. pose proof (varint_wire_bound _ _ Hw) as (B1 & B2 & B3). apply within_exceeds in Hx. apply within_cap in Hx; [|exact B1].
    rewrite blen_cons, blen_app. lia.
  - exfalso. apply (f_equal (fun q => blen (snd q))) in E. cbn [snd] in E. rewrite blen_cons, !blen_app in E. lia.
Qed.
(** Frames that do not give a false alarm: the receive loop never holds more than that, however
    the bytes arrive. *)
Theorem C49_buffer_is_bounded ft max chunks ps n rest :
  Forall bytes_ok chunks -> no_false_alarm ft max (concat chunks) ->
  receives ft max [] chunks ps (InsufficientBytes n) rest ->
  blen rest + n <= body_cap max + 5.
Proof.
  intros Hc Ha H. apply C08_chunks_are_read_as_one_stream in H; [|constructor|exact Hc|exact Ha].
  cbn [app] in H. pose proof (concat_ok _ Hc) as Hs. revert Hs Ha H. generalize (concat chunks) as s. clear.
  intros s Hs Ha H. remember (InsufficientBytes n) as e eqn:Ee.
  induction H as [s e rest E|s p s1 ps e rest E H IH]; subst.
  - pose proof (no_false_alarm_waits ft max s n rest Hs Ha E) as ->.
    apply (C49_wait_is_bounded ft max s n Hs E).
  - destruct (C04_ok_one_frame ft max s p s1 Hs E) as (f & -> & Hf & _). apply bytes_ok_app in Hs. destruct Hs as [_ Hs].
    apply IH; [exact Hs| |reflexivity]. eapply no_false_alarm_suffix; eassumption.
Qed.
Example C49_instance :
  receives F_default (Some 2) [] [[192]; [0; 192; 0; 64]] [P_PingReq; P_PingReq] (InsufficientBytes 1) [64].
Proof.
  apply (receives_chunk F_default (Some 2) [] _ _ [] 2 []); [apply drains_stop; reflexivity|].
  apply (receives_chunk F_default (Some 2) _ _ _ [] 1 [192]); [apply drains_stop; reflexivity|].
  apply receives_end. apply (drains_packet _ _ _ _ [192; 0; 64]); [reflexivity|].
  apply (drains_packet _ _ _ _ [64]); [reflexivity|]. apply drains_stop. reflexivity.
Qed.
(** With them it does: CONNACKs without a property length, two at a time.  Each call asks for
    one more byte although a whole frame is there; the loop fetches two more frames, and what it
    holds grows without bound, under a limit of 2. *)
Definition bare_connack : bytes := [32; 2; 0; 0].
Lemma bare_connack_read ft rest : bytes_ok rest ->
  Packet_read ft (bare_connack ++ rest) (Some 2) = (Err (InsufficientBytes 1), rest).
Proof.
  intros H. rewrite (limited_read ft (Some 2) bare_connack rest).
  - destruct ft; reflexivity.
  - exists 32, [0; 0]. split; [|vm_compute; discriminate].
    exists [2]. split; [reflexivity|apply (varint_is_wire 2); unfold max_varint; lia].
  - apply bytes_ok_app. split; [repeat constructor|exact H].
Qed.
Lemma bare_connacks_ok k : bytes_ok (concat (repeat bare_connack k)).
Proof. induction k; [constructor|]. cbn [repeat concat]. apply bytes_ok_app. split; [repeat constructor|assumption]. Qed.
Theorem C49_buffer_unbounded_refuted ft k :
  receives ft (Some 2) [] (repeat (bare_connack ++ bare_connack) (S k)) [] (InsufficientBytes 1)
    (concat (repeat bare_connack (S k)))
  /\ blen (concat (repeat bare_connack (S k))) = 4 * N.of_nat (S k).
Proof.
  assert (L : forall j, blen (concat (repeat bare_connack j)) = 4 * N.of_nat j).
  { induction j as [|j IH]; [reflexivity|]. cbn [repeat concat]. rewrite blen_app, IH. change (blen bare_connack) with 4. lia. }
  split; [|apply L].
  assert (S1 : forall j, concat (repeat bare_connack j) ++ bare_connack = concat (repeat bare_connack (S j))).
  { induction j as [|j IH]; [reflexivity|]. cbn [repeat concat] in *. rewrite <- app_assoc, IH. reflexivity. }
  assert (G : forall k j, receives ft (Some 2) (concat (repeat bare_connack (S j))) (repeat (bare_connack ++ bare_connack) k) []
     (InsufficientBytes 1) (concat (repeat bare_connack (j + k)))).
  { clear k. induction k as [|k IH]; intros j.
    - rewrite Nat.add_0_r. apply receives_end, drains_stop. apply bare_connack_read, bare_connacks_ok.
    - cbn [repeat]. apply (receives_chunk ft (Some 2) _ _ _ [] 1 (concat (repeat bare_connack j)) []).
      + apply drains_stop. apply bare_connack_read, bare_connacks_ok.
      + rewrite app_assoc, !S1. rewrite Nat.add_succ_r. apply (IH (S j)). }
  cbn [repeat]. apply (receives_chunk ft (Some 2) _ _ _ [] 2 [] []); [apply drains_stop; destruct ft; reflexivity|].
  exact (G k 1%nat).
Qed.

(** ** C50 *)

(** No written packet is larger than a frame can be. *)
Lemma written_size p buf n buf' : Packet_write p buf = (Ok n, buf') -> bad_disconnect p = false ->
  encodable p /\ n = blen (encode p).
Proof.
  intros E B. destruct (is_connect p) eqn:C.
  - assert (L : legacy_connack p = false) by (destruct p; [reflexivity|discriminate..]).
    assert (He : encodable p) by (apply (C14_write_ok_iff_encodable p buf L B); rewrite E; cbn [fst]; eauto).
    split; [exact He|]. destruct p as [c w l| | | | | | | | | | | | | ]; try discriminate. rewrite connect_eq in E.
    destruct (first_error _); [discriminate|]. injection E as <- _. reflexivity.
  - destruct (C13_success_means_encoding p buf n buf' E) as (He & Hn & _); [congruence|exact B|auto].
Qed.
Theorem C50_written_packet_fits_a_frame p buf n buf' :
  Packet_write p buf = (Ok n, buf') -> 2 <= n <= 268435460.
Proof.
  intros E. destruct (bad_disconnect p) eqn:B.
  - apply bad_disconnect_cases in B. destruct B as (d & -> & Hr & [Hp|(q & Hq & Hi)]).
    + rewrite bad_disconnect_none in E by assumption. injection E as <- _. lia.
    + rewrite (bad_disconnect_empty _ _ _ Hq Hi) in E. injection E as <- _. lia.
  - destruct (written_size p buf n buf' E B) as [He ->].
    pose proof (framed_size None _ _ _ (encode_framed p He) I) as H. unfold body_cap, max_varint in H. lia.
Qed.
Lemma announced byte1 body f rest n : framed byte1 body f -> bytes_ok (f ++ rest) -> announces n (f ++ rest) -> n = blen body.
Proof.
  intros (lb & -> & Hw) Hok (b & lb' & t & E & Hw'). cbn [app] in E. rewrite <- app_assoc in E. injection E as _ E.
  cbn [app] in Hok. rewrite <- app_assoc in Hok. apply bytes_ok_cons in Hok. destruct Hok as [_ Hok].
  assert (H1 : bytes_ok (body ++ rest)) by (apply bytes_ok_app in Hok; tauto).
  assert (H2 : bytes_ok t) by (rewrite E in Hok; apply bytes_ok_app in Hok; tauto).
  destruct (varint_prefix_unique _ _ _ _ _ _ Hw Hw' H1 H2 E) as (V & _ & _). symmetry. exact V.
Qed.
(** A packet whose written size is within the reader's limit (or up to 2 bytes above) is never
    refused for its size; one more than 5 bytes above always is, from its header. *)
Theorem C50_size_against_limit ft p n out rest m :
  rust_packet ft p -> bytes_ok rest -> Packet_write p [] = (Ok n, out) ->
  (n <= m + 2 -> Packet_read ft (out ++ rest) (Some m) = Packet_read ft (out ++ rest) None)
  /\ (m + 5 < n -> exists a, m < a /\ a < n
       /\ Packet_read ft (out ++ rest) (Some m) = (Err (PayloadSizeLimitExceeded a m), out ++ rest)).
Proof.
  intros Hr Hrest E. destruct (bad_disconnect p) eqn:B.
  - apply bad_disconnect_cases in B. destruct B as (d & -> & Hd & [Hp|(q & Hq & Hi)]).
    + rewrite bad_disconnect_none in E by assumption. injection E as <- <-. split; [|lia]. intros Hm.
      assert (Hc : disconnect_code (di_reason_code d) < 256) by (destruct (di_reason_code d); reflexivity).
      assert (Hok : bytes_ok (([] ++ [224; 1; disconnect_code (di_reason_code d); 0]) ++ rest)).
      { cbn [app]. repeat (apply bytes_ok_cons; split; [reflexivity || exact Hc|]). exact Hrest. }
      apply C09_limit_otherwise_ignored; [exact Hok|].
      intros a Ha.
      assert (a = blen [disconnect_code (di_reason_code d)]) as ->; [|rewrite blen_cons, blen_nil; lia].
      apply (announced 224 _ [224; 1; disconnect_code (di_reason_code d)] (0 :: rest)); [|exact Hok|exact Ha].
      exists [1]. split; [reflexivity|apply (varint_is_wire 1); unfold max_varint; lia].
    + rewrite (bad_disconnect_empty _ _ _ Hq Hi) in E. injection E as <- <-. split; [|lia]. intros Hm.
      assert (Hok : bytes_ok (([] ++ [224; 0]) ++ rest)).
      { cbn [app]. repeat (apply bytes_ok_cons; split; [reflexivity|]). exact Hrest. }
      apply C09_limit_otherwise_ignored; [exact Hok|].
      intros a Ha. assert (a = blen []) as ->; [|rewrite blen_nil; lia].
      apply (announced 224 _ [224; 0] rest); [|exact Hok|exact Ha].
      exists [0]. split; [reflexivity|apply (varint_is_wire 0); unfold max_varint; lia].
  - destruct (C13_success_means_encoding p [] n out E) as (He & -> & ->); [reflexivity|exact B|].
    cbn [app]. pose proof (encode_framed p He) as Hf. pose proof (encode_bytes_ok ft p Hr He) as Hb.
    assert (Hok : bytes_ok (encode p ++ rest)) by (apply bytes_ok_app; auto).
    pose proof Hf as Hf'. destruct Hf' as (lb & Ee & Hw).
    pose proof (varint_wire_bound _ _ Hw) as (B1 & B2 & B3).
    assert (Hsz : blen (encode p) = 1 + blen lb + blen (fields_bytes (body_fields p))) by (rewrite Ee, blen_cons, blen_app; lia).
    split; intros Hm.
    + apply C09_limit_otherwise_ignored; [exact Hok|]. intros a Ha. rewrite (announced _ _ _ _ _ Hf Hok Ha). lia.
    + exists (blen (fields_bytes (body_fields p))). split; [lia|]. split; [lia|].
      apply C09_limit_enforced_on_header; [exact Hok| |lia].
      exists (first_byte p), lb, (fields_bytes (body_fields p) ++ rest). split; [|exact Hw]. rewrite Ee. cbn [app].
      rewrite <- app_assoc. reflexivity.
Qed.
(** A PUBLISH of 204 bytes (body 201): limits 202 and above do not matter, limits up to 198
    refuse it; in between it depends on the size of the header (here 3). *)
Example C50_instance ft :
  let p := P_Publish (mkPublish false AtMostOnce false t_topic 0 (repeat 7 195) None) in
  rust_packet ft p /\ fst (Packet_write p []) = Ok 204
  /\ Packet_read ft (snd (Packet_write p [])) (Some 201) = (Ok p, [])
  /\ fst (Packet_read ft (snd (Packet_write p [])) (Some 200)) = Err (PayloadSizeLimitExceeded 201 200).
Proof.
  cbv zeta. split; [split; [apply ascii_text; reflexivity|split; [reflexivity|split; [|constructor]]]|].
  - apply Forall_forall. intros x Hx. apply repeat_spec in Hx. subst x. reflexivity.
  - destruct ft; repeat split; vm_compute; reflexivity.
Qed.
(** So the limit is not a limit on the whole packet: a PUBACK of 4 bytes passes a limit of 2. *)
Theorem C50_limit_is_not_packet_size_refuted ft :
  exists p n out, rust_packet ft p /\ Packet_write p [] = (Ok n, out) /\ n = 4
    /\ Packet_read ft out (Some 2) = (Ok p, []).
Proof.
  exists (P_PubAck {| pa_pkid := 1; pa_reason := PAR_Success; pa_properties := None |}), 4, [64; 2; 0; 1].
  split; [|split; [vm_compute; reflexivity|split; [reflexivity|destruct ft; vm_compute; reflexivity]]].
  cbn. repeat split; try lia. constructor.
Qed.
