(** Framing: C04, C05, C06 (positive part), C07, C09, C33 (framing part), C37. *)
From Verif Require Import Types Model Spec Wire PBase PVarint PRead PFrame PWire PTotal.
Ltac Zify.zify_post_hook ::= Z.div_mod_to_equations.

Lemma framed_read ft max byte1 body f rest : framed byte1 body f -> bytes_ok body -> bytes_ok rest ->
  within max (blen body) -> Packet_read ft (f ++ rest) max = (body_read ft byte1 body, rest).
Proof.
  intros (lb & -> & Hw) Hb Hr Hm. cbn [app]. rewrite <- app_assoc.
  apply read_full; auto. apply within_exceeds. exact Hm.
Qed.

Lemma blen_app_inv_tail (a b c d : bytes) : a ++ b = c ++ d -> blen a = blen c -> a = c /\ b = d.
Proof.
  intros E Hl. assert (length a = length c) by (unfold blen in Hl; lia).
  clear Hl. revert c E H. induction a as [|x a IH]; intros [|y c] E H; cbn in H; try lia; auto.
  injection E as -> E. apply IH in E; [|lia]. destruct E as [-> ->]. auto.
Qed.

Lemma self_app (f s : bytes) : s = f ++ s -> f = [].
Proof.
  intros E. apply blen_0. apply (f_equal blen) in E. rewrite blen_app in E. lia.
Qed.

Lemma frame_size_bound byte1 body f : framed byte1 body f ->
  2 <= blen f /\ blen f <= 268435460 /\ blen body <= 268435455.
Proof.
  intros (lb & -> & Hw). apply varint_wire_bound in Hw. rewrite blen_cons, blen_app. lia.
Qed.
Lemma frame_not_nil f : is_frame f -> f <> [].
Proof. intros (byte1 & body & lb & -> & _). discriminate. Qed.

(** ** C04 *)

(** Whatever is returned, the stream is untouched (and then the result is an error) or has
    lost exactly its first frame, whose body is within the limit. *)
Theorem C04_nothing_or_one_frame ft max s r s' :
  bytes_ok s -> Packet_read ft s max = (r, s') ->
  (s' = s /\ exists e, r = Err e)
  \/ (exists byte1 body f, s = f ++ s' /\ framed byte1 body f /\ within max (blen body)).
Proof.
  intros Hs E. pose proof (read_outcome ft s max Hs) as O. rewrite E in O. inversion O; subst; eauto.
  right. exists byte1, body, (byte1 :: lb ++ body). repeat split.
  - cbn [app]. rewrite <- app_assoc. reflexivity.
  - exists lb. auto.
  - apply within_exceeds. assumption.
Qed.
(** Both cases occur: a frame cut short leaves the stream alone, a complete one is removed
    whether it decodes or not. *)
Example C04_instances ft :
  Packet_read ft [64; 2; 0] None = (Err (InsufficientBytes 1), [64; 2; 0])
  /\ Packet_read ft ([64; 2; 0; 10] ++ [192; 0]) None = (Ok (P_PubAck (mkPubAck 10 PAR_Success None)), [192; 0])
  /\ Packet_read ft ([64; 3; 0; 10; 77] ++ [192; 0]) None = (Err (InvalidConnectReturnCode 77), [192; 0]).
Proof. destruct ft; repeat split; reflexivity. Qed.
(** Ok: exactly one frame, so at least two bytes, were removed. *)
Theorem C04_ok_one_frame ft max s p s' :
  bytes_ok s -> Packet_read ft s max = (Ok p, s') ->
  exists f, s = f ++ s' /\ is_frame f /\ 2 <= blen f <= 268435460.
Proof.
  intros Hs E. destruct (C04_nothing_or_one_frame _ _ _ _ _ Hs E) as [[_ [e H]]|(b1 & body & f & H1 & H2 & _)].
  - discriminate.
  - exists f. split; [exact H1|]. split; [exists b1, body; exact H2|].
    apply frame_size_bound in H2. lia.
Qed.

(** ** C05 *)

(** A strict prefix [s] of a frame (the rest [missing] is not there yet); if the length field
    is already complete, the body must be within the limit (otherwise see C09). *)
Theorem C05_incomplete_asks_for_more ft max byte1 body s missing :
  framed byte1 body (s ++ missing) -> bytes_ok (s ++ missing) -> missing <> [] ->
  (announces (blen body) s -> within max (blen body)) ->
  exists n, Packet_read ft s max = (Err (InsufficientBytes n), s)
    /\ 1 <= n <= blen missing
    /\ (announces (blen body) s -> n = blen missing).
Proof.
  intros (lb & E & Hw) Hok Hne Hm. bok. rename H into Hs, H0 into Hmi.
  assert (Hp : 1 <= blen missing).
  { destruct missing; [congruence|]. rewrite blen_cons. lia. }
  assert (Hlen : blen s + blen missing = 1 + (blen lb + blen body)).
  { rewrite <- blen_app, E, blen_cons, blen_app. reflexivity. }
  pose proof (varint_wire_bound _ _ Hw) as Hb.
  pose proof (read_outcome ft s max Hs) as O.
  assert (Hbody : bytes_ok body).
  { assert (X : bytes_ok (byte1 :: lb ++ body)) by (rewrite <- E; bok). bok. }
  assert (Hlb : bytes_ok lb) by (eapply varint_wire_ok; exact Hw).
  remember (Packet_read ft s max) as R eqn:ER. destruct O.
  - exists (2 - blen s). split; [reflexivity|]. split; [lia|].
    intros (b1 & l & t & -> & Hl). apply varint_wire_bound in Hl. rewrite blen_cons, blen_app in *. lia.
  - exists 1. split; [reflexivity|]. split; [lia|].
    intros (b1 & l & t' & Es & Hl). injection Es as _ ->. exfalso.
    assert (X : length_ (l ++ t') = Err (InsufficientBytes 1)) by (apply length_all_cont; auto; bok).
    rewrite (length_app _ _ _ Hl) in X; [discriminate|]. bok.
  - exfalso. cbn [app] in E. injection E as _ E. rewrite <- app_assoc in E. bok.
    assert (X : length_ (l ++ t ++ missing) = Err MalformedRemainingLength)
      by (apply length_malformed; auto; bok).
    rewrite E in X. rewrite (length_app _ _ _ Hw) in X; [discriminate|assumption].
  - exfalso. cbn [app] in E. injection E as _ E. rewrite <- app_assoc in E. bok.
    edestruct varint_prefix_unique as (X & _); [exact H|exact Hw| | |exact E|]; [bok|auto|].
    subst. rewrite (proj1 (within_exceeds max (blen body))) in H0; [discriminate|].
    apply Hm. eexists _, _, _. split; [reflexivity|exact H].
  - cbn [app] in E. injection E as _ E. rewrite <- app_assoc in E. bok.
    edestruct varint_prefix_unique as (X & Xl & Xr); [exact H|exact Hw| | |exact E|]; [bok|auto|].
    subst. exists (blen (t ++ missing) - blen t). split; [reflexivity|]. rewrite blen_app. split; [lia|]. intros _. lia.
  - exfalso. cbn [app] in E. injection E as _ E. rewrite <- !app_assoc in E. bok.
    edestruct varint_prefix_unique as (X & Xl & Xr); [exact H|exact Hw| | |exact E|]; [bok|auto|].
    apply (f_equal blen) in Xr. rewrite !blen_app in Xr. lia.
Qed.
(** The first three bytes of a PUBACK frame of four. *)
Example C05_instance ft :
  framed 64 [0; 10] ([64; 2; 0] ++ [10]) /\ bytes_ok ([64; 2; 0] ++ [10]) /\ announces 2 [64; 2; 0]
  /\ Packet_read ft [64; 2; 0] (Some 2) = (Err (InsufficientBytes 1), [64; 2; 0])
  /\ Packet_read ft [64] (Some 2) = (Err (InsufficientBytes 1), [64]).
Proof.
  split; [exists [2]; split; [reflexivity|repeat split]; cbn; lia|]. split; [repeat constructor|].
  split; [exists 64, [2], [0]; split; [reflexivity|repeat split]; cbn; lia|]. destruct ft; split; reflexivity.
Qed.

(** Conversely a request for more bytes that leaves the stream as it was is only made for a
    strict prefix of some frame (C06, the true half). *)
Lemma repeat_ok n : bytes_ok (repeat 0 n).
Proof. induction n; cbn [repeat]; [constructor|]. constructor; [lia|exact IHn]. Qed.
Lemma blen_repeat x n : blen (repeat x (N.to_nat n)) = n.
Proof. unfold blen. rewrite repeat_length. lia. Qed.
Lemma all_cont_zero t : bytes_ok t -> blen t < 4 -> all_cont t -> exists v, varint_wire v (t ++ [0]).
Proof.
  intros Hok Hl Hc. exists (varint_value (t ++ [0])). split; [|split; [|reflexivity]].
  - rewrite app_length. cbn. unfold blen in Hl. lia.
  - clear Hl. unfold all_cont in Hc. induction t as [|b t IH]; cbn [app varint_shape]; [lia|].
    apply Forall_cons_iff in Hc. destruct Hc as [Hb Hc]. bok.
    destruct (t ++ [0]) eqn:E; [destruct t; discriminate|]. repeat split; try lia. apply IH; auto.
Qed.
Lemma outcome_det ft max s r : bytes_ok s -> outcome ft max s r -> Packet_read ft s max = r.
Proof.
  intros Hs O. destruct O; bok.
  - apply read_short. assumption.
  - apply read_header; auto.
  - apply read_malformed; auto.
  - apply (read_over _ _ _ _ n); auto.
  - apply (read_partial _ _ _ _ n); auto.
  - apply read_full; auto.
Qed.

(** ** C06: the true half *)

(** Packet::read asks for more bytes and leaves the stream as it is exactly when the stream is
    a strict prefix of some frame (not already known to exceed the limit). *)
Theorem C06_more_without_consuming_iff_incomplete ft max s :
  bytes_ok s ->
  (exists n, Packet_read ft s max = (Err (InsufficientBytes n), s))
  <-> (exists byte1 body missing,
         framed byte1 body (s ++ missing) /\ bytes_ok missing /\ missing <> []
         /\ (announces (blen body) s -> within max (blen body))).
Proof.
  intros Hs. split.
  - intros [k E]. pose proof (read_outcome ft s max Hs) as O. rewrite E in O. inversion O; subst; bok.
    + destruct s as [|b [|b' s]]; [| |rewrite !blen_cons in *; lia].
      * exists 0, [], [0; 0]. repeat split; [exists [0]; repeat split; cbn; lia|bok; lia|discriminate|].
        intros (b1 & lb & t & X & _). discriminate.
      * exists b, [], [0]. repeat split; [exists [0]; repeat split; cbn; lia|bok; lia|discriminate|].
        intros (b1 & lb & t & X & Hw). injection X as <- X. destruct lb; [destruct Hw as (_ & [] & _)|discriminate].
    + destruct (all_cont_zero t) as [v Hv]; auto.
      exists byte1, (repeat 0 (N.to_nat v)), (0 :: repeat 0 (N.to_nat v)). repeat split.
      * exists (t ++ [0]). cbn [app]. rewrite <- app_assoc. split; [reflexivity|]. rewrite blen_repeat. exact Hv.
      * bok; [lia|apply repeat_ok].
      * discriminate.
      * intros (b1 & lb & t' & X & Hw). injection X as <- ->. exfalso.
        assert (Y : length_ (lb ++ t') = Err (InsufficientBytes 1)) by (apply length_all_cont; auto; bok).
        rewrite (length_app _ _ _ Hw) in Y; [discriminate|]. bok.
    + match goal with H : varint_wire ?n lb |- _ => rename n into m end.
      exists byte1, (t ++ repeat 0 (N.to_nat (m - blen t))), (repeat 0 (N.to_nat (m - blen t))).
      assert (Hl : blen (t ++ repeat 0 (N.to_nat (m - blen t))) = m) by (rewrite blen_app, blen_repeat; lia).
      repeat split.
      * exists lb. cbn [app]. rewrite <- app_assoc. split; [reflexivity|]. rewrite Hl. assumption.
      * apply repeat_ok.
      * intros X. apply (f_equal blen) in X. rewrite blen_repeat, blen_nil in X. lia.
      * intros _. apply within_exceeds. rewrite Hl. assumption.
    + exfalso. apply (f_equal blen) in H0. rewrite blen_cons, !blen_app in H0. lia.
  - intros (byte1 & body & missing & Hf & Hok & Hne & Hm).
    destruct (C05_incomplete_asks_for_more ft max byte1 body s missing) as (n & H & _); eauto. bok.
Qed.

(** ** C07 *)

(** Unless the answer is "more bytes" with an unchanged stream, bytes [t] that arrive later do
    not change the result or what is consumed. *)
Theorem C07_later_bytes_do_not_matter ft max s t r s' :
  bytes_ok s -> bytes_ok t -> Packet_read ft s max = (r, s') ->
  ((exists n, r = Err (InsufficientBytes n)) -> s' <> s) ->
  Packet_read ft (s ++ t) max = (r, s' ++ t).
Proof.
  intros Hs Ht E Hn. pose proof (read_outcome ft s max Hs) as O. rewrite E in O.
  apply outcome_det; [bok|]. inversion O; subst;
    try (exfalso; apply Hn; [eexists; reflexivity|reflexivity]).
  - cbn [app]. rewrite <- app_assoc. apply out_malformed; assumption.
  - cbn [app]. rewrite <- app_assoc. apply out_over; assumption.
  - cbn [app]. rewrite <- !app_assoc. apply out_full; assumption.
Qed.
Example C07_instance ft t :
  Packet_read ft [64; 2; 0; 10; 192] None = (Ok (P_PubAck (mkPubAck 10 PAR_Success None)), [192])
  /\ (bytes_ok t -> Packet_read ft ([64; 2; 0; 10; 192] ++ t) None = (Ok (P_PubAck (mkPubAck 10 PAR_Success None)), 192 :: t)).
Proof.
  assert (E : Packet_read ft [64; 2; 0; 10; 192] None = (Ok (P_PubAck (mkPubAck 10 PAR_Success None)), [192]))
    by (destruct ft; reflexivity).
  split; [exact E|]. intros Ht. refine (C07_later_bytes_do_not_matter ft None _ t _ [192] _ Ht E _).
  - repeat constructor.
  - intros [n H]. discriminate H.
Qed.

(** ** C09 *)

(** As soon as the fixed header is there, the limit is enforced on the remaining length it
    announces, before any of the body has to be there, and nothing is consumed. *)
Theorem C09_limit_enforced_on_header ft m n s :
  bytes_ok s -> announces n s -> m < n ->
  Packet_read ft s (Some m) = (Err (PayloadSizeLimitExceeded n m), s).
Proof.
  intros Hs (b1 & lb & t & -> & Hw) Hlt. bok.
  apply (read_over ft b1 lb t n (Some m)); auto. cbn [exceeds]. apply N.ltb_lt. exact Hlt.
Qed.
(** A PUBLISH header announcing 200000 bytes, none of which is there yet. *)
Example C09_instance ft :
  announces 200000 [48; 192; 154; 12]
  /\ Packet_read ft [48; 192; 154; 12] (Some 199999) = (Err (PayloadSizeLimitExceeded 200000 199999), [48; 192; 154; 12])
  /\ Packet_read ft [48; 192; 154; 12] (Some 200000) = (Err (InsufficientBytes 200000), [48; 192; 154; 12]).
Proof.
  split; [exists 48, [192; 154; 12], []; split; [reflexivity|]; split; [cbn; lia|split; [cbn; lia|reflexivity]]|].
  destruct ft; split; reflexivity.
Qed.
(** In every other case the limit plays no role. *)
Theorem C09_limit_otherwise_ignored ft m s :
  bytes_ok s -> (forall n, announces n s -> n <= m) ->
  Packet_read ft s (Some m) = Packet_read ft s None.
Proof.
  intros Hs H. pose proof (read_outcome ft s None Hs) as O.
  remember (Packet_read ft s None) as R eqn:ER. apply outcome_det; [exact Hs|]. destruct O.
  - apply out_short; assumption.
  - apply out_header; assumption.
  - apply out_malformed; assumption.
  - discriminate.
  - apply out_partial; auto. cbn [exceeds]. apply N.ltb_ge. apply H. exists byte1, lb, t. auto.
  - apply out_full; auto. cbn [exceeds]. apply N.ltb_ge. apply H. exists byte1, lb, (body ++ rest). auto.
Qed.
(** The limit error is reported exactly when an announced length exceeds the limit. *)
Theorem C09_limit_error_iff ft max s a b s' :
  bytes_ok s ->
  Packet_read ft s max = (Err (PayloadSizeLimitExceeded a b), s')
  <-> max = Some b /\ announces a s /\ b < a /\ s' = s.
Proof.
  intros Hs. split.
  - intros E. pose proof (read_outcome ft s max Hs) as O. rewrite E in O. inversion O; subst; bok.
    + destruct max as [m|]; [|discriminate]. cbn [exceeds] in *.
      repeat split; [exists byte1, lb, t; auto|]. apply N.ltb_lt. assumption.
    + exfalso. assert (X : tame (fun _ => True) (body_read ft byte1 body)) by (apply body_read_tame; assumption).
      rewrite H in X. exact X.
  - intros (-> & Ha & Hlt & ->). apply C09_limit_enforced_on_header; assumption.
Qed.

(** ** C03 *)

(** Packet::read always returns Ok or Err. *)
Theorem C03_read_total ft max s :
  bytes_ok s ->
  exists s', (exists p, Packet_read ft s max = (Ok p, s')) \/ (exists e, Packet_read ft s max = (Err e, s')).
Proof.
  intros Hs. pose proof (read_outcome ft s max Hs) as O.
  remember (Packet_read ft s max) as R eqn:ER. destruct O; bok; eauto.
  assert (X : tame (fun _ => True) (body_read ft byte1 body)) by (apply body_read_tame; assumption).
  exists rest. destruct (body_read ft byte1 body); eauto; destruct X.
Qed.
(** In other words it neither panics nor runs forever. *)
Theorem C03_read_never_panics_or_diverges ft max s :
  bytes_ok s -> fst (Packet_read ft s max) <> Panic /\ fst (Packet_read ft s max) <> Diverge.
Proof.
  intros Hs. destruct (C03_read_total ft max s Hs) as (s' & [[x E]|[x E]]); rewrite E; split; discriminate.
Qed.

(** ** C37 *)

(** Ok p exactly when the stream is a frame spelling p (Wire.v), then [rest]. *)
Theorem C37_read_is_the_wire_language ft max s p rest :
  bytes_ok s ->
  Packet_read ft s max = (Ok p, rest)
  <-> exists byte1 body f,
        s = f ++ rest /\ framed byte1 body f /\ body_wire ft byte1 p body /\ within max (blen body).
Proof.
  intros Hs. rewrite read_wire by exact Hs. split.
  - intros (f & b1 & lb & body & -> & -> & H1 & H2 & H3). exists b1, body, (b1 :: lb ++ body).
    repeat split; auto. exists lb. auto.
  - intros (b1 & body & f & -> & (lb & -> & Hw) & H2 & H3). exists (b1 :: lb ++ body), b1, lb, body. auto.
Qed.
(** The language is not empty, and a packet can have several spellings: PUBACK in its short
    form, with an explicit reason, and with an overlong remaining length. *)
Example C37_instances ft f :
  In f [[64; 2; 0; 10]; [64; 3; 0; 10; 0]; [64; 130; 0; 0; 10]; [79; 5; 0; 10; 0; 0; 99]] ->
  frame_wire ft (P_PubAck (mkPubAck 10 PAR_Success None)) f.
Proof.
  intros H. assert (bytes_ok f /\ Packet_read ft f None = (Ok (P_PubAck (mkPubAck 10 PAR_Success None)), [])) as [Hf E].
  { repeat destruct H as [<-|H]; try contradiction; (split; [repeat constructor|destruct ft; reflexivity]). }
  apply C37_read_is_the_wire_language in E; [|exact Hf].
  destruct E as (byte1 & body & g & -> & (lb & -> & Hw) & B & _). rewrite app_nil_r in *.
  exists byte1, lb, body. apply Forall_cons_iff in Hf. destruct Hf as [Hb _]. repeat (split; [assumption || reflexivity|]). exact B.
Qed.
(** The packet and what is left are determined by the stream. *)
Theorem C37_wire_language_unambiguous ft p1 p2 f1 f2 r1 r2 :
  bytes_ok (f1 ++ r1) -> frame_wire ft p1 f1 -> frame_wire ft p2 f2 -> f1 ++ r1 = f2 ++ r2 ->
  p1 = p2 /\ f1 = f2 /\ r1 = r2.
Proof.
  intros Hs (b1 & lb1 & body1 & E1 & _ & W1 & B1) (b2 & lb2 & body2 & E2 & _ & W2 & B2) E.
  assert (X1 : Packet_read ft (f1 ++ r1) None = (Ok p1, r1)).
  { apply C37_read_is_the_wire_language; [exact Hs|]. exists b1, body1, f1. repeat split; auto. exists lb1; auto. }
  assert (X2 : Packet_read ft (f1 ++ r1) None = (Ok p2, r2)).
  { apply C37_read_is_the_wire_language; [exact Hs|]. exists b2, body2, f2. repeat split; auto. exists lb2; auto. }
  rewrite X1 in X2. injection X2 as -> ->. repeat split. apply app_inv_tail in E. exact E.
Qed.

(** ** C33 *)

(** The kind of packet by the high nibble of the first byte (MQTT 5.0 Table 2-1). *)
Definition kind_number (p : Packet) : N :=
  match p with
  | P_Connect _ _ _ => 1 | P_ConnAck _ => 2 | P_Publish _ => 3 | P_PubAck _ => 4 | P_PubRec _ => 5
  | P_PubRel _ => 6 | P_PubComp _ => 7 | P_Subscribe _ => 8 | P_SubAck _ => 9 | P_Unsubscribe _ => 10
  | P_UnsubAck _ => 11 | P_PingReq => 12 | P_PingResp => 13 | P_Disconnect _ => 14
  end.
Theorem C33_kind_follows_first_byte ft max byte1 s p rest :
  bytes_ok (byte1 :: s) -> Packet_read ft (byte1 :: s) max = (Ok p, rest) -> kind_number p = byte1 / 16.
Proof.
  intros Hs E. apply C37_read_is_the_wire_language in E; [|exact Hs].
  destruct E as (b1 & body & f & E & (lb & -> & _) & B & _). injection E as <- _.
  apply body_wire_nibble in B. rewrite B. destruct p; reflexivity.
Qed.
Example C33_instances ft :
  Packet_read ft [192; 0] None = (Ok P_PingReq, []) /\ kind_number P_PingReq = 192 / 16
  /\ Packet_read ft [207; 0] None = (Ok P_PingReq, []) /\ kind_number P_PingReq = 207 / 16
  /\ Packet_read ft [15; 0] None = (Err (InvalidPacketType 0), []) /\ Packet_read ft [240; 0] None = (Err (InvalidPacketType 15), []).
Proof. destruct ft; repeat split; reflexivity. Qed.
(** Types 0 and 15 are rejected after the frame was consumed, whatever its contents. *)
Theorem C33_reserved_types_rejected ft max byte1 body f rest :
  framed byte1 body f -> byte1 < 256 -> bytes_ok body -> bytes_ok rest -> within max (blen body) ->
  byte1 / 16 = 0 \/ byte1 / 16 = 15 ->
  Packet_read ft (f ++ rest) max = (Err (InvalidPacketType (byte1 / 16)), rest).
Proof.
  intros Hf H1 Hb Hr Hm Hn. rewrite (framed_read ft max byte1 body) by assumption.
  unfold body_read, Packet_read_frame. rewrite packet_type_cases.
  destruct Hn as [-> | ->]; reflexivity.
Qed.

