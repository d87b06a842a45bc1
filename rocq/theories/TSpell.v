(** The remaining length has several spellings, and they all count (C74). *)
From Verif Require Import Types Model Spec Wire Faults PBase PVarint PRead PProps PFrame PWrite PTotal TFraming TFaults TWrite TStandard Samples.

(** Base 128, least significant first, in exactly k bytes; all but the last are marked. *)
Fixpoint digits (k : nat) (n : N) : bytes :=
  match k with
  | O => []
  | S O => [n]
  | S k => (128 + n mod 128) :: digits k (n / 128)
  end.
(** The k bytes suffice, and are not more than the standard knows. *)
Definition fits (k : nat) (n : N) : Prop := (1 <= k <= 4)%nat /\ n < 128 ^ N.of_nat k.
Definition spelled (k : nat) (byte1 : N) (body : bytes) : bytes := byte1 :: digits k (blen body) ++ body.

Lemma digits_length k : forall n, length (digits k n) = k.
Proof. induction k as [|k IH]; intros n; [reflexivity|]. destruct k; [reflexivity|]. change (digits (S (S k)) n) with ((128 + n mod 128) :: digits (S k) (n / 128)). cbn [length]. rewrite IH. reflexivity. Qed.
Lemma pow_S k : 128 ^ N.of_nat (S k) = 128 * 128 ^ N.of_nat k.
Proof. rewrite Nat2N.inj_succ. apply N.pow_succ_r'. Qed.
Lemma shape_digits l : varint_shape l -> varint_value l < 128 ^ N.of_nat (length l) /\ l = digits (length l) (varint_value l).
Proof.
  induction l as [|b [|c r] IH]; intros H; [destruct H| |].
  - cbn in H. cbn [varint_value length digits]. rewrite N.mod_small by exact H. replace (b + 128 * 0) with b by lia. split; [exact H|reflexivity].
  - destruct H as (H1 & H2 & H3). destruct (IH H3) as [IH1 IH2]. change (length (b :: c :: r)) with (S (length (c :: r))). rewrite pow_S.
    change (varint_value (b :: c :: r)) with (b mod 128 + 128 * varint_value (c :: r)). set (v := varint_value (c :: r)) in *.
    assert (M : b mod 128 < 128) by (apply N.mod_lt; discriminate). split; [lia|].
    change (length (c :: r)) with (S (length r)) in *.
    change (digits (S (S (length r))) (b mod 128 + 128 * v)) with ((128 + (b mod 128 + 128 * v) mod 128) :: digits (S (length r)) ((b mod 128 + 128 * v) / 128)).
    replace ((b mod 128 + 128 * v) mod 128) with (b mod 128) by (rewrite (N.mul_comm 128), N.mod_add by discriminate; rewrite N.mod_mod by discriminate; reflexivity).
    replace ((b mod 128 + 128 * v) / 128) with v by (rewrite (N.mul_comm 128), N.div_add by discriminate; rewrite (N.div_small (b mod 128)) by exact M; reflexivity).
    f_equal; [|exact IH2]. assert (X : (b - 128) mod 128 = b mod 128) by (rewrite <- (N.mod_add (b - 128) 1) by discriminate; f_equal; lia).
    rewrite N.mod_small in X by lia. lia.
Qed.
Lemma digits_shape k : forall n, (1 <= k)%nat -> n < 128 ^ N.of_nat k -> varint_shape (digits k n) /\ varint_value (digits k n) = n.
Proof.
  induction k as [|k IH]; intros n K L; [lia|]. destruct k as [|k].
  - cbn in L. cbn [digits varint_shape varint_value]. rewrite N.mod_small by exact L. split; [exact L|lia].
  - rewrite pow_S in L. destruct (IH (n / 128) ltac:(lia) ltac:(apply N.div_lt_upper_bound; [discriminate|exact L])) as [S1 S2].
    change (digits (S (S k)) n) with ((128 + n mod 128) :: digits (S k) (n / 128)). assert (M : n mod 128 < 128) by (apply N.mod_lt; discriminate).
    split.
    + pose proof (digits_length (S k) (n / 128)) as D. destruct (digits (S k) (n / 128)) as [|x r]; [discriminate D|]. split; [lia|]. split; [lia|exact S1].
    + cbn [varint_value]. rewrite S2. replace (128 + n mod 128) with (n mod 128 + 1 * 128) by lia. rewrite N.mod_add by discriminate. rewrite N.mod_mod by discriminate.
      pose proof (N.div_mod n 128 ltac:(discriminate)). lia.
Qed.
Lemma wire_digits n l : varint_wire n l <-> exists k, fits k n /\ l = digits k n.
Proof.
  split.
  - intros (L & S & ->). destruct (shape_digits l S) as [H1 H2]. exists (length l). split; [|exact H2]. split; [|exact H1].
    split; [destruct l; [destruct S|cbn; lia]|exact L].
  - intros (k & ((K1 & K2) & L) & ->). destruct (digits_shape k n K1 L) as [S V]. split; [rewrite digits_length; exact K2|]. split; [exact S|symmetry; exact V].
Qed.

(** The frames with a given first byte and body are the spellings, one for each number of bytes. *)
Theorem C74_frames_are_the_spellings byte1 body f :
  framed byte1 body f <-> exists k, fits k (blen body) /\ f = spelled k byte1 body.
Proof.
  split.
  - intros (lb & -> & W). apply wire_digits in W. destruct W as (k & F & ->). exists k. split; [exact F|reflexivity].
  - intros (k & F & ->). exists (digits k (blen body)). split; [reflexivity|]. apply wire_digits. eauto.
Qed.

Lemma spelled_ok k byte1 body rest : byte1 < 256 -> bytes_ok body -> bytes_ok rest -> fits k (blen body) -> bytes_ok (spelled k byte1 body ++ rest).
Proof.
  intros H1 Hb Hr F. assert (W : varint_wire (blen body) (digits k (blen body))) by (apply wire_digits; eauto). apply varint_wire_ok in W.
  unfold spelled. cbn [app]. constructor; [exact H1|]. unfold bytes_ok in *. rewrite !Forall_app. auto.
Qed.
(** Whatever the frame, accepted or not: the spelling does not matter. *)
Theorem C74_spelling_does_not_matter ft byte1 body rest max k k' :
  byte1 < 256 -> bytes_ok body -> bytes_ok rest -> fits k (blen body) -> fits k' (blen body) ->
  (within max (blen body) ->
     Packet_read ft (spelled k byte1 body ++ rest) max = Packet_read ft (spelled k' byte1 body ++ rest) max
     /\ snd (Packet_read ft (spelled k byte1 body ++ rest) max) = rest)
  /\ (forall m, max = Some m -> m < blen body ->
        Packet_read ft (spelled k byte1 body ++ rest) max
        = (Err (PayloadSizeLimitExceeded (blen body) m), spelled k byte1 body ++ rest)).
Proof.
  intros H1 Hb Hr F F'.
  assert (A : forall k, fits k (blen body) -> framed byte1 body (spelled k byte1 body)) by (intros j Fj; apply C74_frames_are_the_spellings; eauto).
  pose proof (spelled_ok k byte1 body rest H1 Hb Hr F) as B. pose proof (spelled_ok k' byte1 body rest H1 Hb Hr F') as B'. split.
  - intros W. assert (X : exists o, (forall k, fits k (blen body) -> Packet_read ft (spelled k byte1 body ++ rest) max = (o, rest))).
    { destruct (proj1 (C42_faults_complement_the_wire_language ft byte1 body H1 Hb)) as [[p P]|[e P]].
      - exists (Ok p). intros j Fj. apply C37_read_is_the_wire_language; [apply spelled_ok; assumption|]. exists byte1, body, (spelled j byte1 body). auto.
      - exists (Err e). intros j Fj. apply C42_errors_are_the_described_faults; [apply spelled_ok; assumption|]. right. exists byte1, body, (spelled j byte1 body). auto. }
    destruct X as (o & X). rewrite (X k F), (X k' F'). auto.
  - intros m -> L. apply C09_limit_enforced_on_header; [exact B| |exact L].
    exists byte1, (digits k (blen body)), (body ++ rest). split; [unfold spelled; cbn [app]; rewrite <- app_assoc; reflexivity|]. apply wire_digits. eauto.
Qed.

(** No accepted frame is the only one for its packet, unless its length field is full. *)
Theorem C74_no_frame_is_the_only_one ft s max p rest :
  bytes_ok s -> Packet_read ft s max = (Ok p, rest) ->
  exists byte1 body k, fits k (blen body) /\ s = spelled k byte1 body ++ rest
    /\ ((k < 4)%nat -> forall more, bytes_ok more ->
        spelled (S k) byte1 body <> spelled k byte1 body
        /\ blen (spelled (S k) byte1 body) = blen (spelled k byte1 body) + 1
        /\ Packet_read ft (spelled (S k) byte1 body ++ more) max = (Ok p, more)).
Proof.
  intros Hs E. pose proof (proj1 (C37_read_is_the_wire_language ft max s p rest Hs) E) as (b1 & body & f & -> & Fr & B & W).
  apply C74_frames_are_the_spellings in Fr. destruct Fr as (k & F & ->). exists b1, body, k. split; [exact F|]. split; [reflexivity|]. intros K more Hm.
  assert (F' : fits (S k) (blen body)).
  { destruct F as ((F1 & F2) & F3). split; [lia|]. rewrite pow_S. lia. }
  assert (L : blen (spelled (S k) b1 body) = blen (spelled k b1 body) + 1).
  { unfold spelled, blen. cbn [length]. rewrite !app_length, !digits_length. lia. }
  split; [intros Z; rewrite Z in L; lia|]. split; [exact L|].
  unfold bytes_ok in Hs. apply Forall_app in Hs. destruct Hs as [Hs _]. unfold spelled in Hs. pose proof (Forall_inv Hs) as H1. apply Forall_inv_tail, Forall_app in Hs. destruct Hs as [_ Hb].
  apply C37_read_is_the_wire_language; [apply spelled_ok; assumption|]. exists b1, body, (spelled (S k) b1 body). split; [reflexivity|]. split; [apply C74_frames_are_the_spellings; eauto|]. auto.
Qed.

(** What write appends is the shortest of them. *)
Theorem C74_written_is_the_shortest p n out :
  Packet_write p [] = (Ok n, out) -> bad_disconnect p = false ->
  exists byte1 body k, fits k (blen body) /\ out = spelled k byte1 body
    /\ forall k', fits k' (blen body) -> (k <= k')%nat.
Proof.
  intros E B. destruct (C13_success_means_encoding p [] n _ E (fun _ => eq_refl) B) as (He & _ & X). cbn [app] in X. subst out.
  unfold encodable, packet_fields, frame_fields in He. apply Forall_inv_tail, Forall_inv in He. cbn [field_error] in He.
  set (body := fields_bytes (body_fields p)) in *.
  assert (L : blen body <= max_varint) by (destruct (N.leb_spec (blen body) max_varint); [assumption|discriminate]).
  pose proof (varint_is_wire _ L) as W. apply wire_digits in W. destruct W as (k & F & V). exists (first_byte p), body, k. split; [exact F|]. split.
  - unfold spelled. rewrite <- V. reflexivity.
  - intros k' ((K1 & K2) & K3). pose proof (varint_len (blen body)) as Y. rewrite V in Y. unfold blen at 1 in Y. rewrite digits_length in Y.
    destruct F as ((F1 & F2) & F3). unfold len_len in Y.
    assert (C : k' = 1%nat \/ k' = 2%nat \/ k' = 3%nat \/ k' = 4%nat) by lia.
    destruct C as [->|[->|[->| ->]]]; cbn in K3; destruct (N.leb_spec 2097152 (blen body)); destruct (N.leb_spec 16384 (blen body)); destruct (N.leb_spec 128 (blen body)); lia.
Qed.

(** A PUBACK in its four spellings, and a broken one. *)
Example C74_instances ft :
  Forall (fun k => fits k 2) [1; 2; 3; 4]%nat
  /\ map (fun k => spelled k 64 [0; 10]) [1; 2; 3; 4]%nat
     = [[64; 2; 0; 10]; [64; 130; 0; 0; 10]; [64; 130; 128; 0; 0; 10]; [64; 130; 128; 128; 0; 0; 10]]
  /\ Forall (fun f => Packet_read ft (f ++ [192]) (Some 2) = (Ok (P_PubAck (mkPubAck 10 PAR_Success None)), [192]))
       (map (fun k => spelled k 64 [0; 10]) [1; 2; 3; 4]%nat)
  /\ Forall (fun f => Packet_read ft (f ++ [192]) None = (Err (InsufficientBytes 1), [192]))
       (map (fun k => spelled k 176 [0; 10]) [1; 2; 3; 4]%nat)
  /\ Packet_write (P_PubAck (mkPubAck 10 PAR_Success None)) [] = (Ok 4, spelled 1 64 [0; 10]).
Proof.
  split; [|split; [reflexivity|split; [|split; [|reflexivity]]]].
  - repeat (constructor; [split; [lia|reflexivity]|]). constructor.
  - destruct ft; repeat (constructor; [reflexivity|]); constructor.
  - destruct ft; repeat (constructor; [reflexivity|]); constructor.
Qed.
