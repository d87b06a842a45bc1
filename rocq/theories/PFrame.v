(** Framing: what Packet::read does to an arbitrary stream. *)
From Verif Require Import Types MLib MConnect Model Spec Wire PBase PVarint PRead.
Ltac Zify.zify_post_hook ::= Z.div_mod_to_equations.

Lemma advance_0 b : advance b 0 = Ok b.
Proof. change 0 with (blen []). apply (advance_app [] b). Qed.

(** The readers ignore the length of the fixed header except to skip it. *)
Definition body_read (ft : feature) (byte1 : N) (body : bytes) : res Packet :=
  Packet_read_frame ft (mkFixedHeader byte1 0 (blen body)) body.

Lemma frame_skip ft byte1 n pre body :
  Packet_read_frame ft (mkFixedHeader byte1 (blen pre) n) (pre ++ body)
  = Packet_read_frame ft (mkFixedHeader byte1 0 n) body.
Proof.
  unfold Packet_read_frame, packet_type. cbn [fh_byte1 fh_remaining_len].
  match goal with |- rbind ?t _ = _ => destruct t as [t'| | |] end; cbn [rbind]; try reflexivity.
  destruct ((n =? 0) && _); [reflexivity|].
  destruct t';
    unfold Connect_read, Publish_read, Subscribe_read, Unsubscribe_read, ConnAck_read, PubAck_read,
      PubRec_read, PubRel_read, PubComp_read, SubAck_read, UnsubAck_read, Disconnect_read;
    cbn [fh_byte1 fh_remaining_len fh_fixed_header_len];
    rewrite ?advance_app, ?advance_0; cbn [rbind]; reflexivity.
Qed.

(** The limit excludes a body of n bytes. *)
Definition exceeds (max : option N) (n : N) : bool :=
  match max with Some m => m <? n | None => false end.
Definition limit_error (max : option N) (n : N) : error :=
  PayloadSizeLimitExceeded n (match max with Some m => m | None => 0 end).

Lemma parse_header byte1 lb t n : varint_wire n lb -> bytes_ok t ->
  parse_fixed_header (byte1 :: lb ++ t) = Ok (mkFixedHeader byte1 (blen lb + 1) n).
Proof.
  intros Hw Ht. unfold parse_fixed_header. pose proof (varint_wire_bound _ _ Hw) as (B1 & B2 & B3).
  rewrite blen_cons, blen_app.
  destruct (N.ltb_spec (1 + (blen lb + blen t)) 2); [lia|].
  rewrite (length_app n) by assumption. reflexivity.
Qed.

Lemma check_header byte1 lb t n max : varint_wire n lb -> bytes_ok t ->
  check (byte1 :: lb ++ t) max
  = if exceeds max n then Err (limit_error max n)
    else if blen t <? n then Err (InsufficientBytes (n - blen t))
    else Ok (mkFixedHeader byte1 (blen lb + 1) n).
Proof.
  intros Hw Ht. unfold check. rewrite (parse_header _ _ _ n) by assumption. cbn [rbind].
  cbn [fh_remaining_len]. unfold exceeds, limit_error.
  assert (E : forall A (e : A), (if (blen (byte1 :: lb ++ t) <? frame_length (mkFixedHeader byte1 (blen lb + 1) n))
     then Err (InsufficientBytes (frame_length (mkFixedHeader byte1 (blen lb + 1) n) - blen (byte1 :: lb ++ t)))
     else Ok e) = if blen t <? n then Err (InsufficientBytes (n - blen t)) else Ok e).
  { intros A e. unfold frame_length. cbn [fh_remaining_len fh_fixed_header_len].
    rewrite blen_cons, blen_app.
    destruct (N.ltb_spec (1 + (blen lb + blen t)) (blen lb + 1 + n)); destruct (N.ltb_spec (blen t) n); try lia;
      [|reflexivity].
    do 2 f_equal. lia. }
  destruct max as [m|]; [destruct (m <? n); [reflexivity|]|]; cbn [rbind]; apply E.
Qed.

(** Streams by what their beginning looks like. *)
Inductive stream_shape : bytes -> Prop :=
| shape_short s : blen s < 2 -> stream_shape s
| shape_header byte1 t : t <> [] -> blen t < 4 -> all_cont t -> stream_shape (byte1 :: t)
| shape_malformed byte1 l t : blen l = 4 -> all_cont l -> stream_shape (byte1 :: l ++ t)
| shape_partial byte1 lb t n : varint_wire n lb -> blen t < n -> stream_shape (byte1 :: lb ++ t)
| shape_full byte1 lb body rest :
    varint_wire (blen body) lb -> stream_shape (byte1 :: lb ++ body ++ rest).

Lemma stream_shapes s : bytes_ok s -> stream_shape s.
Proof.
  intros Hs. destruct s as [|byte1 t]; [apply shape_short; reflexivity|].
  apply bytes_ok_cons in Hs. destruct Hs as [Hb Ht].
  destruct (length_total t Ht) as [(l & r & v & -> & Hw & E)|[(H1 & H2 & E)|(l & r & -> & H1 & H2 & E)]].
  - destruct (N.lt_ge_cases (blen r) v) as [Hlt|Hge].
    + eapply shape_partial; eassumption.
    + destruct (split_at r v Hge) as (a & c & -> & <-). apply shape_full. exact Hw.
  - destruct t; [apply shape_short; reflexivity|]. apply shape_header; auto. discriminate.
  - apply shape_malformed; auto.
Qed.

Lemma read_short ft s max : blen s < 2 -> Packet_read ft s max = (Err (InsufficientBytes (2 - blen s)), s).
Proof.
  intros H. unfold Packet_read, check, parse_fixed_header.
  destruct (N.ltb_spec (blen s) 2); [reflexivity|lia].
Qed.

Lemma length_all_cont t : bytes_ok t -> blen t < 4 -> all_cont t -> length_ t = Err (InsufficientBytes 1).
Proof.
  intros Ht H1 H2. rewrite length_eq by exact Ht. unfold length_cases, all_cont in *.
  destruct t as [|a [|b [|c [|d t]]]]; try reflexivity;
    repeat match goal with H : Forall _ (_ :: _) |- _ => apply Forall_cons_iff in H; destruct H end;
    try (rewrite !blen_cons in H1; lia);
    repeat match goal with |- context [?x <? 128] => destruct (N.ltb_spec x 128); [lia|] end; reflexivity.
Qed.
Lemma length_malformed l t : bytes_ok l -> bytes_ok t -> blen l = 4 -> all_cont l ->
  length_ (l ++ t) = Err MalformedRemainingLength.
Proof.
  intros Hl Ht H1 H2. rewrite length_eq by (bok). unfold length_cases, all_cont in *.
  destruct l as [|a [|b [|c [|d [|e l]]]]]; rewrite ?blen_cons, ?blen_nil in H1; try lia.
  repeat match goal with H : Forall _ (_ :: _) |- _ => apply Forall_cons_iff in H; destruct H end.
  cbn [app].
  repeat match goal with |- context [?x <? 128] => destruct (N.ltb_spec x 128); [lia|] end; reflexivity.
Qed.

Lemma read_header ft byte1 t max : bytes_ok t -> t <> [] -> blen t < 4 -> all_cont t ->
  Packet_read ft (byte1 :: t) max = (Err (InsufficientBytes 1), byte1 :: t).
Proof.
  intros Ht Hne H1 H2. unfold Packet_read, check, parse_fixed_header. rewrite blen_cons.
  assert (blen t <> 0) by (intros E; apply blen_0 in E; congruence).
  destruct (N.ltb_spec (1 + blen t) 2); [lia|].
  rewrite length_all_cont by assumption. reflexivity.
Qed.

Lemma read_malformed ft byte1 l t max : bytes_ok l -> bytes_ok t -> blen l = 4 -> all_cont l ->
  Packet_read ft (byte1 :: l ++ t) max = (Err MalformedRemainingLength, byte1 :: l ++ t).
Proof.
  intros Hl Ht H1 H2. unfold Packet_read, check, parse_fixed_header. rewrite blen_cons, blen_app.
  destruct (N.ltb_spec (1 + (blen l + blen t)) 2); [lia|].
  rewrite length_malformed by assumption. reflexivity.
Qed.

Lemma read_over ft byte1 lb t n max : varint_wire n lb -> bytes_ok t -> exceeds max n = true ->
  Packet_read ft (byte1 :: lb ++ t) max = (Err (limit_error max n), byte1 :: lb ++ t).
Proof.
  intros Hw Ht He. unfold Packet_read. rewrite (check_header _ _ _ n) by assumption.
  rewrite He. reflexivity.
Qed.

Lemma read_partial ft byte1 lb t n max : varint_wire n lb -> bytes_ok t -> exceeds max n = false ->
  blen t < n ->
  Packet_read ft (byte1 :: lb ++ t) max = (Err (InsufficientBytes (n - blen t)), byte1 :: lb ++ t).
Proof.
  intros Hw Ht He Hlt. unfold Packet_read. rewrite (check_header _ _ _ n) by assumption.
  rewrite He. destruct (N.ltb_spec (blen t) n); [reflexivity|lia].
Qed.

Lemma read_full ft byte1 lb body rest max :
  varint_wire (blen body) lb -> bytes_ok body -> bytes_ok rest -> exceeds max (blen body) = false ->
  Packet_read ft (byte1 :: lb ++ body ++ rest) max = (body_read ft byte1 body, rest).
Proof.
  intros Hw Hb Hr He. unfold Packet_read.
  rewrite (check_header _ _ _ (blen body)) by (try assumption; bok).
  rewrite He, blen_app. destruct (N.ltb_spec (blen body + blen rest) (blen body)); [lia|].
  unfold frame_length. cbn [fh_fixed_header_len fh_remaining_len].
  replace (byte1 :: lb ++ body ++ rest) with (((byte1 :: lb) ++ body) ++ rest)
    by (cbn [app]; rewrite <- app_assoc; reflexivity).
  replace (blen lb + 1 + blen body) with (blen ((byte1 :: lb) ++ body))
    by (rewrite blen_app, blen_cons; lia).
  rewrite split_to_app.
  replace (blen lb + 1) with (blen (byte1 :: lb)) by (rewrite blen_cons; lia).
  rewrite frame_skip. reflexivity.
Qed.

(** Everything Packet::read can do, by shape. *)
Inductive outcome (ft : feature) (max : option N) : bytes -> res Packet * bytes -> Prop :=
| out_short s : blen s < 2 -> outcome ft max s (Err (InsufficientBytes (2 - blen s)), s)
| out_header byte1 t : t <> [] -> blen t < 4 -> all_cont t ->
    outcome ft max (byte1 :: t) (Err (InsufficientBytes 1), byte1 :: t)
| out_malformed byte1 l t : blen l = 4 -> all_cont l ->
    outcome ft max (byte1 :: l ++ t) (Err MalformedRemainingLength, byte1 :: l ++ t)
| out_over byte1 lb t n : varint_wire n lb -> exceeds max n = true ->
    outcome ft max (byte1 :: lb ++ t) (Err (limit_error max n), byte1 :: lb ++ t)
| out_partial byte1 lb t n : varint_wire n lb -> exceeds max n = false -> blen t < n ->
    outcome ft max (byte1 :: lb ++ t) (Err (InsufficientBytes (n - blen t)), byte1 :: lb ++ t)
| out_full byte1 lb body rest : varint_wire (blen body) lb -> exceeds max (blen body) = false ->
    outcome ft max (byte1 :: lb ++ body ++ rest) (body_read ft byte1 body, rest).

Lemma read_outcome ft s max : bytes_ok s -> outcome ft max s (Packet_read ft s max).
Proof.
  intros Hs. destruct (stream_shapes s Hs) as [s H|byte1 t H1 H2 H3|byte1 l t H1 H2|byte1 lb t n H1 H2|byte1 lb body rest H1];
    bok.
  - rewrite read_short by exact H. apply out_short. exact H.
  - rewrite read_header by assumption. apply out_header; assumption.
  - rewrite read_malformed by assumption. apply out_malformed; assumption.
  - destruct (exceeds max n) eqn:E.
    + rewrite (read_over _ _ _ _ n) by assumption. apply out_over; assumption.
    + rewrite (read_partial _ _ _ _ n) by assumption. apply out_partial; assumption.
  - destruct (exceeds max (blen body)) eqn:E.
    + rewrite (read_over _ _ _ _ (blen body)) by (try assumption; bok). apply out_over; assumption.
    + rewrite read_full by assumption. apply out_full; assumption.
Qed.

Lemma within_exceeds max n : within max n <-> exceeds max n = false.
Proof.
  destruct max as [m|]; cbn; [|tauto]. destruct (N.ltb_spec m n); split; intros; try lia; try discriminate; auto.
Qed.
