(** The messages of the errors (C56). *)
From Coq Require Import String Ascii Decimal DecimalString DecimalFacts DecimalN DecimalPos Lia.
From Verif Require Import Types MDisplay.
Local Open Scope N_scope.

(** ** C56 *)

(** A decimal numeral: digits only, and the number it denotes. *)
Definition digit (c : ascii) : bool := (48 <=? N_of_ascii c) && (N_of_ascii c <=? 57).
Fixpoint digits (s : string) : bool :=
  match s with EmptyString => true | String c r => digit c && digits r end.
Fixpoint value_from (acc : N) (s : string) : N :=
  match s with EmptyString => acc | String c r => value_from (10 * acc + (N_of_ascii c - 48)) r end.

Lemma show_cases n : n = 0 /\ show n = "0"%string \/ exists p, n = N.pos p /\ show n = NilEmpty.string_of_uint (Pos.to_uint p).
Proof.
  destruct n as [|p]; [left; auto|right]. exists p. split; [reflexivity|]. unfold show. cbn [N.to_uint].
  pose proof (Unsigned.to_uint_nonnil p) as H. destruct (Pos.to_uint p); [congruence|reflexivity..].
Qed.
Lemma uint_digits d : digits (NilEmpty.string_of_uint d) = true.
Proof. induction d; cbn [NilEmpty.string_of_uint digits]; auto. Qed.
Lemma show_digits n : digits (show n) = true.
Proof. destruct (show_cases n) as [[_ ->]|(p & _ & ->)]; [reflexivity|apply uint_digits]. Qed.
Lemma uint_value d : forall acc, value_from (N.pos acc) (NilEmpty.string_of_uint d) = N.pos (Pos.of_uint_acc d acc).
Proof.
  induction d; intros acc; cbn [NilEmpty.string_of_uint value_from Pos.of_uint_acc]; [reflexivity|..];
    rewrite <- IHd; f_equal; cbn -[N.mul N.add Pos.mul Pos.add]; lia.
Qed.
Lemma uint_value0 d : value_from 0 (NilEmpty.string_of_uint d) = Pos.of_uint d.
Proof.
  induction d; cbn [NilEmpty.string_of_uint value_from Pos.of_uint]; [reflexivity|exact IHd|..];
    rewrite <- uint_value; reflexivity.
Qed.
Lemma show_value n : value_from 0 (show n) = n.
Proof.
  destruct (show_cases n) as [[-> ->]|(p & -> & ->)]; [reflexivity|]. rewrite uint_value0. apply DecimalPos.Unsigned.of_to.
Qed.
Lemma show_inj a b : show a = show b -> a = b.
Proof. intros H. rewrite <- (show_value a), <- (show_value b), H. reflexivity. Qed.
(** A numeral ends where something else than a digit follows. *)
Lemma digits_split c x y : digit c = false -> forall a b,
  digits a = true -> digits b = true -> (a ++ String c x = b ++ String c y)%string -> a = b /\ x = y.
Proof.
  intros Hc. induction a as [|d a IH]; intros [|d' b] Ha Hb H; cbn [append] in H.
  - injection H as ->. auto.
  - injection H as -> _. cbn [digits] in Hb. rewrite Hc in Hb. discriminate.
  - injection H as -> _. cbn [digits] in Ha. rewrite Hc in Ha. discriminate.
  - injection H as -> H. cbn [digits] in Ha, Hb. apply andb_prop in Ha, Hb. destruct (IH b) as [-> ->]; tauto.
Qed.
Lemma show_split c a b x y : digit c = false -> (show a ++ String c x = show b ++ String c y)%string -> a = b /\ x = y.
Proof.
  intros Hc H. destruct (digits_split c x y Hc _ _ (show_digits a) (show_digits b) H) as [E ->]. auto using show_inj.
Qed.
Lemma prefix_inj s x y : (s ++ x = s ++ y)%string -> x = y.
Proof. induction s as [|c s IH]; cbn [append]; [auto|]. intros H. injection H as H. auto. Qed.

(** The message tells the error, up to the level in InvalidProtocolLevel. *)
Theorem C56_message_tells_the_error utf8 e e' :
  display utf8 e = display utf8 e' ->
  e = e' \/ exists n m, e = InvalidProtocolLevel n /\ e' = InvalidProtocolLevel m.
Proof.
  intros H.
  destruct e, e'; try (left; reflexivity); try (right; eauto; fail);
    cbn [display] in H;
    try (exfalso; cbn [append] in H; discriminate H);
    left.
  all: apply prefix_inj in H.
  all: try (apply show_inj in H; subst; reflexivity).
  all: apply show_split in H; [|reflexivity]; destruct H as [-> H]; try reflexivity.
  change (" has been exceeded by packet of "%string) with (String " " "has been exceeded by packet of ") in H.
  apply (prefix_inj "has been exceeded by packet of ") in H.
  apply show_split in H; [|reflexivity]. destruct H as [-> _]. reflexivity.
Qed.
(** The numbers in the messages are decimal numerals without leading zeros. *)
Theorem C56_numbers_are_decimal n :
  digits (show n) = true /\ value_from 0 (show n) = n /\
  (n <> 0 -> forall r, show n <> String "0" r).
Proof.
  split; [apply show_digits|]. split; [apply show_value|].
  intros Hn r E. destruct (show_cases n) as [[-> _]|(p & -> & Hs)]; [congruence|]. rewrite Hs in E.
  destruct (Pos.to_uint p) as [|d|d|d|d|d|d|d|d|d|d] eqn:Ed; try discriminate E.
  assert (X : unorm (Pos.to_uint p) = Pos.to_uint p).
  { rewrite <- DecimalPos.Unsigned.to_of, DecimalPos.Unsigned.of_to. reflexivity. }
  unfold unorm in X. destruct (nzhead (Pos.to_uint p)) eqn:Ez;
    [exact (DecimalPos.Unsigned.to_uint_nonzero p (eq_sym X))|..]; rewrite Ed in X; try discriminate X.
  exact (nzhead_nonzero _ _ Ez).
Qed.
(** Two protocol levels with the same message. *)
Theorem C56_level_refuted utf8 : display utf8 (InvalidProtocolLevel 3) = display utf8 (InvalidProtocolLevel 4).
Proof. reflexivity. Qed.
Example C56_instance utf8 :
  display utf8 (PayloadSizeLimitExceeded 1200 1024) = "Max Payload size of 1024 has been exceeded by packet of 1200 bytes"%string
  /\ display utf8 (InsufficientBytes 2) = "Insufficient number of bytes to frame packet, 2 more bytes required"%string
  /\ display utf8 (InvalidReason 0) = "Invalid reason = 0"%string.
Proof. repeat split; reflexivity. Qed.

(** The numbers of a message can be read off: its maximal runs of digits, in order. *)
Fixpoint numbers (cur : option N) (s : string) : list N :=
  match s with
  | EmptyString => match cur with Some n => [n] | None => [] end
  | String c r =>
      if digit c
      then numbers (Some (10 * (match cur with Some n => n | None => 0 end) + (N_of_ascii c - 48))) r
      else match cur with Some n => n :: numbers None r | None => numbers None r end
  end.
(** The numbers an error carries; the limit of a PayloadSizeLimitExceeded comes before the size. *)
Definition carried (e : error) : list N :=
  match e with
  | InvalidConnectReturnCode n | InvalidReason n | InvalidRemainingLength n | InvalidProtocolLevel n
  | InvalidPacketType n | InvalidRetainForwardRule n | InvalidQoS n | InvalidSubscribeReasonCode n
  | BoundaryCrossed n | InvalidPropertyType n | InsufficientBytes n => [n]
  | PayloadSizeLimitExceeded pkt_size max => [max; pkt_size]
  | _ => []
  end.
Lemma numbers_digits s : forall n r, digits s = true -> numbers (Some n) (s ++ r) = numbers (Some (value_from n s)) r.
Proof.
  induction s as [|c s IH]; intros n r H; cbn [append numbers value_from]; [reflexivity|].
  cbn [digits] in H. apply andb_prop in H. destruct H as [Hc H]. rewrite Hc. apply IH. exact H.
Qed.
Lemma numbers_show n r : numbers None (show n ++ r) = numbers (Some n) r.
Proof.
  pose proof (show_digits n) as H. pose proof (show_value n) as V.
  assert (NE : show n <> EmptyString).
  { intros X. destruct (show_cases n) as [[_ E]|(p & _ & E)]; [congruence|]. rewrite E in X.
    pose proof (Unsigned.to_uint_nonnil p). destruct (Pos.to_uint p); try discriminate X. congruence. }
  destruct (show n) as [|c s]; [congruence|]. cbn [append numbers]. cbn [digits] in H. apply andb_prop in H. destruct H as [Hc H].
  rewrite Hc, numbers_digits by exact H. cbn [value_from] in V. rewrite V. reflexivity.
Qed.
Fixpoint digitless (s : string) : bool :=
  match s with EmptyString => true | String c r => negb (digit c) && digitless r end.
Lemma numbers_text s : forall r, digitless s = true -> numbers None (s ++ r) = numbers None r.
Proof.
  induction s as [|c s IH]; intros r H; cbn [append numbers]; [reflexivity|]. cbn [digitless] in H. apply andb_prop in H.
  destruct H as [Hc H]. destruct (digit c); [discriminate|]. apply IH. exact H.
Qed.
Lemma text_end s : digitless s = true -> numbers None s = [].
Proof.
  induction s as [|c s IH]; intros H; cbn [numbers]; [reflexivity|]. cbn [digitless] in H. apply andb_prop in H.
  destruct H as [Hc H]. destruct (digit c); [discriminate|]. auto.
Qed.
Lemma append_nil s : (s ++ "")%string = s.
Proof. induction s as [|c s IH]; cbn [append]; [reflexivity|]. rewrite IH. reflexivity. Qed.
Theorem C56_numbers_read_off utf8 e :
  carried e <> [] -> (forall n, e <> InvalidProtocolLevel n) ->
  numbers None (display utf8 e) = carried e.
Proof.
  intros H1 H2. destruct e; cbn [carried] in *; try congruence; try (exfalso; eapply H2; reflexivity); cbn [display].
  all: rewrite numbers_text by reflexivity.
  all: try (rewrite <- (append_nil (show _)), numbers_show; reflexivity).
  all: rewrite numbers_show.
  all: try reflexivity.
  change (" has been exceeded by packet of " ++ show pkt_size ++ " bytes")%string
    with (String " " ("has been exceeded by packet of " ++ (show pkt_size ++ " bytes"))).
  cbn [numbers]. change (digit " ") with false. cbv iota.
  rewrite (numbers_text "has been exceeded by packet of ") by reflexivity. rewrite numbers_show. reflexivity.
Qed.
Example C56_numbers_instance utf8 :
  numbers None (display utf8 (PayloadSizeLimitExceeded 1200 1024)) = [1024; 1200]
  /\ numbers None (display utf8 (InvalidProtocolLevel 4)) = [] /\ numbers None (display utf8 (InsufficientBytes 0)) = [0].
Proof. repeat split; reflexivity. Qed.
