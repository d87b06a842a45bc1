(** Rejections: every error has its stated reason (C42); where the errors of property
    sections come from (C06, C25). *)
From Verif Require Import Types Model Spec Wire Sites Faults PBase PVarint PUtf8 PRead PItems PProps PFrame PWire PTotal PSites PFaults TFraming.
Ltac Zify.zify_post_hook ::= Z.div_mod_to_equations.

(** ** C42 *)

(** Packet::read returns Err(e) exactly when the stream has a defect described in Faults.v
    whose error is e; defects of the fixed header leave the stream untouched, defects of the
    body remove the frame. *)
Theorem C42_errors_are_the_described_faults ft s max e rest : bytes_ok s ->
  Packet_read ft s max = (Err e, rest)
  <-> (rest = s /\ header_faulty max s e)
      \/ exists byte1 body f, s = f ++ rest /\ framed byte1 body f /\ within max (blen body)
           /\ body_faulty ft byte1 body e.
Proof.
  intros Hs. split.
  - intros E. pose proof (read_outcome ft s max Hs) as O. rewrite E in O. inversion O; subst; bok.
    + left. split; [reflexivity|]. left. auto.
    + left. split; [reflexivity|]. right. left. exists byte1, t. split; [reflexivity|]. split; [assumption|]. left. split; [split; assumption|reflexivity].
    + left. split; [reflexivity|]. right. left. exists byte1, (l ++ t). split; [reflexivity|]. split.
      * intros X. apply app_eq_nil in X. destruct X as [-> _]. discriminate.
      * right. exists l, t. auto.
    + left. split; [reflexivity|]. right. right. exists byte1, lb, t, n. split; [reflexivity|]. split; [assumption|]. left.
      destruct max as [m|]; [|discriminate]. exists m. split; [reflexivity|]. split; [apply N.ltb_lt; assumption|reflexivity].
    + left. split; [reflexivity|]. right. right. exists byte1, lb, t, n. split; [reflexivity|]. split; [assumption|]. right.
      split; [apply within_exceeds; assumption|]. split; [assumption|reflexivity].
    + right. exists byte1, body, (byte1 :: lb ++ body). split; [cbn [app]; rewrite <- app_assoc; reflexivity|].
      split; [exists lb; auto|]. split; [apply within_exceeds; assumption|]. apply body_err; assumption.
  - intros [[-> H]|(byte1 & body & f & -> & Hf & Hm & H)].
    + destruct H as [[H ->]|[(byte1 & t & -> & Hne & [[[H1 H2] ->]|(l & r & -> & H1 & H2 & ->)])|(byte1 & lb & t & n & -> & Hw & H)]]; bok.
      * apply read_short. exact H.
      * apply read_header; assumption.
      * apply read_malformed; assumption.
      * destruct H as [(m & -> & Hlt & ->)|(Hwi & Hlt & ->)].
        -- apply (read_over ft byte1 lb t n (Some m)); auto. cbn [exceeds]. apply N.ltb_lt. exact Hlt.
        -- apply read_partial; auto. apply within_exceeds. exact Hwi.
    + bok. pose proof Hf as (lb & -> & Hw). bok. rewrite (framed_read ft max byte1 body) by assumption.
      f_equal. apply body_err; assumption.
Qed.
(** Errors of different origin: header, limit, body of a CONNECT, property section, filters. *)
Example C42_instances :
  map (fun s => fst (Packet_read F_default s (Some 100)))
    [[48; 255; 255; 255; 255]; [48; 101]; [16; 7; 0; 4; 77; 81; 84; 84; 4]; [16; 8; 0; 4; 77; 81; 84; 84; 5; 8];
     [64; 6; 0; 1; 0; 3; 17; 0]; [130; 6; 0; 1; 0; 0; 1; 97]; [130; 7; 0; 1; 0; 0; 1; 97; 3]; [130; 3; 0; 1; 0]]
  = [Err MalformedRemainingLength; Err (PayloadSizeLimitExceeded 101 100); Err (InvalidProtocolLevel 4); Err MalformedPacket;
     Err (InvalidPropertyType 17); Err MalformedPacket; Err (InvalidQoS 3); Err EmptySubscription].
Proof. vm_compute. reflexivity. Qed.

(** Together with C37: the described faults and the wire language share no stream, and every
    stream belongs to one of them. *)
Theorem C42_faults_complement_the_wire_language ft byte1 body : byte1 < 256 -> bytes_ok body ->
  ((exists p, body_wire ft byte1 p body) \/ (exists e, body_faulty ft byte1 body e))
  /\ (forall p e, body_wire ft byte1 p body -> ~ body_faulty ft byte1 body e)
  /\ (forall e1 e2, body_faulty ft byte1 body e1 -> body_faulty ft byte1 body e2 -> e1 = e2).
Proof.
  intros H1 Hb. split; [|split].
  - pose proof (body_read_tame ft byte1 body H1 Hb) as T. destruct (body_read ft byte1 body) as [p|e| |] eqn:E.
    + left. exists p. apply body_read_wire; assumption.
    + right. exists e. apply body_err; assumption.
    + destruct T.
    + destruct T.
  - intros p e Hw Hf. apply body_read_wire in Hw; auto. apply body_err in Hf; auto. congruence.
  - intros e1 e2 Hf1 Hf2. apply body_err in Hf1; auto. apply body_err in Hf2; auto. congruence.
Qed.

(** ** Errors that only a property section gives *)

Definition section_error (e : error) : Prop :=
  match e with InsufficientBytes _ | InvalidPropertyType _ | MalformedRemainingLength => True | _ => False end.

Lemma str_not_section ft b e : str_faulty ft b e -> ~ section_error e.
Proof. intros [[[_ ->]|(n & r & _ & _ & _ & ->)]|(_ & -> & _)] H; exact H. Qed.
Lemma bin_not_section b e : bin_faulty b e -> ~ section_error e.
Proof. intros [[_ ->]|(n & r & _ & _ & _ & ->)] H; exact H. Qed.
Lemma fixed_not_section n b e : fixed_faulty n b e -> ~ section_error e.
Proof. intros [_ ->] H; exact H. Qed.
Lemma part_section {A} (R : A -> bytes -> Prop) (F : fault) (next : A -> fault) b e : section_error e -> (F b e -> ~ section_error e) ->
  part R F next b e -> exists a l r, b = l ++ r /\ R a l /\ next a r e.
Proof. intros He Hn [H|H]; [exfalso; exact (Hn H He)|exact H]. Qed.
Lemma guard_section c err (next : fault) b e : section_error e -> ~ section_error err -> guard c err next b e -> c /\ next b e.
Proof. intros He Hn [[_ ->]|H]; [contradiction|exact H]. Qed.

Tactic Notation "psec" hyp(H) "as" ident(a) ident(l) ident(r) ident(Hw) :=
  let X := fresh in pose proof H as X; clear H;
  apply part_section in X; [|assumption|first [apply str_not_section|apply bin_not_section|apply fixed_not_section]];
  destruct X as (a & l & r & -> & Hw & H).
Ltac gsec H := apply guard_section in H; [|assumption|intros []].

Lemma section_part {A} ft allowed (next : A -> fault) R b e :
  part R (section_faulty ft allowed) next b e ->
  section_faulty ft allowed b e \/ exists a l r, b = l ++ r /\ R a l /\ next a r e.
Proof. intros H. exact H. Qed.

Lemma list_not_section {A} (R : A -> bytes -> Prop) (F : fault) b e : (forall b, F b e -> ~ section_error e) ->
  section_error e -> ~ list_faulty R F b e.
Proof. intros H He (xs & l & r & _ & _ & _ & HF). exact (H r HF He). Qed.
Lemma filter_not_section ft b e : section_error e -> ~ filter_faulty ft b e.
Proof. intros He H. unfold filter_faulty in H. psec H as a l r Hw. psec H as a0 l0 r0 Hw0. gsec H. destruct H as [_ H]. gsec H. destruct H as [_ []]. Qed.
Lemma reason_not_section v b e : section_error e -> ~ reason_faulty v b e.
Proof. intros He [[]|(a & l & r & _ & _ & H)]. gsec H. destruct H as [_ []]. Qed.
Lemma login_not_section ft flags b e : section_error e -> ~ login_faulty ft flags b e.
Proof.
  intros He H. assert (O : forall c b, optional_str_faulty ft c b e -> False).
  { intros c b' Ho. destruct c; [exact (str_not_section _ _ _ Ho He)|exact Ho]. }
  destruct H as [H|(a & l & r & _ & _ & H)]; eapply O; exact H.
Qed.

Lemma mqtt_spelling ft l : str_wire ft mqtt l -> l = u16be 4 ++ mqtt.
Proof. intros [_ (_ & _ & ->)]. reflexivity. Qed.

(** If a body is rejected with such an error, it has a defective section after a good
    beginning. *)
Lemma section_error_origin ft byte1 body e : byte1 < 256 -> bytes_ok body -> section_error e ->
  body_faulty ft byte1 body e ->
  exists pl pre r, body = pre ++ r /\ before_section ft byte1 pl pre /\ has_section byte1 r
    /\ section_faulty ft (allowed_at byte1 pl) r e.
Proof.
  intros H1 Hb He H. unfold body_faulty in H. unfold has_section.
  assert (ACK : forall (v : N -> Prop) pkid l x r, u16_wire pkid l -> 
    match r with [] => False | [code] => ~ v code /\ e = InvalidConnectReturnCode code
    | code :: r => part (section_wire ft ack_allowed) (section_faulty ft ack_allowed) (fun _ => guard (v code) (InvalidConnectReturnCode code) fine) r e end ->
    x = l ++ r ->
    exists reason r2, r2 <> [] /\ x = (u16be pkid ++ [reason]) ++ r2 /\ section_faulty ft ack_allowed r2 e).
  { intros v pkid l x r [_ ->] HH ->. destruct r as [|code [|y r]]; [destruct HH| |].
    - destruct HH as [_ ->]. destruct He.
    - exists code, (y :: r). split; [discriminate|]. split; [rewrite <- app_assoc; reflexivity|].
      destruct HH as [HH|(o & l2 & r2 & _ & _ & HH)]; [exact HH|]. gsec HH. destruct HH as [_ []]. }
  pose proof (nibble_cases byte1 H1) as Hn. cbn [In] in Hn.
  repeat (destruct Hn as [Hn|Hn]; [rewrite <- Hn in H |]); [..|destruct Hn].
  - subst e. destruct He.
  - gsec H. destruct H as [_ H]. unfold connect_faulty in H. psec H as nm lm rm Hm. psec H as lv lv' rv Hv. gsec H. destruct H as [-> H]. gsec H. destruct H as [-> H].
    psec H as flags lf rf Hf. psec H as k lk rk Hk. apply mqtt_spelling in Hm. red in Hv, Hf. subst. destruct Hk as [Hk ->].
    assert (Hfl : flags < 256) by (apply bytes_ok_app in Hb; destruct Hb as [_ Hb]; apply Forall_inv_tail in Hb; apply Forall_inv in Hb; exact Hb).
     assert (HD : connect_head flags ((u16be 4 ++ mqtt) ++ [5; flags] ++ u16be k)) by (exists k; auto).
    apply section_part in H. destruct H as [H|(o & l & r & -> & Ho & H)].
    + exists Main, ((u16be 4 ++ mqtt) ++ [5; flags] ++ u16be k), rk. rewrite <- Hn. split; [reflexivity|].
      split; [unfold before_section; rewrite <- Hn; exists flags; exact HD|]. split; [lia|]. unfold allowed_at. rewrite <- Hn. exact H.
    + psec H as c lc rc Hc. destruct H as [H|(w & l3 & r3 & -> & _ & H)]; [|exfalso; exact (login_not_section _ _ _ _ He H)].
      unfold will_faulty in H. destruct (N.testbit flags 2) eqn:E2; [|gsec H; destruct H as [_ []]].
      destruct H as [H|(o2 & l3 & r3 & -> & _ & H)]; [|psec H as x1 x2 x3 x4; psec H as y1 y2 y3 y4; gsec H; destruct H as [_ []]].
      exists Will, (((u16be 4 ++ mqtt) ++ [5; flags] ++ u16be k) ++ l ++ lc), rc.
      split; [rewrite <- !app_assoc; reflexivity|]. split; [|split; [lia|exact H]].
      split; [auto|]. exists flags, ((u16be 4 ++ mqtt) ++ [5; flags] ++ u16be k), o, l, c, lc. auto.
  - gsec H. destruct H as [_ H]. unfold connack_faulty in H. psec H as a l r Hw. psec H as a0 l0 r0 Hw0. red in Hw, Hw0. subst.
    apply section_part in H. destruct H as [H|(o & l & r & -> & Ho & H)]; [|gsec H; destruct H as [_ []]].
    exists Main, [a; a0], r0. rewrite <- Hn. split; [reflexivity|].
    split; [unfold before_section; rewrite <- Hn; exists a, a0; reflexivity|]. split; [lia|]. unfold allowed_at. rewrite <- Hn. exact H.
  - gsec H. destruct H as [_ H]. unfold publish_faulty in H. gsec H. destruct H as [H3 H]. psec H as a l r Hw.
    destruct (N.eqb_spec ((byte1 / 2) mod 4) 0) as [E0|E0].
    + exists Main, l, r. rewrite <- Hn. split; [reflexivity|]. split; [|split; [lia|unfold allowed_at; rewrite <- Hn; exact H]].
      unfold before_section. rewrite <- Hn. exists a, l, []. rewrite app_nil_r. auto.
    + psec H as a0 l0 r0 Hw0. gsec H. destruct H as [Hz H]. exists Main, (l ++ l0), r0. rewrite <- Hn. split; [rewrite <- app_assoc; reflexivity|].
      split; [|split; [lia|unfold allowed_at; rewrite <- Hn; exact H]].
      unfold before_section. rewrite <- Hn. exists a, l, l0. split; [reflexivity|]. split; [exact Hw|]. right. split; [lia|]. exists a0. auto.
  - gsec H. destruct H as [_ H]. unfold ack_faulty in H. psec H as a l r Hw. destruct (ACK _ _ _ _ _ Hw H eq_refl) as (reason & r2 & Hne & -> & HS).
    exists Main, (u16be a ++ [reason]), r2. split; [reflexivity|]. unfold before_section, allowed_at. rewrite <- Hn. split; [exists a, reason; split; [apply Hw|reflexivity]|auto].
  - gsec H. destruct H as [_ H]. unfold ack_faulty in H. psec H as a l r Hw. destruct (ACK _ _ _ _ _ Hw H eq_refl) as (reason & r2 & Hne & -> & HS).
    exists Main, (u16be a ++ [reason]), r2. split; [reflexivity|]. unfold before_section, allowed_at. rewrite <- Hn. split; [exists a, reason; split; [apply Hw|reflexivity]|auto].
  - gsec H. destruct H as [_ H]. unfold ack_faulty in H. psec H as a l r Hw. destruct (ACK _ _ _ _ _ Hw H eq_refl) as (reason & r2 & Hne & -> & HS).
    exists Main, (u16be a ++ [reason]), r2. split; [reflexivity|]. unfold before_section, allowed_at. rewrite <- Hn. split; [exists a, reason; split; [apply Hw|reflexivity]|auto].
  - gsec H. destruct H as [_ H]. unfold ack_faulty in H. psec H as a l r Hw. destruct (ACK _ _ _ _ _ Hw H eq_refl) as (reason & r2 & Hne & -> & HS).
    exists Main, (u16be a ++ [reason]), r2. split; [reflexivity|]. unfold before_section, allowed_at. rewrite <- Hn. split; [exists a, reason; split; [apply Hw|reflexivity]|auto].
  - gsec H. destruct H as [_ H]. unfold subscribe_faulty in H. psec H as a l r Hw. destruct H as [H|(o & l2 & r2 & -> & _ & [[_ ->]|H])].
    + exists Main, l, r. unfold before_section, allowed_at. rewrite <- Hn. split; [reflexivity|]. split; [exists a; exact Hw|]. split; [lia|exact H].
    + destruct He.
    + exfalso. refine (list_not_section _ _ _ _ _ He H). intros b0 X Y. exact (filter_not_section _ _ _ Y X).
  - gsec H. destruct H as [_ H]. unfold codes_faulty in H. psec H as a l r Hw. destruct H as [H|(o & l2 & r2 & -> & _ & [[_ ->]|H])].
    + exists Main, l, r. unfold before_section, allowed_at. rewrite <- Hn. split; [reflexivity|]. split; [exists a; exact Hw|]. split; [lia|exact H].
    + destruct He.
    + exfalso. refine (list_not_section _ _ _ _ _ He H). intros b0 X Y. exact (reason_not_section _ _ _ Y X).
  - gsec H. destruct H as [_ H]. unfold unsubscribe_faulty in H. psec H as a l r Hw. destruct H as [H|(o & l2 & r2 & -> & _ & H)].
    + exists Main, l, r. unfold before_section, allowed_at. rewrite <- Hn. split; [reflexivity|]. split; [exists a; exact Hw|]. split; [lia|exact H].
    + exfalso. refine (list_not_section _ _ _ _ _ He H). intros b0 X. exact (str_not_section _ _ _ X).
  - gsec H. destruct H as [_ H]. unfold codes_faulty in H. psec H as a l r Hw. destruct H as [H|(o & l2 & r2 & -> & _ & [[_ ->]|H])].
    + exists Main, l, r. unfold before_section, allowed_at. rewrite <- Hn. split; [reflexivity|]. split; [exists a; exact Hw|]. split; [lia|exact H].
    + destruct He.
    + exfalso. refine (list_not_section _ _ _ _ _ He H). intros b0 X Y. exact (reason_not_section _ _ _ Y X).
  - destruct H.
  - destruct H.
  - unfold disconnect_faulty in H. gsec H. destruct H as [H0 H]. destruct body as [|code r]; [destruct H|].
    gsec H. destruct H as [[x <-] H]. exists Main, [disconnect_code x], r. unfold before_section, allowed_at. rewrite <- Hn.
    split; [reflexivity|]. split; [split; [exact H0|exists x; reflexivity]|]. split; [lia|exact H].
  - subst e. destruct He.
Qed.

(** Conversely a defective section is reported, whatever comes later. *)
Lemma section_fault_reported ft byte1 pl pre r e : byte1 < 256 -> bytes_ok r ->
  before_section ft byte1 pl pre -> has_section byte1 r -> section_faulty ft (allowed_at byte1 pl) r e ->
  body_read ft byte1 (pre ++ r) = Err e.
Proof.
  intros H1 Hr Hp Hs H. destruct (site_exists ft byte1 pl pre H1 Hp) as [K S].
  rewrite (site_eq _ _ _ _ _ S) by assumption.
  rewrite (proj2 (proj2 (section_reader ft (allowed_at byte1 pl) r Hr) e) H). reflexivity.
Qed.
