(** Rules of single packet types, continued: C28, C32, C36, C41. *)
From Verif Require Import Types Model Spec Wire Sites Faults PBase PVarint PUtf8 PRead PItems PProps PFrame PWire PWrite PTotal PRound PSites PFaults PBack.
From Verif Require Import TFraming TWrite TRound TBack TFaults TProps TPackets.
Import Faults.
Ltac Zify.zify_post_hook ::= Z.div_mod_to_equations.

(** ** C28 *)

Lemma str_wire_mqtt ft : str_wire ft mqtt (u16be 4 ++ mqtt).
Proof.
  assert (B : bytes_ok mqtt) by (repeat constructor).
  split; [split; [exact B|]|split; [exact B|split; [reflexivity|reflexivity]]].
  assert (utf8 mqtt).
  { exists [77; 81; 84; 84]. split; [repeat constructor; left; reflexivity|reflexivity]. }
  destruct ft; auto.
Qed.

(** The flags byte of a written CONNECT, bit by bit. *)
Theorem C28_flags_written c w l n out :
  Packet_write (P_Connect c w l) [] = (Ok n, out) ->
  exists lb flags tail,
    out = 16 :: lb ++ (u16be 4 ++ mqtt) ++ [5; flags] ++ tail
    /\ lb = varint (blen ((u16be 4 ++ mqtt) ++ [5; flags] ++ tail))
    /\ flags < 256
    /\ N.testbit flags 0 = false
    /\ N.testbit flags 1 = co_clean_start c
    /\ N.testbit flags 2 = (match w with Some _ => true | None => false end)
    /\ (flags / 8) mod 4 = (match w with Some w => qos_num (lw_qos w) | None => 0 end)
    /\ N.testbit flags 5 = (match w with Some w => lw_retain w | None => false end)
    /\ N.testbit flags 6 = (match l with Some l => nonempty (lo_password l) | None => false end)
    /\ N.testbit flags 7 = (match l with Some l => nonempty (lo_username l) | None => false end).
Proof.
  intros E. apply C13_success_means_encoding in E; [|reflexivity|reflexivity]. destruct E as (_ & _ & ->).
  cbn [app]. exists (varint (blen (fields_bytes (body_fields (P_Connect c w l))))), (connect_flags (co_clean_start c) w l).
  eexists (fields_bytes (FTwo (co_keep_alive c) :: section_fields (opt_items ConnectProperties_items (co_properties c))
  ++ [FBin (co_client_id c)] ++ will_fields w ++ login_fields l)).
  split; [reflexivity|]. split; [reflexivity|].
  destruct (connect_flags_bits (co_clean_start c) w l) as (H & H1 & Hw & H7 & H6).
  split; [exact H|]. split.
  { unfold connect_flags. destruct (co_clean_start c), w as [w'|], l as [l'|];
      repeat match goal with |- context [lw_qos ?a] => destruct (lw_qos a) | |- context [lw_retain ?a] => destruct (lw_retain a)
        | |- context [nonempty ?a] => destruct (nonempty a) end; reflexivity. }
  split; [congruence|]. destruct w as [w'|].
  - destruct Hw as (A & B & C). repeat split; congruence.
  - destruct Hw as (A & B). split; [exact A|].
    split; [clear - B; ulia|]. split; [|split; congruence].
    unfold connect_flags. destruct (co_clean_start c), l as [l'|];
      repeat match goal with |- context [nonempty ?a] => destruct (nonempty a) end; reflexivity.
Qed.
Example C28_written_instance :
  snd (Packet_write (P_Connect (mkConnect 10 [97] true None)
        (Some (mkLastWill [98] [99] ExactlyOnce true None)) (Some (mkLogin [] [100]))) [])
  = [16; 24; 0; 4; 77; 81; 84; 84; 5; 118; 0; 10; 0; 0; 1; 97; 0; 0; 1; 98; 0; 1; 99; 0; 1; 100].
Proof. reflexivity. Qed.

Lemma connect_errors ft e body : connect_faulty ft body e -> ~ field_error_of ft e ->
  (e = InvalidProtocol /\ exists name lname level r, body = lname ++ level :: r /\ str_wire ft name lname /\ name <> mqtt)
  \/ (exists n r, e = InvalidProtocolLevel n /\ n <> 5 /\ body = (u16be 4 ++ mqtt) ++ n :: r)
  \/ (exists flags pre r, connect_front ft flags pre /\ body = pre ++ r /\ N.testbit flags 2 = false /\ (flags / 8) mod 8 <> 0 /\ e = IncorrectPacketFormat)
  \/ (exists flags pre w r, connect_front ft flags pre /\ will_body ft w /\ body = pre ++ w ++ r /\ N.testbit flags 2 = true /\ (flags / 8) mod 4 = 3 /\ e = InvalidQoS 3).
Proof.
  intros H Hn.
  assert (SF : forall a b, ~ section_faulty ft a b e) by (intros a b X; apply section_field in X; auto).
  assert (ST : forall b, ~ str_faulty ft b e) by (intros b X; apply str_field in X; auto).
  assert (BF : forall b, ~ bin_faulty b e) by (intros b X; apply (bin_field ft) in X; auto).
  assert (FX : forall n b, ~ fixed_faulty n b e) by (intros n b X; apply (fixed_field ft) in X; auto).
  destruct H as [H|(name & lname & r & -> & Hnm & H)]; [destruct (ST _ H)|].
  destruct H as [H|(level & ll & r2 & -> & -> & H)]; [destruct (FX _ _ H)|].
  destruct H as [[Hne ->]|[-> H]].
  { left. split; [reflexivity|]. exists name, lname, level, r2. split; [reflexivity|auto]. }
  right. assert (lname = u16be 4 ++ mqtt) as -> by (destruct Hnm as [_ (_ & _ & ->)]; reflexivity).
  destruct H as [[Hne ->]|[-> H]]; [left; exists level, r2; split; [reflexivity|]; split; [assumption|reflexivity]|]. right.
  destruct H as [H|(flags & l3 & r3 & -> & -> & H)]; [destruct (FX _ _ H)|].
  destruct H as [H|(k & lk & r4 & -> & Hk & H)]; [destruct (FX _ _ H)|].
  destruct H as [H|(o & ls & r5 & -> & Hs & H)]; [destruct (SF _ _ H)|].
  destruct H as [H|(c & lc & r6 & -> & Hc & H)]; [destruct (ST _ H)|].
  assert (HD : connect_front ft flags ((u16be 4 ++ mqtt) ++ [5; flags] ++ lk ++ ls ++ lc))
    by (exists k, lk, o, ls, c, lc; auto).
  assert (EQ : forall r, (u16be 4 ++ mqtt) ++ [5] ++ [flags] ++ lk ++ ls ++ lc ++ r = ((u16be 4 ++ mqtt) ++ [5; flags] ++ lk ++ ls ++ lc) ++ r)
    by (intros r; cbn; rewrite <- !app_assoc; reflexivity).
  rewrite EQ. destruct H as [H|(w & lw & r7 & -> & Hw & H)].
  - unfold will_faulty in H. destruct (N.testbit flags 2) eqn:T.
    + right. destruct H as [H|(wo & ws & r7 & -> & Hws & H)]; [destruct (SF _ _ H)|].
      destruct H as [H|(t & lt & r8 & -> & Ht & H)]; [destruct (BF _ H)|].
      destruct H as [H|(m & lm & r9 & -> & Hmm & H)]; [destruct (BF _ H)|].
      destruct H as [[Hq ->]|[_ H]]; [|destruct H].
      exists flags, ((u16be 4 ++ mqtt) ++ [5; flags] ++ lk ++ ls ++ lc), (ws ++ lt ++ lm), r9.
      split; [exact HD|]. split; [exists wo, ws, t, lt, m, lm; auto|]. split; [rewrite <- (app_assoc ws), <- (app_assoc lt); reflexivity|].
      split; [exact T|]. split; [|reflexivity]. destruct (N.eq_dec ((flags / 8) mod 4) 3); [assumption|contradiction].
    + left. destruct H as [[Hq ->]|[_ H]]; [|destruct H]. eexists flags, _, r6. split; [exact HD|]. auto.
  - exfalso. unfold login_faulty, optional_str_faulty in H. fparts H; (match type of H with context [N.testbit ?a ?b] => destruct (N.testbit a b) end); first [eapply ST; exact H|destruct H].
Qed.

(** The name must be MQTT ... *)
Theorem C28_protocol_name ft max byte1 body f rest :
  framed byte1 body f -> byte1 / 16 = 1 -> bytes_ok (f ++ rest) -> within max (blen body) ->
  Packet_read ft (f ++ rest) max = (Err InvalidProtocol, rest)
  <-> exists name lname level r, body = lname ++ level :: r /\ str_wire ft name lname /\ name <> mqtt.
Proof.
  intros Hf H3 Hb Hm. rewrite (frame_err_iff ft max byte1 body f rest _ Hf Hb Hm). unfold body_faulty. rewrite H3.
  split.
  - intros [[_ X]|[_ H]]; [discriminate|]. apply connect_errors in H; [|exact (fun x => x)].
    destruct H as [[_ H]|[(m & r & X & _)|[(? & ? & ? & _ & _ & _ & _ & X)|(? & ? & ? & ? & _ & _ & _ & _ & _ & X)]]]; try discriminate.
    exact H.
  - intros (name & lname & level & r & -> & Hn & Hne). right. split.
    { apply str_wire_nonempty in Hn. destruct lname; [tauto|discriminate]. }
    right. exists name, lname, (level :: r). split; [reflexivity|]. split; [exact Hn|].
    right. exists level, [level], r. split; [reflexivity|]. split; [reflexivity|]. left. auto.
Qed.

(** ... and the level 5 ... *)
Theorem C28_protocol_level ft max byte1 body f rest n :
  framed byte1 body f -> byte1 / 16 = 1 -> bytes_ok (f ++ rest) -> within max (blen body) ->
  Packet_read ft (f ++ rest) max = (Err (InvalidProtocolLevel n), rest)
  <-> n <> 5 /\ exists r, body = (u16be 4 ++ mqtt) ++ n :: r.
Proof.
  intros Hf H3 Hb Hm. rewrite (frame_err_iff ft max byte1 body f rest _ Hf Hb Hm). unfold body_faulty. rewrite H3.
  split.
  - intros [[_ X]|[_ H]]; [discriminate|]. apply connect_errors in H; [|exact (fun x => x)].
    destruct H as [[X _]|[(m & r & X & Hm5 & ->)|[(? & ? & ? & _ & _ & _ & _ & X)|(? & ? & ? & ? & _ & _ & _ & _ & _ & X)]]]; try discriminate.
    injection X as ->. split; [exact Hm5|]. exists r. reflexivity.
  - intros (Hn & r & ->). right. split; [discriminate|]. right. exists mqtt, (u16be 4 ++ mqtt), (n :: r).
    split; [reflexivity|]. split; [apply str_wire_mqtt|]. right. exists n, [n], r. split; [reflexivity|]. split; [reflexivity|].
    right. split; [reflexivity|]. left. auto.
Qed.

Lemma head_fault ft flags pre r (e : error) : connect_front ft flags pre ->
  will_faulty ft flags r e -> connect_faulty ft (pre ++ r) e.
Proof.
  intros (k & lk & o & ls & c & lc & -> & Hk & Hs & Hc) H.
  right. exists mqtt, (u16be 4 ++ mqtt). eexists ([5; flags] ++ lk ++ ls ++ lc ++ r). split; [rewrite <- !app_assoc; reflexivity|].
  split; [apply str_wire_mqtt|]. right. exists 5, [5], ([flags] ++ lk ++ ls ++ lc ++ r). split; [reflexivity|]. split; [reflexivity|].
  right. split; [reflexivity|]. right. split; [reflexivity|]. right. exists flags, [flags], (lk ++ ls ++ lc ++ r).
  split; [reflexivity|]. split; [reflexivity|]. right. exists k, lk, (ls ++ lc ++ r). split; [reflexivity|]. split; [exact Hk|].
  right. exists o, ls, (lc ++ r). split; [reflexivity|]. split; [exact Hs|]. right. exists c, lc, r. split; [reflexivity|]. split; [exact Hc|].
  left. exact H.
Qed.
Lemma head_nonempty ft flags pre r : connect_front ft flags pre -> pre ++ r <> [].
Proof. intros (k & lk & o & ls & c & lc & -> & _). discriminate. Qed.

(** ... will QoS or retain without a will are rejected ... *)
Theorem C28_stray_will_bits ft max byte1 body f rest :
  framed byte1 body f -> byte1 / 16 = 1 -> bytes_ok (f ++ rest) -> within max (blen body) ->
  Packet_read ft (f ++ rest) max = (Err IncorrectPacketFormat, rest)
  <-> exists flags pre r, body = pre ++ r /\ connect_front ft flags pre
        /\ N.testbit flags 2 = false /\ (flags / 8) mod 8 <> 0.
Proof.
  intros Hf H3 Hb Hm. rewrite (frame_err_iff ft max byte1 body f rest _ Hf Hb Hm). unfold body_faulty. rewrite H3.
  split.
  - intros [[_ X]|[_ H]]; [discriminate|]. apply connect_errors in H; [|exact (fun x => x)].
    destruct H as [[X _]|[(m & r & X & _)|[(flags & pre & r & A & B & C & D & _)|(? & ? & ? & ? & _ & _ & _ & _ & _ & X)]]]; try discriminate.
    exists flags, pre, r. auto.
  - intros (flags & pre & r & -> & Hh & T & Q). right. split; [eapply head_nonempty; exact Hh|].
    apply (head_fault ft flags); [exact Hh|]. unfold will_faulty. rewrite T. left. auto.
Qed.
(** ... and so is a will with QoS 3. *)
Theorem C28_will_qos_3 ft max byte1 body f rest q :
  framed byte1 body f -> byte1 / 16 = 1 -> bytes_ok (f ++ rest) -> within max (blen body) ->
  Packet_read ft (f ++ rest) max = (Err (InvalidQoS q), rest)
  <-> q = 3 /\ exists flags pre w r, body = pre ++ w ++ r /\ connect_front ft flags pre /\ will_body ft w
        /\ N.testbit flags 2 = true /\ (flags / 8) mod 4 = 3.
Proof.
  intros Hf H3 Hb Hm. rewrite (frame_err_iff ft max byte1 body f rest _ Hf Hb Hm). unfold body_faulty. rewrite H3.
  split.
  - intros [[_ X]|[_ H]]; [discriminate|]. apply connect_errors in H; [|exact (fun x => x)].
    destruct H as [[X _]|[(m & r & X & _)|[(? & ? & ? & _ & _ & _ & _ & X)|(flags & pre & w & r & A & B & C & D & E & X)]]]; try discriminate.
    injection X as ->. split; [reflexivity|]. exists flags, pre, w, r. auto.
  - intros (-> & flags & pre & w & r & -> & Hh & (o & ls & t & lt & m & lm & -> & Hs & Ht & Hmm) & T & Q). right.
    split; [eapply head_nonempty; exact Hh|].
    apply (head_fault ft flags); [exact Hh|]. unfold will_faulty. rewrite T.
    right. exists o, ls, (lt ++ lm ++ r). split; [rewrite <- !app_assoc; reflexivity|]. split; [exact Hs|].
    right. exists t, lt, (lm ++ r). split; [reflexivity|]. split; [exact Ht|].
    right. exists m, lm, r. split; [reflexivity|]. split; [exact Hmm|]. left. rewrite Q. auto.
Qed.
(** The flags of an accepted CONNECT, from the reader's side.  Bit 0 (reserved) is ignored. *)
Theorem C28_flags_read ft max s c w l rest :
  bytes_ok s -> Packet_read ft s max = (Ok (P_Connect c w l), rest) ->
  exists byte1 flags tail f,
    s = f ++ rest /\ framed byte1 ((u16be 4 ++ mqtt) ++ [5; flags] ++ tail) f /\ byte1 / 16 = 1
    /\ co_clean_start c = N.testbit flags 1
    /\ (w <> None <-> N.testbit flags 2 = true)
    /\ (flags / 8) mod 4 = (match w with Some w => qos_num (lw_qos w) | None => 0 end)
    /\ N.testbit flags 5 = (match w with Some w => lw_retain w | None => false end)
    /\ (forall l', l = Some l' -> (lo_username l' <> [] -> N.testbit flags 7 = true)
                             /\ (lo_password l' <> [] -> N.testbit flags 6 = true)).
Proof.
  intros Hs E. destruct (decoded_frame _ _ _ _ _ Hs E) as (byte1 & body & f & -> & Hf & _ & HB).
  cbn [body_wire] in HB. destruct HB as (H1 & flags & lk & ls & lc & lw & ll & junk & -> & Hfl & Hj & Hcl & Hk & Hp & Hc & Hw & Hl).
  exists byte1, flags, (lk ++ ls ++ lc ++ lw ++ ll ++ junk), f. split; [reflexivity|]. split; [exact Hf|]. split; [exact H1|].
  split; [exact Hcl|]. split; [|split; [|split]].
  - destruct w; destruct Hw as [T _]; rewrite T; split; congruence.
  - destruct w as [w|]; [destruct Hw as (_ & X & _); symmetry; exact X|]. destruct Hw as (_ & B & _). clear - B. ulia.
  - destruct w as [w|]; [destruct Hw as (_ & _ & X & _); symmetry; exact X|]. destruct Hw as (_ & B & _). clear - B Hfl.
    rewrite N.testbit_eqb. change (2 ^ 5) with 32. apply N.eqb_neq. ulia.
  - intros l' ->. destruct Hl as (u & p & lu & lp & _ & Hu & Hpw & El).
    destruct (nonempty u || nonempty p); [|discriminate]. injection El as ->. cbn [lo_username lo_password].
    unfold optional_str_wire in *. split; intros X.
    + destruct (N.testbit flags 7); [reflexivity|]. destruct Hu as [-> _]. destruct (X eq_refl).
    + destruct (N.testbit flags 6); [reflexivity|]. destruct Hpw as [-> _]. destruct (X eq_refl).
Qed.
(** A frame of each kind. *)
Example C28_instances : map (fun s => fst (Packet_read F_default s None))
  [ [16; 7; 0; 4; 77; 81; 84; 85; 5]; [16; 7; 0; 4; 77; 81; 84; 84; 4];
    [16; 13; 0; 4; 77; 81; 84; 84; 5; 8; 0; 0; 0; 0; 0];
    [16; 18; 0; 4; 77; 81; 84; 84; 5; 28; 0; 0; 0; 0; 0; 0; 0; 0; 0; 0];
    [16; 14; 0; 4; 77; 81; 84; 84; 5; 2; 0; 9; 0; 0; 1; 97] ]
  = [ Err InvalidProtocol; Err (InvalidProtocolLevel 4); Err IncorrectPacketFormat; Err (InvalidQoS 3);
      Ok (P_Connect (mkConnect 9 [97] true None) None None) ].
Proof. reflexivity. Qed.

(** ** C32 *)

Lemma inner_not_required ft byte1 body : byte1 < 256 -> body <> [] -> ~ body_faulty ft byte1 body PayloadRequired.
Proof.
  intros H1 Hne H. unfold body_faulty in H. pose proof (nibble_cases byte1 H1) as Hn. cbn [In] in Hn.
  assert (SF : forall a b, ~ section_faulty ft a b PayloadRequired) by (intros a b X; apply section_field in X; exact X).
  assert (ST : forall b, ~ str_faulty ft b PayloadRequired) by (intros b X; apply str_field in X; exact X).
  assert (BF : forall b, ~ bin_faulty b PayloadRequired) by (intros b X; apply (bin_field ft) in X; exact X).
  assert (FX : forall n b, ~ fixed_faulty n b PayloadRequired) by (intros n b X; apply (fixed_field ft) in X; exact X).
  assert (ACK : forall v b, ~ ack_faulty ft v b PayloadRequired).
  { intros v b HH. unfold ack_faulty in HH. fparts HH; [eapply FX; exact HH|].
    destruct x1 as [|code [|y r]]; [destruct HH|destruct HH as [_ X]; discriminate|].
    fparts HH; [eapply SF; exact HH|discriminate]. }
  assert (COD : forall v b, ~ codes_faulty ft v b PayloadRequired).
  { intros v b HH. unfold codes_faulty in HH. fparts HH; [eapply FX; exact HH|eapply SF; exact HH|].
    destruct HH as [[_ X]|HH]; [discriminate|].
    apply list_errs in HH. destruct HH as [r HH]. unfold reason_faulty in HH. fparts HH. discriminate. }
  repeat (destruct Hn as [Hn|Hn]; [rewrite <- Hn in H |]); [..|destruct Hn]; try discriminate; try exact H;
    try (destruct H as [[X _]|[_ H]]; [exact (X Hne)|]); try (eapply ACK; exact H); try (eapply COD; exact H).
  - apply connect_errors in H; [|exact (fun x => x)].
    destruct H as [[X _]|[(m & r & X & _)|[(? & ? & ? & _ & _ & _ & _ & X)|(? & ? & ? & ? & _ & _ & _ & _ & _ & X)]]]; discriminate.
  - unfold connack_faulty in H. fparts H; try (eapply FX; exact H); try (eapply SF; exact H); discriminate.
  - unfold publish_faulty in H. fparts H; [discriminate|eapply ST; exact H|].
    destruct (_ =? 0); [eapply SF; exact H|]. fparts H; [eapply FX; exact H|discriminate|eapply SF; exact H].
  - unfold subscribe_faulty in H. fparts H; [eapply FX; exact H|eapply SF; exact H|].
    destruct H as [[_ X]|H]; [discriminate|]. apply list_errs in H. destruct H as [r H]. unfold filter_faulty in H.
    fparts H; try discriminate; [eapply ST; exact H|eapply FX; exact H].
  - unfold unsubscribe_faulty in H. fparts H; [eapply FX; exact H|eapply SF; exact H|].
    apply list_errs in H. destruct H as [r H]. eapply ST; exact H.
  - unfold disconnect_faulty in H. fparts H; [discriminate|]. destruct body as [|code r]; [destruct H|].
    fparts H; [discriminate|eapply SF; exact H].
Qed.

(** An empty body is rejected with PayloadRequired for the types 1 to 11, and nothing else is. *)
Theorem C32_payload_required ft max byte1 body f rest :
  framed byte1 body f -> bytes_ok (f ++ rest) -> within max (blen body) ->
  Packet_read ft (f ++ rest) max = (Err PayloadRequired, rest) <-> body = [] /\ 1 <= byte1 / 16 <= 11.
Proof.
  intros Hf Hb Hm. assert (H1 : byte1 < 256) by (eapply framed_byte1; [exact Hf|bok; auto]).
  rewrite (frame_err_iff ft max byte1 body f rest _ Hf Hb Hm). split.
  - intros H. destruct body as [|x body]; [|destruct (inner_not_required ft byte1 (x :: body) H1 ltac:(discriminate) H)].
    split; [reflexivity|]. unfold body_faulty in H. pose proof (nibble_cases byte1 H1) as Hn. cbn [In] in Hn.
    repeat (destruct Hn as [Hn|Hn]; [rewrite <- Hn in H |- *; try (clear; lia) |]); [..|destruct Hn]; exfalso; try discriminate; try exact H.
    unfold disconnect_faulty in H. fparts H. discriminate.
  - intros [-> Ht]. unfold body_faulty. pose proof (nibble_cases byte1 H1) as Hn. cbn [In] in Hn.
    repeat (destruct Hn as [Hn|Hn]; [rewrite <- Hn in Ht |- *; first [exfalso; clear - Ht; lia|left; split; [intros X; apply X; reflexivity|reflexivity]] |]); destruct Hn.
Qed.
(** A packet identifier and a property section, and nothing more. *)
Definition id_and_section (ft : feature) (allowed : list N) (body : bytes) : Prop :=
  exists pkid lk o ls, body = lk ++ ls /\ u16_wire pkid lk /\ section_wire ft allowed o ls.

(** SUBSCRIBE without filters. *)
Theorem C32_empty_subscription ft max byte1 body f rest :
  framed byte1 body f -> byte1 / 16 = 8 -> bytes_ok (f ++ rest) -> within max (blen body) ->
  Packet_read ft (f ++ rest) max = (Err EmptySubscription, rest) <-> id_and_section ft subscribe_allowed body.
Proof.
  intros Hf H3 Hb Hm. rewrite (frame_err_iff ft max byte1 body f rest _ Hf Hb Hm). unfold body_faulty. rewrite H3. split.
  - intros [[_ X]|[_ H]]; [discriminate|]. unfold subscribe_faulty in H.
    destruct H as [H|(pkid & lk & r & -> & Hk & H)]; [apply (fixed_field ft) in H; destruct H|].
    destruct H as [H|(o & ls & r2 & -> & Hs & H)]; [apply section_field in H; destruct H|].
    destruct H as [[-> _]|H].
    + exists pkid, lk, o, ls. rewrite app_nil_r. auto.
    + exfalso. apply list_errs in H. destruct H as [r H]. unfold filter_faulty in H.
      fparts H; try discriminate; [apply str_field in H|apply (fixed_field ft) in H]; exact H.
  - intros (pkid & lk & o & ls & -> & Hk & Hs). right. split; [destruct Hk as [_ ->]; discriminate|].
    right. exists pkid, lk, ls. split; [reflexivity|]. split; [exact Hk|]. right. exists o, ls, []. rewrite app_nil_r.
    split; [reflexivity|]. split; [exact Hs|]. left. auto.
Qed.
(** SUBACK and UNSUBACK without codes. *)
Theorem C32_no_codes ft max byte1 body f rest :
  framed byte1 body f -> byte1 / 16 = 9 \/ byte1 / 16 = 11 -> bytes_ok (f ++ rest) -> within max (blen body) ->
  id_and_section ft ack_allowed body ->
  Packet_read ft (f ++ rest) max = (Err MalformedPacket, rest).
Proof.
  intros Hf H3 Hb Hm (pkid & lk & o & ls & -> & Hk & Hs). rewrite (frame_err_iff ft max byte1 _ f rest _ Hf Hb Hm).
  assert (G : forall v, codes_faulty ft v (lk ++ ls) MalformedPacket).
  { intros v. right. exists pkid, lk, ls. split; [reflexivity|]. split; [exact Hk|]. right. exists o, ls, []. rewrite app_nil_r.
    split; [reflexivity|]. split; [exact Hs|]. left. auto. }
  assert (NE : lk ++ ls <> []) by (destruct Hk as [_ ->]; discriminate).
  unfold body_faulty. destruct H3 as [E|E]; rewrite E; right; (split; [exact NE|apply G]).
Qed.
(** No decoded packet has an empty list where the standard wants an element ... *)
Theorem C32_decoded_not_empty ft max s p rest :
  bytes_ok s -> Packet_read ft s max = (Ok p, rest) ->
  match p with
  | P_Subscribe s => su_filters s <> []
  | P_SubAck a => sa_return_codes a <> []
  | P_UnsubAck a => ua_reasons a <> []
  | _ => True
  end.
Proof.
  intros Hs E. destruct (decoded_frame _ _ _ _ _ Hs E) as (byte1 & body & f & -> & Hf & _ & HB).
  destruct p; try exact I; cbn [body_wire] in HB; destruct HB as [_ HB].
  - destruct HB as (lk & ls & lf & _ & _ & _ & _ & H). exact H.
  - destruct HB as (lk & ls & _ & _ & _ & H). exact H.
  - destruct HB as (lk & ls & _ & _ & _ & H). exact H.
Qed.
(** ... except UNSUBSCRIBE: one without topic filters, which the standard forbids, is accepted. *)
Theorem C32_unsubscribe_refuted ft max byte1 body f rest :
  framed byte1 body f -> byte1 / 16 = 10 -> bytes_ok (f ++ rest) -> within max (blen body) ->
  id_and_section ft unsubscribe_allowed body ->
  exists u, Packet_read ft (f ++ rest) max = (Ok (P_Unsubscribe u), rest) /\ un_filters u = [].
Proof.
  intros Hf H3 Hb Hm (pkid & lk & o & ls & -> & Hk & Hs).
  exists (mkUnsubscribe pkid [] (option_map UnsubscribeProperties_of o)). split; [|reflexivity].
  apply (frame_ok_iff ft max byte1 _ f rest _ Hf Hb Hm). cbn [body_wire]. split; [exact H3|].
  exists lk, ls, []. rewrite app_nil_r. split; [reflexivity|]. split; [exact Hk|]. split; [exists o; auto|constructor].
Qed.
Example C32_instances : map (fun s => fst (Packet_read F_default s None))
  [ [48; 0]; [130; 3; 0; 1; 0]; [144; 3; 0; 1; 0]; [176; 3; 0; 1; 0]; [162; 3; 0; 1; 0]; [192; 0]; [224; 0] ]
  = [ Err PayloadRequired; Err EmptySubscription; Err MalformedPacket; Err MalformedPacket;
      Ok (P_Unsubscribe (mkUnsubscribe 1 [] None)); Ok P_PingReq; Ok (P_Disconnect (mkDisconnect DRC_NormalDisconnection None)) ].
Proof. reflexivity. Qed.

(** ** C36 *)

(** A written SUBSCRIBE ends with its filters, each with an options byte that holds its options;
    the reserved bits are 0. *)
Theorem C36_options_written s buf n buf' :
  Packet_write (P_Subscribe s) buf = (Ok n, buf') ->
  exists pre opts,
    buf' = buf ++ pre ++ concat (map (fun fo => filter_at (fi_path (fst fo)) (snd fo)) (combine (su_filters s) opts))
    /\ Forall2 (fun f o => options_hold o f /\ o < 64) (su_filters s) opts.
Proof.
  intros E. apply C13_success_means_encoding in E; [|discriminate|reflexivity]. destruct E as (_ & _ & ->).
  exists (130 :: varint (blen (fields_bytes (body_fields (P_Subscribe s)))) ++ fields_bytes ([FTwo (su_pkid s)]
      ++ section_fields (opt_items SubscribeProperties_items (su_properties s)))), (map filter_options (su_filters s)).
  split.
  - f_equal. change (encode (P_Subscribe s)) with (130 :: varint (blen (fields_bytes (body_fields (P_Subscribe s)))) ++ fields_bytes (body_fields (P_Subscribe s))).
    rewrite <- app_comm_cons. f_equal. rewrite <- app_assoc. f_equal. cbn [body_fields]. rewrite (app_assoc [FTwo (su_pkid s)]), fields_bytes_app. f_equal.
    induction (su_filters s) as [|x xs IH]; [reflexivity|]. cbn [flat_map map combine concat fst snd].
    rewrite fields_bytes_app, <- IH. apply (f_equal (fun a => a ++ fields_bytes (flat_map filter_fields xs))). unfold filter_at, fields_bytes. cbn [filter_fields flat_map field_bytes].
    rewrite app_nil_r, <- !app_assoc. reflexivity.
  - induction (su_filters s) as [|x xs IH]; cbn [map]; constructor; [|exact IH].
    destruct (filter_options_bits x) as (A & B & C & D & F). split; [split; [congruence|]; split; [congruence|]; split; [congruence|exact F]|].
    unfold filter_options. destruct (fi_qos x), (fi_nolocal x), (fi_preserve_retain x), (fi_retain_forward_rule x); reflexivity.
Qed.

Lemma options_filter path o : o < 256 -> o mod 4 <> 3 -> (o / 16) mod 4 <> 3 ->
  exists f, fi_path f = path /\ options_hold o f.
Proof.
  intros H Hq Hr.
  assert (exists q, o mod 4 = qos_num q) as [q Eq].
  { assert (o mod 4 = 0 \/ o mod 4 = 1 \/ o mod 4 = 2) as [->|[->| ->]] by lia;
      [exists AtMostOnce|exists AtLeastOnce|exists ExactlyOnce]; reflexivity. }
  assert (exists r, (o / 16) mod 4 = rule_num r) as [r Er].
  { assert ((o / 16) mod 4 = 0 \/ (o / 16) mod 4 = 1 \/ (o / 16) mod 4 = 2) as [->|[->| ->]] by lia;
      [exists OnEverySubscribe|exists OnNewSubscribe|exists Never]; reflexivity. }
  exists (mkFilter path q (N.testbit o 2) (N.testbit o 3) r). split; [reflexivity|]. unfold options_hold. auto.
Qed.
Definition fit (ft : feature) (path : bytes) : Prop := text ft path /\ blen path < 65536.
Lemma filter_at_wire ft path o f : fit ft path -> o < 256 -> fi_path f = path -> options_hold o f -> filter_wire ft f (filter_at path o).
Proof.
  intros [Ht Hl] Ho <- (A & B & C & D). exists (u16be (blen (fi_path f)) ++ fi_path f), o.
  split; [unfold filter_at; rewrite app_assoc; reflexivity|]. split; [exact Ho|]. split.
  { split; [exact Ht|]. split; [exact (proj1 Ht)|]. auto. }
  split; [congruence|]. split; [congruence|]. split; [congruence|exact D].
Qed.
Lemma filters_at ft (pos : list (bytes * N)) :
  Forall (fun po => fit ft (fst po) /\ snd po < 256 /\ snd po mod 4 <> 3 /\ (snd po / 16) mod 4 <> 3) pos ->
  exists fs, list_wire (filter_wire ft) fs (concat (map (fun po => filter_at (fst po) (snd po)) pos))
    /\ Forall2 (fun po f => fi_path f = fst po /\ options_hold (snd po) f) pos fs.
Proof.
  induction 1 as [|[path o] pos (A & B & C & D) H IH].
  - exists []. split; constructor.
  - destruct IH as (fs & W & F). destruct (options_filter path o B C D) as (f & P & O). exists (f :: fs). cbn [map concat fst snd] in *. split.
    + constructor; [apply filter_at_wire; assumption|exact W].
    + constructor; [auto|exact F].
Qed.

(** Every options byte without a forbidden value is accepted, bits 6 and 7 being ignored, and
    gives the filter its options. *)
Theorem C36_options_read ft max byte1 pre pos f rest :
  byte1 / 16 = 8 -> id_and_section ft subscribe_allowed pre -> pos <> [] ->
  Forall (fun po => fit ft (fst po) /\ snd po < 256 /\ snd po mod 4 <> 3 /\ (snd po / 16) mod 4 <> 3) pos ->
  let body := pre ++ concat (map (fun po => filter_at (fst po) (snd po)) pos) in
  framed byte1 body f -> bytes_ok (f ++ rest) -> within max (blen body) ->
  exists s, Packet_read ft (f ++ rest) max = (Ok (P_Subscribe s), rest)
    /\ Forall2 (fun po f => fi_path f = fst po /\ options_hold (snd po) f) pos (su_filters s).
Proof.
  intros H8 (pkid & lk & o & ls & -> & Hk & Hs) Hne Hpos body Hf Hb Hm.
  destruct (filters_at ft pos Hpos) as (fs & W & F). exists (mkSubscribe pkid fs (option_map SubscribeProperties_of o)).
  split; [|exact F]. apply (frame_ok_iff ft max byte1 body f rest _ Hf Hb Hm). split; [exact H8|].
  exists lk, ls, (concat (map (fun po => filter_at (fst po) (snd po)) pos)). unfold body. split; [rewrite app_assoc; reflexivity|].
  split; [exact Hk|]. split; [exists o; auto|]. split; [exact W|]. cbn [su_filters]. intros ->. inversion F; subst. exact (Hne eq_refl).
Qed.
(** A retain handling of 3, or else a QoS of 3, in the first bad options byte is rejected. *)
Theorem C36_options_rejected ft max byte1 pre pos path o after f rest :
  byte1 / 16 = 8 -> id_and_section ft subscribe_allowed pre ->
  Forall (fun po => fit ft (fst po) /\ snd po < 256 /\ snd po mod 4 <> 3 /\ (snd po / 16) mod 4 <> 3) pos ->
  fit ft path ->
  let body := pre ++ concat (map (fun po => filter_at (fst po) (snd po)) pos) ++ filter_at path o ++ after in
  framed byte1 body f -> bytes_ok (f ++ rest) -> within max (blen body) ->
  ((o / 16) mod 4 = 3 -> Packet_read ft (f ++ rest) max = (Err (InvalidRetainForwardRule 3), rest))
  /\ ((o / 16) mod 4 <> 3 -> o mod 4 = 3 -> Packet_read ft (f ++ rest) max = (Err (InvalidQoS 3), rest)).
Proof.
  intros H8 (pkid & lk & op & ls & -> & Hk & Hs) Hpos Hfit body Hf Hb Hm.
  destruct (filters_at ft pos Hpos) as (fs & W & F).
  rewrite !(frame_err_iff ft max byte1 body f rest _ Hf Hb Hm).
  assert (G : forall e : error, filter_faulty ft (filter_at path o ++ after) e -> body_faulty ft byte1 body e).
  { intros e He. unfold body_faulty. rewrite H8. right. split; [unfold body; destruct Hk as [_ ->]; discriminate|].
    right. exists pkid, lk, (ls ++ concat (map (fun po => filter_at (fst po) (snd po)) pos) ++ filter_at path o ++ after).
    split; [unfold body; rewrite <- app_assoc; reflexivity|]. split; [exact Hk|].
    right. eexists op, ls, _. split; [reflexivity|]. split; [exact Hs|]. right. eexists fs, _, (filter_at path o ++ after).
    split; [reflexivity|]. split; [exact W|]. split; [discriminate|exact He]. }
  assert (P : forall e : error, guard ((o / 16) mod 4 <> 3) (InvalidRetainForwardRule 3) (guard (o mod 4 <> 3) (InvalidQoS 3) fine) after e ->
    filter_faulty ft (filter_at path o ++ after) e).
  { intros e He. right. exists path, (u16be (blen path) ++ path), (o :: after).
    split; [unfold filter_at; rewrite <- !app_assoc; reflexivity|]. split.
    { destruct Hfit as [Ht Hl]. split; [exact Ht|]. split; [exact (proj1 Ht)|]. auto. }
    right. exists o, [o], after. split; [reflexivity|]. split; [reflexivity|exact He]. }
  split.
  - intros Hr. apply G, P. left. rewrite Hr. auto.
  - intros Hr Hq. apply G, P. right. split; [exact Hr|]. left. rewrite Hq. auto.
Qed.
Example C36_instances :
  Packet_read F_default [130; 10; 0; 1; 0; 0; 1; 97; 46; 0; 0; 16] None
  = (Ok (P_Subscribe (mkSubscribe 1 [mkFilter [97] ExactlyOnce true true Never; mkFilter [] AtMostOnce false false OnNewSubscribe] None)), [])
  /\ Packet_read F_default [130; 10; 0; 1; 0; 0; 1; 97; 46; 0; 0; 51] None = (Err (InvalidRetainForwardRule 3), [])
  /\ Packet_read F_default [130; 10; 0; 1; 0; 0; 1; 97; 46; 0; 0; 19] None = (Err (InvalidQoS 3), [])
  /\ snd (Packet_write (P_Subscribe (mkSubscribe 1 [mkFilter [97] ExactlyOnce true true Never] None)) [])
     = [130; 7; 0; 1; 0; 0; 1; 97; 46].
Proof. repeat split; reflexivity. Qed.


(** ** C41 *)

(** [p] is written without error, and what is read back is [q]. *)
Definition written_reads (ft : feature) (p q : Packet) : Prop :=
  exists n out, Packet_write p [] = (Ok n, out) /\ Packet_read ft out None = (Ok q, []).
Lemma written_reads_normal ft p : rust_packet ft p -> encodable p -> roundtrip_safe p = true ->
  written_reads ft p (normalize p).
Proof.
  intros Hr He Hs. destruct (C01_write_then_read ft p [] None Hr He Hs ltac:(constructor) I) as (n & out & E & _ & R).
  exists n, out. rewrite app_nil_r in R. auto.
Qed.

(** Publish::new: not a duplicate, not retained, with the given topic, QoS, payload and
    properties.  With QoS 0 it is read back as that. *)
Theorem C41_publish_qos0 ft topic payload o :
  let p := P_Publish (Publish_new topic AtMostOnce payload o) in
  rust_packet ft p -> encodable p -> publish_safe p = true ->
  written_reads ft p (P_Publish (mkPublish false AtMostOnce false topic 0 payload (drop_empty PublishProperties_items o))).
Proof.
  intros p Hr He Hs. apply (written_reads_normal ft p Hr He). unfold roundtrip_safe. rewrite Hs. reflexivity.
Qed.
(** With QoS 1 or 2 writing fails until a packet identifier is set, whatever the buffer: with
    PacketIdZero unless the topic or the whole is too long; *)
Theorem C41_publish_needs_id topic q payload o buf :
  q <> AtMostOnce ->
  (exists e, fst (Packet_write (P_Publish (Publish_new topic q payload o)) buf) = Err e)
  /\ (blen topic <= 65535 ->
      2 + blen topic + blen (fields_bytes (section_fields (opt_items PublishProperties_items o))) + blen payload <= max_varint ->
      fst (Packet_write (P_Publish (Publish_new topic q payload o)) buf) = Err PacketIdZero).
Proof.
  intros Hq. set (p := P_Publish (Publish_new topic q payload o)).
  assert (E : forall e, fst (Packet_write p buf) = Err e <-> first_error (packet_fields p) = Some e)
    by (apply (C14_write_error_is_first_cause p buf); reflexivity).
  assert (B : body_fields p = FBin topic :: FId 0 :: section_fields (opt_items PublishProperties_items o) ++ [FRaw payload])
    by (destruct q; [contradiction|reflexivity|reflexivity]).
  assert (F : first_error (packet_fields p)
     = if blen (fields_bytes (body_fields p)) <=? max_varint then if blen topic <=? 65535 then Some PacketIdZero else Some BinaryDataTooLong else Some PayloadTooLong).
  { unfold packet_fields, frame_fields. cbn [first_error field_error]. destruct (_ <=? max_varint); [|reflexivity].
    rewrite B. cbn [first_error field_error]. destruct (blen topic <=? 65535); reflexivity. }
  split.
  - destruct (_ <=? max_varint), (blen topic <=? 65535); eexists; apply E; exact F.
  - intros Ht Hl. apply E. rewrite F.
    assert (L : blen (fields_bytes (body_fields p)) = 2 + blen topic + blen (fields_bytes (section_fields (opt_items PublishProperties_items o))) + blen payload).
    { rewrite B. unfold fields_bytes. cbn [flat_map]. rewrite flat_map_app, !blen_app.
      change (blen (field_bytes (FBin topic))) with (blen (u16be (blen topic) ++ topic)). change (blen (field_bytes (FId 0))) with 0.
      cbn [flat_map field_bytes]. rewrite !blen_app. change (blen []) with 0. change (blen (u16be (blen topic))) with 2. lia. }
    rewrite L, (proj2 (N.leb_le _ _) Hl), (proj2 (N.leb_le _ _) Ht). reflexivity.
Qed.
(** with an identifier it can be written and read back. *)
Theorem C41_publish_with_id ft topic q payload o k :
  let p := P_Publish (mkPublish false q false topic k payload o) in
  q <> AtMostOnce -> k <> 0 -> rust_packet ft p -> publish_safe p = true ->
  blen topic <= 65535 -> Forall (fun f => field_error f = None) (section_fields (opt_items PublishProperties_items o)) ->
  4 + blen topic + blen (fields_bytes (section_fields (opt_items PublishProperties_items o))) + blen payload <= max_varint ->
  written_reads ft p (P_Publish (mkPublish false q false topic k payload (drop_empty PublishProperties_items o))).
Proof.
  intros p Hq Hk Hr Hs Ht Ho Hl.
  assert (B : body_fields p = FBin topic :: FId k :: section_fields (opt_items PublishProperties_items o) ++ [FRaw payload])
    by (destruct q; [contradiction|reflexivity|reflexivity]).
  replace (P_Publish (mkPublish false q false topic k payload (drop_empty PublishProperties_items o))) with (normalize p)
    by (destruct q; [contradiction|reflexivity|reflexivity]).
  apply written_reads_normal; [exact Hr| |unfold roundtrip_safe; rewrite Hs; reflexivity].
  unfold encodable, packet_fields, frame_fields. constructor; [reflexivity|]. rewrite B. constructor.
  { cbn [field_error].
    assert (L : blen (fields_bytes (FBin topic :: FId k :: section_fields (opt_items PublishProperties_items o) ++ [FRaw payload]))
      = 4 + blen topic + blen (fields_bytes (section_fields (opt_items PublishProperties_items o))) + blen payload).
    { unfold fields_bytes. cbn [flat_map]. rewrite flat_map_app, !blen_app.
      change (field_bytes (FBin topic)) with (u16be (blen topic) ++ topic).
      cbn [flat_map field_bytes]. rewrite (proj2 (N.eqb_neq _ _) Hk), !blen_app. change (blen []) with 0.
      change (blen (u16be (blen topic))) with 2. change (blen (u16be k)) with 2. lia. }
    rewrite L, (proj2 (N.leb_le _ _) Hl). reflexivity. }
  constructor; [cbn [field_error]; rewrite (proj2 (N.leb_le _ _) Ht); reflexivity|].
  constructor; [cbn [field_error]; rewrite (proj2 (N.eqb_neq _ _) Hk); reflexivity|].
  apply Forall_app. split; [exact Ho|]. repeat constructor.
Qed.

(** PubAck::new, PubRec::new, PubRel::new, PubComp::new: reason Success. *)
Theorem C41_acks ft pkid :
  pkid < 65536 ->
  (forall o, let p := P_PubAck (PubAck_new pkid o) in rust_packet ft p -> encodable p ->
     written_reads ft p (P_PubAck (mkPubAck pkid PAR_Success (drop_empty PubAckProperties_items o))))
  /\ (forall o, let p := P_PubRec (PubRec_new pkid o) in rust_packet ft p -> encodable p ->
     written_reads ft p (P_PubRec (mkPubRec pkid PRR_Success (drop_empty PubRecProperties_items o))))
  /\ (forall o, let p := P_PubRel (PubRel_new pkid o) in rust_packet ft p -> encodable p ->
     written_reads ft p (P_PubRel (mkPubRel pkid PLR_Success (drop_empty PubRelProperties_items o))))
  /\ (forall o, let p := P_PubComp (PubComp_new pkid o) in rust_packet ft p -> encodable p ->
     written_reads ft p (P_PubComp (mkPubComp pkid PCR_Success (drop_empty PubCompProperties_items o)))).
Proof.
  intros Hk. split; [|split; [|split]]; intros o p Hr He; exact (written_reads_normal ft p Hr He eq_refl).
Qed.
(** In particular, without properties they are the four-byte packets of the standard. *)
Theorem C41_plain_acks buf pkid :
  Packet_write (P_PubAck (PubAck_new pkid None)) buf = (Ok 4, buf ++ [64; 2] ++ u16be pkid)
  /\ Packet_write (P_PubRec (PubRec_new pkid None)) buf = (Ok 4, buf ++ [80; 2] ++ u16be pkid)
  /\ Packet_write (P_PubRel (PubRel_new pkid None)) buf = (Ok 4, buf ++ [98; 2] ++ u16be pkid)
  /\ Packet_write (P_PubComp (PubComp_new pkid None)) buf = (Ok 4, buf ++ [112; 2] ++ u16be pkid).
Proof.
  assert (G : forall p, is_connect p = false -> bad_disconnect p = false -> legacy_connack p = false ->
    first_error (packet_fields p) = None -> Packet_write p buf = (Ok (blen (encode p)), buf ++ encode p)).
  { intros p A B C F. apply C13_write_is_the_encoding; auto; [apply first_error_forall; exact F|congruence]. }
  split; [|split; [|split]]; apply G; reflexivity.
Qed.

(** Subscribe::new, Subscribe::new_many, Filter::new and Unsubscribe::new: the packet identifier
    is 0, which the standard forbids, but neither writing nor reading minds. *)
Theorem C41_subscribe ft :
  (forall f o, let p := P_Subscribe (Subscribe_new f o) in rust_packet ft p -> encodable p ->
     written_reads ft p (P_Subscribe (mkSubscribe 0 [f] (drop_empty SubscribeProperties_items o))))
  /\ (forall fs o, let p := P_Subscribe (Subscribe_new_many fs o) in rust_packet ft p -> encodable p -> fs <> [] ->
     written_reads ft p (P_Subscribe (mkSubscribe 0 fs (drop_empty SubscribeProperties_items o))))
  /\ (forall path q o, let p := P_Subscribe (Subscribe_new (Filter_new path q) o) in rust_packet ft p -> encodable p ->
     written_reads ft p (P_Subscribe (mkSubscribe 0 [mkFilter path q false false OnEverySubscribe] (drop_empty SubscribeProperties_items o))))
  /\ (forall path o, let p := P_Unsubscribe (Unsubscribe_new path o) in rust_packet ft p -> encodable p ->
     written_reads ft p (P_Unsubscribe (mkUnsubscribe 0 [path] (drop_empty UnsubscribeProperties_items o)))).
Proof.
  split; [|split; [|split]].
  - intros f o p Hr He. exact (written_reads_normal ft p Hr He eq_refl).
  - intros fs o p Hr He Hne. apply (written_reads_normal ft p Hr He). destruct fs; [destruct (Hne eq_refl)|reflexivity].
  - intros path q o p Hr He. exact (written_reads_normal ft p Hr He eq_refl).
  - intros path o p Hr He. exact (written_reads_normal ft p Hr He eq_refl).
Qed.

(** Disconnect::new: with normal disconnection two bytes that read back as that; with any other
    reason (C10, C30) four bytes that cannot be read back. *)
Theorem C41_disconnect ft :
  written_reads ft (P_Disconnect (Disconnect_new DRC_NormalDisconnection)) (P_Disconnect (mkDisconnect DRC_NormalDisconnection None))
  /\ (forall r, r <> DRC_NormalDisconnection -> forall q, ~ written_reads ft (P_Disconnect (Disconnect_new r)) q).
Proof.
  split.
  - exists 2, [224; 0]. split; [reflexivity|]. destruct ft; reflexivity.
  - intros r Hr q (n & out & E & R). rewrite (bad_disconnect_none (Disconnect_new r) [] Hr eq_refl) in E.
    injection E as <- <-. cbn [app di_reason_code Disconnect_new] in R. destruct ft, r; try (destruct (Hr eq_refl)); discriminate R.
Qed.
(** Login::new: the given user name and password, each read back as it is (an absent one counts
    as empty); ConnectProperties::new is the empty structure, the same on the wire as none. *)
Theorem C41_login ft c u pw :
  let p := P_Connect c None (Some (Login_new u pw)) in
  rust_packet ft p -> encodable p -> u <> [] \/ pw <> [] ->
  written_reads ft p (P_Connect (mkConnect (co_keep_alive c) (co_client_id c) (co_clean_start c)
                                   (drop_empty ConnectProperties_items (co_properties c)))
                        None (Some (mkLogin u pw))).
Proof.
  intros p Hr He Hu.
  replace (Some (mkLogin u pw)) with (normalize_login (Some (Login_new u pw)))
    by (destruct u, pw, Hu as [X|X]; try (destruct (X eq_refl)); reflexivity).
  exact (written_reads_normal ft p Hr He eq_refl).
Qed.
Theorem C41_empty_properties k id clean w l buf sp code :
  Packet_write (P_Connect (mkConnect k id clean (Some ConnectProperties_new)) w l) buf
  = Packet_write (P_Connect (mkConnect k id clean None) w l) buf
  /\ Packet_write (P_ConnAck (mkConnAck sp code (Some ConnAckProperties_new))) buf
  = Packet_write (P_ConnAck (mkConnAck sp code None)) buf.
Proof. split; reflexivity. Qed.
Example C41_instances :
  fst (Packet_write (P_Publish (Publish_new [97] AtLeastOnce [98] None)) [1; 2]) = Err PacketIdZero
  /\ Packet_write (P_Publish (Publish_new [97] AtMostOnce [98] None)) [] = (Ok 7, [48; 5; 0; 1; 97; 0; 98])
  /\ Packet_write (P_Subscribe (Subscribe_new (Filter_new [97] ExactlyOnce) None)) [] = (Ok 9, [130; 7; 0; 0; 0; 0; 1; 97; 2])
  /\ Packet_write (P_Disconnect (Disconnect_new DRC_ServerBusy)) [] = (Ok 3, [224; 1; 137; 0]).
Proof. repeat split; reflexivity. Qed.
