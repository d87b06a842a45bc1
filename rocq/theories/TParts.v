(** The public parts below the packet level, used on their own: property structures (C44), the
    fixed header (C45), will, login and filter (C46). *)
From Verif Require Import Types Model Spec Wire Sites Faults PBase PVarint PUtf8 PRead PItems PProps PFrame PWire PTotal
  PWrite PRound PBack PFaults TFraming TWrite TRound TFields Samples.
Import Faults.
Ltac Zify.zify_post_hook ::= Z.div_mod_to_equations.

(** ** C44 *)

(** The reader of a property structure accepts exactly the sections of [Wire] (leaving what
    follows), reports exactly the faults of [Faults], never panics and always ends. *)
Definition reads_sections {A} (ft : feature) (rd : bytes -> res (option A * bytes)) (allowed : list N)
    (of : list item -> A) : Prop :=
  forall b, bytes_ok b ->
    (forall o rest, rd b = Ok (o, rest) <-> exists l, b = l ++ rest /\ props_wire ft allowed of o l)
    /\ (forall e : error, rd b = Err e <-> section_faulty ft allowed b e)
    /\ rd b <> Panic /\ rd b <> Diverge.
Lemma section_reads {A} ft (rd : bytes -> res (option A * bytes)) allowed of :
  reads_section ft rd allowed of -> reads_sections ft rd allowed of.
Proof.
  intros Hrd b Hb. split; [|split].
  - intros o rest. split.
    + apply section_read_inv; assumption.
    + intros (l & -> & H). eapply section_read_app; [exact Hrd|exact H|]. bok; auto.
  - intros e. rewrite Hrd. rewrite rbind_err.
    destruct (section_reader ft allowed b Hb) as [_ B]. rewrite B. split.
    + intros [H|([o r] & _ & H)]; [exact H|discriminate].
    + auto.
  - eapply tame_no_panic, section_tame; eassumption.
Qed.
Theorem C44_readers ft :
  reads_sections ft (ConnectProperties_read ft) connect_allowed ConnectProperties_of
  /\ reads_sections ft (LastWillProperties_read ft) will_allowed LastWillProperties_of
  /\ reads_sections ft (ConnAckProperties_read ft) connack_allowed ConnAckProperties_of
  /\ reads_sections ft (PublishProperties_read ft) publish_allowed PublishProperties_of
  /\ reads_sections ft (PubAckProperties_read ft) ack_allowed PubAckProperties_of
  /\ reads_sections ft (PubRecProperties_read ft) ack_allowed PubRecProperties_of
  /\ reads_sections ft (PubRelProperties_read ft) ack_allowed PubRelProperties_of
  /\ reads_sections ft (PubCompProperties_read ft) ack_allowed PubCompProperties_of
  /\ reads_sections ft (SubscribeProperties_read ft) subscribe_allowed SubscribeProperties_of
  /\ reads_sections ft (SubAckProperties_read ft) ack_allowed SubAckProperties_of
  /\ reads_sections ft (UnsubscribeProperties_read ft) unsubscribe_allowed UnsubscribeProperties_of
  /\ reads_sections ft (UnsubAckProperties_read ft) ack_allowed UnsubAckProperties_of
  /\ reads_sections ft (DisconnectProperties_extract ft) disconnect_allowed DisconnectProperties_of.
Proof.
  repeat match goal with |- _ /\ _ => split end; apply section_reads.
  - apply ConnectProperties_read_section. - apply LastWillProperties_read_section.
  - apply ConnAckProperties_read_section. - apply PublishProperties_read_section.
  - apply PubAckProperties_read_section. - apply PubRecProperties_read_section.
  - apply PubRelProperties_read_section. - apply PubCompProperties_read_section.
  - apply SubscribeProperties_read_section. - apply SubAckProperties_read_section.
  - apply UnsubscribeProperties_read_section. - apply UnsubAckProperties_read_section.
  - apply DisconnectProperties_extract_section.
Qed.

(** The writer appends the section of the structure's items; if one of them has no encoding, it
    reports the first such and has appended the fields before it. *)
Definition writes_fields {A} (w : W A) (l : list field) (a : A) : Prop :=
  forall buf,
    (first_error l = None -> w buf = (Ok a, buf ++ fields_bytes l))
    /\ (forall e, first_error l = Some e ->
          exists done bad todo, l = done ++ bad :: todo /\ field_error bad = Some e
            /\ Forall (fun f => field_error f = None) done
            /\ w buf = (Err e, buf ++ fields_bytes done)).
Lemma emit_cases l : forall buf,
  (first_error l = None -> emit l buf = (Ok tt, buf ++ fields_bytes l))
  /\ (forall e, first_error l = Some e ->
        exists done bad todo, l = done ++ bad :: todo /\ field_error bad = Some e
          /\ Forall (fun f => field_error f = None) done
          /\ emit l buf = (Err e, buf ++ fields_bytes done)).
Proof.
  induction l as [|f l IH]; intros buf; cbn [first_error emit].
  - split; [intros _; rewrite app_nil_r; reflexivity|discriminate].
  - destruct (field_error f) as [e'|] eqn:E.
    + split; [discriminate|]. intros e [= <-]. exists [], f, l. cbn [fields_bytes flat_map]. rewrite app_nil_r. auto.
    + destruct (IH (buf ++ field_bytes f)) as [A B]. split.
      * intros H. rewrite (A H), <- app_assoc. reflexivity.
      * intros e H. destruct (B e H) as (d & b & t & -> & Hb & Hd & Ew). exists (f :: d), b, t.
        rewrite Ew, <- app_assoc. repeat split; auto.
Qed.
Lemma emits_fields {A} (w : W A) l a : emits w l a -> writes_fields w l a.
Proof.
  intros H buf. rewrite !H. destruct (emit_cases l buf) as [X Y]. split.
  - intros E. rewrite (X E). reflexivity.
  - intros e E. destruct (Y e E) as (d & b & t & -> & Hb & Hd & Ew). exists d, b, t. rewrite Ew. auto.
Qed.
Lemma writes_writes w l : writes w l -> writes_fields w l tt.
Proof. intros H. apply emits_fields, emits_writes, H. Qed.
Definition writes_sections {A} (wr : A -> W unit) (items : A -> list item) : Prop :=
  forall p, writes_fields (wr p) (section_fields (items p)) tt.
Theorem C44_writers :
  writes_sections ConnectProperties_write ConnectProperties_items
  /\ writes_sections LastWillProperties_write LastWillProperties_items
  /\ writes_sections ConnAckProperties_write ConnAckProperties_items
  /\ writes_sections PublishProperties_write PublishProperties_items
  /\ writes_sections PubAckProperties_write PubAckProperties_items
  /\ writes_sections PubRecProperties_write PubRecProperties_items
  /\ writes_sections PubRelProperties_write PubRelProperties_items
  /\ writes_sections PubCompProperties_write PubCompProperties_items
  /\ writes_sections SubscribeProperties_write SubscribeProperties_items
  /\ writes_sections SubAckProperties_write SubAckProperties_items
  /\ writes_sections UnsubscribeProperties_write UnsubscribeProperties_items
  /\ writes_sections UnsubAckProperties_write UnsubAckProperties_items
  /\ writes_sections DisconnectProperties_write DisconnectProperties_items.
Proof.
  repeat match goal with |- _ /\ _ => split end; intros p; apply writes_writes.
  - apply ConnectProperties_write_eq. - apply LastWillProperties_write_eq.
  - apply ConnAckProperties_write_eq. - apply PublishProperties_write_eq.
  - apply PubAckProperties_write_eq. - apply PubRecProperties_write_eq.
  - apply PubRelProperties_write_eq. - apply PubCompProperties_write_eq.
  - apply SubscribeProperties_write_eq. - apply SubAckProperties_write_eq.
  - apply UnsubscribeProperties_write_eq. - apply UnsubAckProperties_write_eq.
  - apply DisconnectProperties_write_eq.
Qed.

(** Written and read back, whatever was there before and whatever follows: the structure itself,
    or None if it is empty. *)
Definition section_round_trip {A} (ft : feature) (rd : bytes -> res (option A * bytes)) (wr : A -> W unit)
    (items : A -> list item) (p : A) : Prop :=
  forall buf rest, bytes_ok rest ->
    exists out, wr p buf = (Ok tt, buf ++ out)
      /\ rd (out ++ rest) = Ok (match items p with [] => None | _ => Some p end, rest).
Definition round_trips_when {A} (ft : feature) (rd : bytes -> res (option A * bytes)) (wr : A -> W unit)
    (items : A -> list item) (good : A -> Prop) : Prop :=
  forall p, items_ok ft (items p) -> first_error (section_fields (items p)) = None ->
    section_round_trip ft rd wr items p <-> good p.
Definition round_trips {A} (ft : feature) (rd : bytes -> res (option A * bytes)) (wr : A -> W unit)
    (items : A -> list item) : Prop := round_trips_when ft rd wr items (fun _ => True).

Lemma section_round {A} ft (rd : bytes -> res (option A * bytes)) wr allowed of items p :
  reads_section ft rd allowed of -> writes_sections wr items ->
  (forall p, of (items p) = p) -> (forall p, Forall (wk allowed) (items p)) ->
  (items p <> [] -> covers (isize (items p)) (spell (items p))) ->
  items_ok ft (items p) -> first_error (section_fields (items p)) = None ->
  section_round_trip ft rd wr items p.
Proof.
  intros Hrd Hwr Hof Hwk Hc Hi He buf rest Hr. destruct (Hwr p buf) as [Hw _].
  exists (fields_bytes (section_fields (items p))). split; [apply Hw; exact He|].
  pose proof (props_enc_wire ft allowed of items (Some p) Hof Hwk Hi) as P. cbn [opt_items] in P.
  assert (Henc : enc (section_fields (items p))) by (apply first_error_forall; exact He).
  specialize (P Henc). rewrite (section_read_app ft rd allowed of (drop_empty items (Some p))); auto.
  - cbn [drop_empty]. destruct (items p); reflexivity.
  - apply P. intros q E Hne. injection E as <-. auto.
Qed.
Ltac plain_round rs ws oi wkl :=
  intros p Hi He; split; [auto|]; intros _;
  eapply section_round; [apply rs|apply ws|apply oi|apply wkl| |exact Hi|exact He];
  intros Hne; apply covers_spell_no_vars; [exact Hne|]; eapply wk_no_vars; [|apply wkl]; not11.
Theorem C44_round_trip ft :
  round_trips ft (ConnectProperties_read ft) ConnectProperties_write ConnectProperties_items
  /\ round_trips ft (LastWillProperties_read ft) LastWillProperties_write LastWillProperties_items
  /\ round_trips ft (ConnAckProperties_read ft) ConnAckProperties_write ConnAckProperties_items
  /\ round_trips ft (PubAckProperties_read ft) PubAckProperties_write PubAckProperties_items
  /\ round_trips ft (PubRecProperties_read ft) PubRecProperties_write PubRecProperties_items
  /\ round_trips ft (PubRelProperties_read ft) PubRelProperties_write PubRelProperties_items
  /\ round_trips ft (PubCompProperties_read ft) PubCompProperties_write PubCompProperties_items
  /\ round_trips ft (SubscribeProperties_read ft) SubscribeProperties_write SubscribeProperties_items
  /\ round_trips ft (SubAckProperties_read ft) SubAckProperties_write SubAckProperties_items
  /\ round_trips ft (UnsubscribeProperties_read ft) UnsubscribeProperties_write UnsubscribeProperties_items
  /\ round_trips ft (UnsubAckProperties_read ft) UnsubAckProperties_write UnsubAckProperties_items
  /\ round_trips ft (DisconnectProperties_extract ft) DisconnectProperties_write DisconnectProperties_items.
Proof.
  pose proof C44_writers as (W1 & W2 & W3 & _ & W5 & W6 & W7 & W8 & W9 & W10 & W11 & W12 & W13).
  repeat match goal with |- _ /\ _ => split end.
  - plain_round ConnectProperties_read_section W1 ConnectProperties_of_items ConnectProperties_items_wk.
  - plain_round LastWillProperties_read_section W2 LastWillProperties_of_items LastWillProperties_items_wk.
  - plain_round ConnAckProperties_read_section W3 ConnAckProperties_of_items ConnAckProperties_items_wk.
  - plain_round PubAckProperties_read_section W5 PubAckProperties_of_items PubAckProperties_items_wk.
  - plain_round PubRecProperties_read_section W6 PubRecProperties_of_items PubRecProperties_items_wk.
  - plain_round PubRelProperties_read_section W7 PubRelProperties_of_items PubRelProperties_items_wk.
  - plain_round PubCompProperties_read_section W8 PubCompProperties_of_items PubCompProperties_items_wk.
  - intros p Hi He. split; [auto|]. intros _.
    eapply section_round; [apply SubscribeProperties_read_section|apply W9|apply SubscribeProperties_of_items
      |apply SubscribeProperties_items_wk|apply subscribe_covers|exact Hi|exact He].
  - plain_round SubAckProperties_read_section W10 SubAckProperties_of_items SubAckProperties_items_wk.
  - plain_round UnsubscribeProperties_read_section W11 UnsubscribeProperties_of_items UnsubscribeProperties_items_wk.
  - plain_round UnsubAckProperties_read_section W12 UnsubAckProperties_of_items UnsubAckProperties_items_wk.
  - plain_round DisconnectProperties_extract_section W13 DisconnectProperties_of_items DisconnectProperties_items_wk.
Qed.
(** PUBLISH properties: exactly when their subscription identifiers are safe (see C21). *)
Theorem C44_publish_round_trip ft :
  round_trips_when ft (PublishProperties_read ft) PublishProperties_write PublishProperties_items
    (fun q => ids_safe (pp_subscription_identifiers q) (pp_content_type q) = true).
Proof.
  pose proof C44_writers as (_ & _ & _ & W & _).
  intros q Hi He.
  destruct (PublishProperties_items q) as [|i0 l0] eqn:Eq.
  - split; intros _.
    + rewrite publish_items_split in Eq. apply app_eq_nil in Eq. destruct Eq as [_ Eq]. apply app_eq_nil in Eq.
      destruct Eq as [E1 E2]. destruct (pp_subscription_identifiers q); [|discriminate].
      destruct (pp_content_type q); [discriminate|reflexivity].
    + eapply section_round; [apply PublishProperties_read_section|apply W|apply PublishProperties_of_items
        |apply PublishProperties_items_wk| | |]; rewrite ?Eq; try assumption. congruence.
  - rewrite <- Eq in Hi, He. assert (Hne : PublishProperties_items q <> []) by congruence. split.
    + intros R. apply publish_covers; [exact Hne|].
      assert (Henc : enc (section_fields (PublishProperties_items q))) by (apply first_error_forall; exact He).
      destruct (R [] [] ltac:(constructor)) as (out & Ew & Er). destruct (W q []) as [Hw _]. rewrite (Hw He) in Ew.
      apply (f_equal snd) in Ew. cbn [snd] in Ew. change (fields_bytes (section_fields (PublishProperties_items q)) = out) in Ew.
      subst out. rewrite app_nil_r in Er.
      assert (M : match PublishProperties_items q with [] => None | _ => Some q end = Some q) by (rewrite Eq; reflexivity).
      rewrite M in Er.
      destruct (covers_prefix (isize (PublishProperties_items q)) (PublishProperties_items q)) as (l1 & l2 & El & Hl1 & Hc).
      { destruct (N.eq_dec (isize (PublishProperties_items q)) 0) as [E|E]; [|lia]. apply isize_0 in E. congruence. }
      { rewrite total_spell. lia. }
      assert (Hwk : Forall (wk publish_allowed) l1 /\ Forall (wk publish_allowed) l2).
      { apply Forall_app. rewrite <- El. apply PublishProperties_items_wk. }
      assert (Hio : items_ok ft l1 /\ items_ok ft l2).
      { unfold items_ok in *. rewrite El in Hi. apply Forall_app in Hi. exact Hi. }
      assert (Hl2 : enc (items_fields l2)).
      { unfold section_fields in Henc. encs. rewrite El, items_fields_app in *. encs. assumption. }
      assert (Hl2b : bytes_ok (fields_bytes (items_fields l2))).
      { rewrite <- spell_bytes. apply (spelled_ok ft publish_allowed). apply spell_wire; tauto. }
      assert (Hs : section_wire ft publish_allowed (Some l1)
                     (varint (isize (PublishProperties_items q)) ++ fields_bytes (items_fields l1))).
      { rewrite El. apply section_prefix_wire; try tauto; rewrite <- El; assumption. }
      assert (E2 : PublishProperties_read ft (fields_bytes (section_fields (PublishProperties_items q)))
                   = Ok (Some (PublishProperties_of l1), fields_bytes (items_fields l2))).
      { rewrite section_bytes. rewrite El at 2. rewrite items_fields_app, fields_bytes_app, app_assoc.
        eapply section_read_app; [apply PublishProperties_read_section| |exact Hl2b].
        exists (Some l1). split; [exact Hs|reflexivity]. }
      rewrite E2 in Er. injection Er as _ Er. apply (f_equal blen) in Er. fold (isize l2) in Er.
      apply isize_0 in Er. subst l2. rewrite app_nil_r in El. rewrite El. rewrite El in Hc. exact Hc.
    + intros Hs. eapply section_round; [apply PublishProperties_read_section|apply W|apply PublishProperties_of_items
        |apply PublishProperties_items_wk| |exact Hi|exact He]. intros _. apply publish_covers; assumption.
Qed.
(** Instances of the hypotheses: user properties and a subscription identifier, one that cannot
    be encoded, and PUBLISH identifiers that are lost. *)
Example C44_subscribe_instance :
  let p := mkSubscribeProperties (Some 300) [([107], [118])] in
  items_ok F_default (SubscribeProperties_items p)
  /\ first_error (section_fields (SubscribeProperties_items p)) = None
  /\ SubscribeProperties_write p [9] = (Ok tt, [9; 10; 11; 172; 2; 38; 0; 1; 107; 0; 1; 118])
  /\ SubscribeProperties_read F_default [10; 11; 172; 2; 38; 0; 1; 107; 0; 1; 118; 77] = Ok (Some p, [77]).
Proof.
  split; [|split; [reflexivity|split; reflexivity]].
  constructor; [exact I|]. constructor; [|constructor].
  cbn [value_ok snd]. split; (split; [repeat constructor|]).
  - exists [107]. split; [repeat constructor; left; reflexivity|reflexivity].
  - exists [118]. split; [repeat constructor; left; reflexivity|reflexivity].
Qed.
Example C44_error_instance :
  SubscribeProperties_write (mkSubscribeProperties (Some 268435456) []) [9] = (Err PayloadTooLong, [9; 5; 11]).
Proof. reflexivity. Qed.

(** ** C45 *)

(** [check] accepts a stream exactly when it begins with a complete frame whose body is within
    the limit, and tells its first byte and its two lengths. *)
Theorem C45_check_accepts s max h :
  bytes_ok s ->
  check s max = Ok h <->
    exists byte1 body f rest, s = f ++ rest /\ framed byte1 body f /\ within max (blen body)
      /\ fh_byte1 h = byte1 /\ fh_remaining_len h = blen body
      /\ fh_fixed_header_len h = blen f - blen body /\ frame_length h = blen f.
Proof.
  intros Hs. split.
  - intros E. destruct (stream_shapes s Hs) as [s H|byte1 t H1 H2 H3|byte1 l t H1 H2|byte1 lb t n H1 H2|byte1 lb body rest H1]; bok.
    + exfalso. unfold check, parse_fixed_header in E. destruct (N.ltb_spec (blen s) 2); [discriminate|lia].
    + exfalso. unfold check, parse_fixed_header in E. rewrite blen_cons in E.
      destruct (N.ltb_spec (1 + blen t) 2); [discriminate|]. rewrite length_all_cont in E by assumption. discriminate.
    + exfalso. unfold check, parse_fixed_header in E. rewrite blen_cons, blen_app in E.
      destruct (N.ltb_spec (1 + (blen l + blen t)) 2); [discriminate|].
      rewrite length_malformed in E by assumption. discriminate.
    + exfalso. rewrite (check_header _ _ _ n) in E by assumption. destruct (exceeds max n); [discriminate|].
      destruct (N.ltb_spec (blen t) n); [discriminate|lia].
    + rewrite (check_header _ _ _ (blen body)) in E by (auto; bok; auto). destruct (exceeds max (blen body)) eqn:Ex; [discriminate|].
      destruct (N.ltb_spec (blen (body ++ rest)) (blen body)); [discriminate|]. injection E as <-.
      exists byte1, body, (byte1 :: lb ++ body), rest. cbn [fh_byte1 fh_remaining_len fh_fixed_header_len frame_length].
      split; [cbn [app]; rewrite <- app_assoc; reflexivity|]. split; [exists lb; auto|].
      split; [apply within_exceeds; exact Ex|]. unfold frame_length. cbn [fh_remaining_len fh_fixed_header_len].
      rewrite blen_cons, blen_app. repeat split; lia.
  - intros (byte1 & body & f & rest & -> & (lb & -> & Hw) & Hm & H1 & H2 & H3 & H4).
    cbn [app] in *. rewrite <- app_assoc. apply bytes_ok_cons in Hs. destruct Hs as [Hb Hs].
    apply bytes_ok_app in Hs. destruct Hs as [Hs Hr]. apply bytes_ok_app in Hs. destruct Hs as [Hl Hs].
    rewrite (check_header _ _ _ (blen body)) by (auto; bok; auto).
    rewrite (proj1 (within_exceeds _ _) Hm). destruct (N.ltb_spec (blen (body ++ rest)) (blen body)); [rewrite blen_app in *; lia|].
    f_equal. rewrite blen_cons, blen_app in H3. destruct h as [b1 hl rl]. cbn [fh_byte1 fh_remaining_len fh_fixed_header_len] in *.
    subst b1 rl. f_equal. lia.
Qed.
(** It rejects with the reason, and the errors are those [Packet::read] gives without consuming
    anything. *)
Theorem C45_check_rejects s max e :
  bytes_ok s ->
  check s max = Err e <->
    (blen s < 2 /\ e = InsufficientBytes (2 - blen s))
    \/ (exists byte1 t, s = byte1 :: t /\ t <> [] /\ blen t < 4 /\ Forall (fun x => 128 <= x) t /\ e = InsufficientBytes 1)
    \/ (exists byte1 l t, s = byte1 :: l ++ t /\ blen l = 4 /\ Forall (fun x => 128 <= x) l /\ e = MalformedRemainingLength)
    \/ (exists n m, announces n s /\ max = Some m /\ m < n /\ e = PayloadSizeLimitExceeded n m)
    \/ (exists byte1 lb t n, s = byte1 :: lb ++ t /\ varint_wire n lb /\ within max n
          /\ blen t < n /\ e = InsufficientBytes (n - blen t)).
Proof.
  intros Hs. split.
  - intros E. destruct (stream_shapes s Hs) as [s H|byte1 t H1 H2 H3|byte1 l t H1 H2|byte1 lb t n H1 H2|byte1 lb body rest H1]; bok.
    + left. unfold check, parse_fixed_header in E. destruct (N.ltb_spec (blen s) 2); [|lia]. cbn [rbind] in E. injection E as <-. auto.
    + right. left. unfold check, parse_fixed_header in E. rewrite blen_cons in E. exists byte1, t.
      assert (blen t <> 0) by (intros E0; apply blen_0 in E0; congruence).
      destruct (N.ltb_spec (1 + blen t) 2); [lia|]. rewrite length_all_cont in E by assumption. cbn [rbind] in E.
      injection E as <-. auto 6.
    + right. right. left. unfold check, parse_fixed_header in E. rewrite blen_cons, blen_app in E.
      destruct (N.ltb_spec (1 + (blen l + blen t)) 2); [lia|].
      rewrite length_malformed in E by assumption. cbn [rbind] in E. injection E as <-. exists byte1, l, t. auto 6.
    + right. right. right. rewrite (check_header _ _ _ n) in E by assumption. destruct (exceeds max n) eqn:Ex.
      * left. destruct max as [m|]; [|discriminate]. cbn [exceeds] in Ex. exists n, m. injection E as <-.
        split; [exists byte1, lb, t; auto|]. split; [reflexivity|]. split; [apply N.ltb_lt; exact Ex|reflexivity].
      * right. destruct (N.ltb_spec (blen t) n); [|lia]. injection E as <-. exists byte1, lb, t, n.
        apply within_exceeds in Ex. auto 6.
    + right. right. right. left. rewrite (check_header _ _ _ (blen body)) in E by (auto; bok; auto).
      destruct (exceeds max (blen body)) eqn:Ex.
      * destruct max as [m|]; [|discriminate]. cbn [exceeds] in Ex. exists (blen body), m. injection E as <-.
        split; [exists byte1, lb, (body ++ rest); auto|]. split; [reflexivity|]. split; [apply N.ltb_lt; exact Ex|reflexivity].
      * destruct (N.ltb_spec (blen (body ++ rest)) (blen body)) as [L|L]; [rewrite blen_app in L; lia|discriminate].
  - intros [[H ->]|[(byte1 & t & -> & H1 & H2 & H3 & ->)|[(byte1 & l & t & -> & H1 & H2 & ->)|[(n & m & (byte1 & lb & t & -> & Hw) & -> & H & ->)|(byte1 & lb & t & n & -> & Hw & Hm & H & ->)]]]]; bok.
    + unfold check, parse_fixed_header. destruct (N.ltb_spec (blen s) 2); [reflexivity|lia].
    + unfold check, parse_fixed_header. rewrite blen_cons.
      assert (blen t <> 0) by (intros E0; apply blen_0 in E0; congruence).
      destruct (N.ltb_spec (1 + blen t) 2); [lia|]. rewrite length_all_cont by assumption. reflexivity.
    + unfold check, parse_fixed_header. rewrite blen_cons, blen_app.
      destruct (N.ltb_spec (1 + (blen l + blen t)) 2); [lia|]. rewrite length_malformed by assumption. reflexivity.
    + rewrite (check_header _ _ _ n) by assumption. cbn [exceeds]. rewrite (proj2 (N.ltb_lt m n) H). reflexivity.
    + rewrite (check_header _ _ _ n) by assumption. rewrite (proj1 (within_exceeds _ _) Hm).
      destruct (N.ltb_spec (blen t) n); [reflexivity|lia].
Qed.
Theorem C45_check_never_panics s max : bytes_ok s -> check s max <> Panic /\ check s max <> Diverge.
Proof.
  intros Hs. pose proof (C03_read_never_panics_or_diverges F_default max s Hs) as X.
  unfold Packet_read in X. destruct (check s max); cbn [fst] in X; split; try discriminate; tauto.
Qed.
(** [Packet::read] does what [check] says: it takes away exactly the frame [check] accepted, and
    otherwise gives its error and takes nothing. *)
Theorem C45_read_follows_check ft s max :
  bytes_ok s ->
  (forall h, check s max = Ok h ->
     exists f rest r, s = f ++ rest /\ blen f = frame_length h /\ Packet_read ft s max = (r, rest))
  /\ (forall e, check s max = Err e -> Packet_read ft s max = (Err e, s))
  /\ (forall r rest, Packet_read ft s max = (r, rest) -> rest <> s -> exists h, check s max = Ok h).
Proof.
  intros Hs. split; [|split].
  - intros h E. apply C45_check_accepts in E; [|exact Hs].
    destruct E as (byte1 & body & f & rest & -> & Hf & Hm & _ & _ & _ & Hl). exists f, rest, (body_read ft byte1 body).
    split; [reflexivity|]. split; [auto|]. destruct Hf as (lb & -> & Hw). cbn [app] in *. rewrite <- app_assoc.
    apply bytes_ok_cons in Hs. destruct Hs as [Hb Hs].
    apply bytes_ok_app in Hs. destruct Hs as [Hs Hr]. apply bytes_ok_app in Hs. destruct Hs as [Hl' Hs].
    apply read_full; auto. apply within_exceeds. exact Hm.
  - intros e E. unfold Packet_read. rewrite E. reflexivity.
  - intros r rest E Hne. destruct (C45_check_never_panics s max Hs) as [H1 H2]. unfold Packet_read in E.
    destruct (check s max) as [h|e| |]; [exists h; reflexivity| |contradiction|contradiction].
    injection E as _ <-. contradiction.
Qed.
(** The packet type of the header: the upper four bits, 1 to 14 as in the standard (2.1.2);
    a packet that is read has the announced type. *)
Definition type_code (t : PacketType) : N :=
  match t with
  | PT_Connect => 1 | PT_ConnAck => 2 | PT_Publish => 3 | PT_PubAck => 4 | PT_PubRec => 5 | PT_PubRel => 6 | PT_PubComp => 7
  | PT_Subscribe => 8 | PT_SubAck => 9 | PT_Unsubscribe => 10 | PT_UnsubAck => 11 | PT_PingReq => 12 | PT_PingResp => 13
  | PT_Disconnect => 14
  end.
Definition type_of (p : Packet) : PacketType :=
  match p with
  | P_Connect _ _ _ => PT_Connect | P_ConnAck _ => PT_ConnAck | P_Publish _ => PT_Publish | P_PubAck _ => PT_PubAck
  | P_PubRec _ => PT_PubRec | P_PubRel _ => PT_PubRel | P_PubComp _ => PT_PubComp | P_Subscribe _ => PT_Subscribe
  | P_SubAck _ => PT_SubAck | P_Unsubscribe _ => PT_Unsubscribe | P_UnsubAck _ => PT_UnsubAck | P_PingReq => PT_PingReq
  | P_PingResp => PT_PingResp | P_Disconnect _ => PT_Disconnect
  end.
Theorem C45_packet_type h :
  fh_byte1 h < 256 ->
  (forall t, packet_type h = Ok t <-> type_code t = fh_byte1 h / 16)
  /\ (forall e, packet_type h = Err e <-> e = InvalidPacketType (fh_byte1 h / 16) /\ (fh_byte1 h / 16 = 0 \/ fh_byte1 h / 16 = 15))
  /\ packet_type h <> Panic /\ packet_type h <> Diverge.
Proof.
  intros Hb. destruct h as [byte1 hl rl]. cbn [fh_byte1] in *. rewrite packet_type_cases.
  pose proof (nibble_cases byte1 Hb) as Hn. cbn [In] in Hn.
  repeat (destruct Hn as [Hn|Hn]; [rewrite <- Hn; cbn [ptype]; split; [|split]|]); try contradiction;
    try (intros t; destruct t; cbn [type_code]; split; intros; congruence);
    try (split; discriminate);
    intros e; (split; [intros [= <-]; auto|]); intros [-> [H|H]]; try discriminate; reflexivity.
Qed.
Example C45_type_instance :
  packet_type (mkFixedHeader 239 2 0) = Ok PT_Disconnect /\ packet_type (mkFixedHeader 241 2 0) = Err (InvalidPacketType 15).
Proof. split; reflexivity. Qed.
Theorem C45_read_packet_has_the_type ft s max h p rest :
  bytes_ok s -> check s max = Ok h -> Packet_read ft s max = (Ok p, rest) -> packet_type h = Ok (type_of p).
Proof.
  intros Hs E R. apply C45_check_accepts in E; [|exact Hs].
  destruct E as (byte1 & body & f & rest' & -> & Hf & Hm & Hb & _). destruct Hf as (lb & -> & Hw).
  cbn [app] in *. rewrite <- app_assoc in R.
  apply bytes_ok_cons in Hs. destruct Hs as [H1 Hs].
  apply bytes_ok_app in Hs. destruct Hs as [Hs Hr]. apply bytes_ok_app in Hs. destruct Hs as [Hl' Hs].
  rewrite read_full in R; auto; [|apply within_exceeds; exact Hm]. injection R as R _.
  apply body_read_wire in R; auto. apply body_wire_nibble in R.
  apply C45_packet_type; rewrite Hb; [exact H1|]. rewrite R. destruct p; reflexivity.
Qed.
Example C45_instance :
  check [48; 5; 0; 1; 97; 0; 120; 192; 0] (Some 5) = Ok (mkFixedHeader 48 2 5)
  /\ check [48; 5; 0; 1; 97; 0; 120; 192; 0] (Some 4) = Err (PayloadSizeLimitExceeded 5 4)
  /\ check [48; 5; 0; 1; 97] (Some 5) = Err (InsufficientBytes 2).
Proof. repeat split. Qed.

(** ** C46 *)

Lemma flag_bits_will f : f < 256 ->
  N.testbit f 2 = N.testbit (N.land f 60) 2 /\ (f / 8) mod 4 = (N.land f 60 / 8) mod 4
  /\ N.testbit f 5 = N.testbit (N.land f 60) 5 /\ (N.testbit f 2 = false /\ (f / 8) mod 8 = 0 <-> N.land f 60 = 0).
Proof.
  intros H.
  assert (X : (Bool.eqb (N.testbit f 2) (N.testbit (N.land f 60) 2) && ((f / 8) mod 4 =? (N.land f 60 / 8) mod 4)
    && Bool.eqb (N.testbit f 5) (N.testbit (N.land f 60) 5)
    && Bool.eqb (negb (N.testbit f 2) && ((f / 8) mod 8 =? 0)) (N.land f 60 =? 0))%bool = true).
  { apply (byte_sweep (fun f => (Bool.eqb (N.testbit f 2) (N.testbit (N.land f 60) 2) && ((f / 8) mod 4 =? (N.land f 60 / 8) mod 4)
    && Bool.eqb (N.testbit f 5) (N.testbit (N.land f 60) 5)
    && Bool.eqb (negb (N.testbit f 2) && ((f / 8) mod 8 =? 0)) (N.land f 60 =? 0))%bool)); [vm_compute; reflexivity|exact H]. }
  apply andb_prop in X. destruct X as [X X4]. apply andb_prop in X. destruct X as [X X3]. apply andb_prop in X. destruct X as [X1 X2].
  apply Bool.eqb_prop in X1, X3, X4. apply N.eqb_eq in X2. split; [exact X1|]. split; [exact X2|]. split; [exact X3|].
  rewrite <- (N.eqb_eq (N.land f 60)), <- X4. rewrite andb_true_iff, negb_true_iff, N.eqb_eq. reflexivity.
Qed.
Lemma flag_bits_login f : N.testbit f 7 = N.testbit (N.land f 192) 7 /\ N.testbit f 6 = N.testbit (N.land f 192) 6.
Proof. rewrite !N.land_spec, !andb_true_r. auto. Qed.

(** A last will: [write] appends properties, topic and message and returns its part of the
    CONNECT flags (bits 2 to 5); [read], given any flags byte with these bits, gives it back. *)
Theorem C46_will_written w :
  writes_fields (LastWill_write w)
    (section_fields (opt_items LastWillProperties_items (lw_properties w)) ++ [FBin (lw_topic w); FBin (lw_message w)])
    (4 + 8 * qos_num (lw_qos w) + bit (lw_retain w) 32).
Proof. apply emits_fields. exact (LastWill_emits w). Qed.
Theorem C46_will_round_trip ft w buf rest f others :
  bytes_ok (lw_topic w) -> bytes_ok (lw_message w) ->
  items_ok ft (opt_items LastWillProperties_items (lw_properties w)) -> bytes_ok rest ->
  fst (LastWill_write w buf) = Ok f -> others < 256 -> N.land others 60 = 0 ->
  exists out, snd (LastWill_write w buf) = buf ++ out
    /\ LastWill_read ft (N.lor f others) (out ++ rest) = Ok (Some (normalize_will w), rest).
Proof.
  intros Ht Hm Hi Hr E Ho Hz. destruct (C46_will_written w buf) as [X Y].
  set (l := section_fields (opt_items LastWillProperties_items (lw_properties w)) ++ [FBin (lw_topic w); FBin (lw_message w)]) in *.
  destruct (first_error l) as [e|] eqn:Ee.
  { destruct (Y e eq_refl) as (d & b & t & _ & _ & _ & Ew). rewrite Ew in E. discriminate. }
  rewrite (X eq_refl) in *. cbn [fst snd] in *. injection E as <-. exists (fields_bytes l). split; [reflexivity|].
  set (k := 4 + 8 * qos_num (lw_qos w) + bit (lw_retain w) 32) in *.
  assert (Hk : k < 256 /\ N.land k 60 = k).
  { unfold k. destruct (lw_qos w), (lw_retain w); split; reflexivity. }
  destruct Hk as [Hk1 Hk2].
  assert (Hf : N.lor k others < 256).
  { destruct (N.eq_dec (N.lor k others) 0) as [->|Hnz]; [reflexivity|]. change 256 with (2 ^ 8). apply N.log2_lt_pow2; [lia|].
    rewrite N.log2_lor. apply N.max_lub_lt.
    - destruct (N.eq_dec k 0) as [->|]; [reflexivity|]. apply N.log2_lt_pow2; [lia|exact Hk1].
    - destruct (N.eq_dec others 0) as [->|]; [reflexivity|]. apply N.log2_lt_pow2; [lia|exact Ho]. }
  assert (Hl : N.land (N.lor k others) 60 = k).
  { rewrite N.land_lor_distr_l, Hk2, Hz, N.lor_0_r. reflexivity. }
  destruct (flag_bits_will _ Hf) as (B2 & Bq & B5 & _). rewrite Hl in *.
  destruct (flag_bits_will _ Hk1) as (K2 & Kq & K5 & _).
  pose proof (will_enc_wire ft false (Some w) None) as P. cbn [option_map will_fields] in P. fold l in P.
  assert (Henc : enc l) by (apply first_error_forall; exact Ee).
  specialize (P ltac:(intros w' [= <-]; auto) Henc). cbn [will_wire] in P. destruct P as (_ & _ & _ & P).
  assert (P' : will_wire ft (N.lor k others) (Some (normalize_will w)) (fields_bytes l)).
  { cbn [will_wire]. rewrite B2, Bq, B5. cbn [normalize_will lw_qos lw_retain]. unfold k.
    split; [destruct (lw_qos w), (lw_retain w); reflexivity|].
    split; [destruct (lw_qos w), (lw_retain w); reflexivity|].
    split; [destruct (lw_qos w), (lw_retain w); reflexivity|]. exact P. }
  apply LastWill_wire_app; auto. eapply will_wire_ok. exact P'.
Qed.
(** The will of the sample CONNECT: hypotheses met, and the flags it returns. *)
Example C46_will_instance ft :
  let w := mkLastWill t_topic [1; 2; 255] ExactlyOnce true (Some (mkLastWillProperties (Some 5) None None None None None t_user)) in
  bytes_ok (lw_topic w) /\ bytes_ok (lw_message w) /\ items_ok ft (opt_items LastWillProperties_items (lw_properties w))
  /\ fst (LastWill_write w [7]) = Ok 52 /\ N.land 194 60 = 0
  /\ LastWill_read ft (N.lor 52 194) (skipn 1 (snd (LastWill_write w [7])) ++ [9]) = Ok (Some w, [9]).
Proof. cbv zeta. sample; try reflexivity. destruct ft; reflexivity. Qed.
(** What [read] does in general. *)
Theorem C46_will_read ft flags b :
  flags < 256 -> bytes_ok b ->
  (forall w rest, LastWill_read ft flags b = Ok (w, rest) <-> exists l, b = l ++ rest /\ will_wire ft flags w l)
  /\ (forall rest, LastWill_read ft flags b = Ok (None, rest) <-> rest = b /\ N.land flags 60 = 0)
  /\ (forall e : error, LastWill_read ft flags b = Err e <-> will_faulty ft flags b e)
  /\ LastWill_read ft flags b <> Panic /\ LastWill_read ft flags b <> Diverge.
Proof.
  intros Hf Hb. destruct (will_reader ft flags Hf b Hb) as [A B]. split; [exact A|]. split; [|split; [exact B|]].
  - intros rest. rewrite A. cbn [will_wire]. destruct (flag_bits_will _ Hf) as (_ & _ & _ & Z). split.
    + intros (l & -> & H2 & H8 & ->). split; [reflexivity|]. apply Z. auto.
    + intros [-> H]. apply Z in H. exists []. tauto.
  - eapply tame_no_panic, LastWill_tame; assumption.
Qed.
Example C46_will_read_instances :
  LastWill_read F_default 194 [1; 2] = Ok (None, [1; 2]) /\ LastWill_read F_default 16 [1; 2] = Err IncorrectPacketFormat
  /\ LastWill_read F_default 28 [0; 0; 1; 97; 0; 1; 7] = Err (InvalidQoS 3)
  /\ LastWill_read F_default 4 [0; 0; 1; 97; 0; 2; 7] = Err (BoundaryCrossed 2).
Proof. repeat split; reflexivity. Qed.

(** A login: the user name if it is not empty (bit 7), the password if it is not empty (bit 6). *)
Theorem C46_login_written l :
  writes_fields (Login_write l)
    ((if nonempty (lo_username l) then [FBin (lo_username l)] else [])
     ++ (if nonempty (lo_password l) then [FBin (lo_password l)] else []))
    (bit (nonempty (lo_password l)) 64 + bit (nonempty (lo_username l)) 128).
Proof. apply emits_fields. exact (Login_emits l). Qed.
Theorem C46_login_round_trip ft l buf rest f others :
  text ft (lo_username l) -> text ft (lo_password l) -> bytes_ok rest ->
  fst (Login_write l buf) = Ok f -> N.land others 192 = 0 ->
  exists out, snd (Login_write l buf) = buf ++ out
    /\ Login_read ft (N.lor f others) (out ++ rest)
       = Ok (match lo_username l, lo_password l with [], [] => None | _, _ => Some l end, rest).
Proof.
  intros Hu Hp Hr E Hz. destruct (C46_login_written l buf) as [X Y].
  destruct (first_error ((if nonempty (lo_username l) then [FBin (lo_username l)] else [])
     ++ (if nonempty (lo_password l) then [FBin (lo_password l)] else []))) as [e|] eqn:Ee.
  { destruct (Y e eq_refl) as (d & b & t & _ & _ & _ & Ew). rewrite Ew in E. discriminate. }
  rewrite (X eq_refl) in *. cbn [fst snd] in *. injection E as <-. eexists. split; [reflexivity|].
  set (k := bit (nonempty (lo_password l)) 64 + bit (nonempty (lo_username l)) 128) in *.
  assert (Hl : N.land (N.lor k others) 192 = k).
  { rewrite N.land_lor_distr_l, Hz, N.lor_0_r. unfold k. destruct (nonempty (lo_password l)), (nonempty (lo_username l)); reflexivity. }
  destruct (flag_bits_login (N.lor k others)) as [B7 B6]. rewrite Hl in *.
  assert (Henc : enc (login_fields (Some l))) by (apply first_error_forall; exact Ee).
  pose proof (login_enc_wire ft false None (Some l)) as P.
  specialize (P ltac:(intros l' [= <-]; auto) Henc).
  destruct (connect_flags_bits false None (Some l)) as (_ & _ & _ & C7 & C6).
  assert (P' : login_wire ft (N.lor k others) (normalize_login (Some l)) (fields_bytes (login_fields (Some l)))).
  { unfold login_wire in *. rewrite C7, C6 in P. rewrite B7, B6. unfold k.
    replace (N.testbit (bit (nonempty (lo_password l)) 64 + bit (nonempty (lo_username l)) 128) 7) with (nonempty (lo_username l))
      by (destruct (nonempty (lo_password l)), (nonempty (lo_username l)); reflexivity).
    replace (N.testbit (bit (nonempty (lo_password l)) 64 + bit (nonempty (lo_username l)) 128) 6) with (nonempty (lo_password l))
      by (destruct (nonempty (lo_password l)), (nonempty (lo_username l)); reflexivity).
    exact P. }
  pose proof (Login_wire_app ft _ _ _ rest P') as R. cbn [login_fields] in R. rewrite R. f_equal. f_equal.
  cbn [normalize_login]. destruct (lo_username l), (lo_password l); reflexivity.
Qed.
Example C46_login_instance ft :
  text ft [117; 115] /\ text ft [] /\ fst (Login_write (mkLogin [117; 115] []) [7]) = Ok 128 /\ N.land 62 192 = 0
  /\ Login_read ft (N.lor 128 62) (skipn 1 (snd (Login_write (mkLogin [117; 115] []) [7])) ++ [9]) = Ok (Some (mkLogin [117; 115] []), [9]).
Proof. sample; try reflexivity. destruct ft; reflexivity. Qed.
Theorem C46_login_read ft flags b :
  bytes_ok b ->
  (forall o rest, Login_read ft flags b = Ok (o, rest) <-> exists l, b = l ++ rest /\ login_wire ft flags o l)
  /\ (forall e : error, Login_read ft flags b = Err e <-> login_faulty ft flags b e)
  /\ Login_read ft flags b <> Panic /\ Login_read ft flags b <> Diverge.
Proof.
  intros Hb. split; [|split].
  - intros o rest. split; [apply Login_wire_inv; exact Hb|]. intros (l & -> & H). apply Login_wire_app. exact H.
  - intros e. apply Login_err. exact Hb.
  - eapply tame_no_panic, Login_tame; assumption.
Qed.
Example C46_login_read_instances :
  Login_read F_default 192 [0; 0; 0; 0; 9] = Ok (None, [9]) /\ Login_read F_default 64 [0; 1; 112] = Ok (Some (mkLogin [] [112]), [])
  /\ Login_read F_default 128 [0] = Err MalformedPacket.
Proof. repeat split; reflexivity. Qed.

(** Subscription filters: [read] takes the whole buffer as a sequence of them. *)
Theorem C46_filter_written f : writes_fields (Filter_write f) [FBin (fi_path f); FByte (filter_options f)] tt.
Proof. apply writes_writes. exact (Filter_writes f). Qed.
Theorem C46_filters_read ft b fs :
  bytes_ok b -> Filter_read ft b = Ok fs <-> list_wire (filter_wire ft) fs b.
Proof.
  intros Hb. unfold Filter_read. rewrite Filter_loop_wire; [|lia|exact Hb]. split.
  - intros (l & -> & H). exact H.
  - intros H. exists fs. auto.
Qed.
(** Filters written one after the other. *)
Fixpoint write_filters (fs : list Filter) (buf : bytes) : res unit * bytes :=
  match fs with
  | [] => (Ok tt, buf)
  | f :: fs => match Filter_write f buf with (Ok tt, buf) => write_filters fs buf | r => r end
  end.
Theorem C46_filters_round_trip ft fs :
  Forall (fun f => text ft (fi_path f)) fs -> fst (write_filters fs []) = Ok tt ->
  Filter_read ft (snd (write_filters fs [])) = Ok fs.
Proof.
  intros Ht E.
  assert (G : forall fs buf, Forall (fun f => text ft (fi_path f)) fs -> fst (write_filters fs buf) = Ok tt ->
            exists l, snd (write_filters fs buf) = buf ++ l /\ list_wire (filter_wire ft) fs l).
  { clear. induction fs as [|f fs IH]; intros buf Ht E.
    - exists []. rewrite app_nil_r. split; [reflexivity|constructor].
    - cbn [write_filters] in *. destruct (C46_filter_written f buf) as [X Y].
      destruct (first_error [FBin (fi_path f); FByte (filter_options f)]) as [e|] eqn:Ee.
      { destruct (Y e eq_refl) as (d & b & t & _ & _ & _ & Ew). rewrite Ew in E. discriminate. }
      rewrite (X eq_refl) in *. apply Forall_cons_iff in Ht. destruct Ht as [H1 Ht].
      destruct (IH _ Ht E) as (l & El & Hl). exists (fields_bytes [FBin (fi_path f); FByte (filter_options f)] ++ l).
      rewrite El, app_assoc. split; [reflexivity|]. constructor; [|exact Hl].
      assert (Henc : enc [FBin (fi_path f); FByte (filter_options f)]) by (apply first_error_forall; exact Ee). encs.
      destruct (filter_options_bits f) as (O1 & O2 & O3 & O4 & O5).
      exists (field_bytes (FBin (fi_path f))), (filter_options f). rewrite fields_bytes_cons, fields_bytes_one.
      split; [reflexivity|]. split; [exact O1|]. split; [apply str_enc_wire; assumption|]. auto. }
  destruct (G fs [] Ht E) as (l & El & Hl). cbn [app] in El. rewrite El. apply C46_filters_read; [|exact Hl].
  eapply list_wire_ok; [|exact Hl]. intros a la. apply filter_wire_ok.
Qed.
Theorem C46_filters_total ft b : bytes_ok b -> Filter_read ft b <> Panic /\ Filter_read ft b <> Diverge.
Proof. intros Hb. unfold Filter_read. eapply tame_no_panic, (Filter_loop_tame ft (mkFixedHeader 0 0 0) []); [cbn; lia|exact Hb|lia]. Qed.
(** [Filter_read] fails exactly when some filter, the ones before it being well formed, is defective. *)
Theorem C46_filters_rejected ft b e :
  bytes_ok b -> Filter_read ft b = Err e <-> list_faulty (filter_wire ft) (filter_faulty ft) b e.
Proof.
  intros Hb. unfold Filter_read.
  apply (list_err (filter_wire ft) (filter_faulty ft) (read_filter ft) (Filter_read_loop ft)); [| | | |lia|exact Hb].
  - intros [|f] ys; reflexivity.
  - intros f ys c Hne. destruct c as [|c b']; [congruence|]. cbn [Filter_read_loop]. unfold read_filter.
    destruct (read_mqtt_string ft (c :: b')) as [[p c1]| | |]; cbn [rbind]; try reflexivity.
    destruct (read_u8 c1) as [[op c2]| | |]; cbn [rbind]; try reflexivity. cbv zeta.
    match goal with |- rbind ?x _ = _ => destruct x; cbn [rbind]; try reflexivity end.
    destruct (qos _); reflexivity.
  - apply filter_reader.
  - intros y l3 Hy. eapply filter_wire_nonempty. exact Hy.
Qed.
Example C46_filters_instances ft :
  Filter_read ft [0; 1; 97; 38; 0; 0; 193] = Ok [mkFilter [97] ExactlyOnce true false Never; mkFilter [] AtLeastOnce false false OnEverySubscribe]
  /\ Filter_read ft [0; 1; 97; 38; 0; 0; 48] = Err (InvalidRetainForwardRule 3)
  /\ Filter_read ft [0; 1; 97; 3] = Err (InvalidQoS 3) /\ Filter_read ft [0; 1; 97; 1; 0] = Err MalformedPacket
  /\ Filter_read ft [] = Ok [].
Proof. destruct ft; repeat split; reflexivity. Qed.
