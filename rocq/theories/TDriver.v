(** Sequences of packets: C02, C08. *)
From Verif Require Import Types Model Spec Wire Driver PBase PVarint PRead PItems PFrame PWire PWrite PTotal PRound.
From Verif Require Import TFraming TWrite TRound Samples.
Ltac Zify.zify_post_hook ::= Z.div_mod_to_equations.

(** A packet that survives a round trip (C01_exact). *)
Definition survives (ft : feature) (p : Packet) : Prop :=
  rust_packet ft p /\ encodable p /\ roundtrip_safe p = true.

Lemma survives_write p buf ft : survives ft p -> (is_connect p = true -> buf = []) ->
  Packet_write p buf = (Ok (blen (encode p)), buf ++ encode p).
Proof.
  intros (Hr & He & Hs) Hc. unfold roundtrip_safe in Hs. rewrite !andb_true_iff, !negb_true_iff in Hs.
  apply C13_write_is_the_encoding; tauto.
Qed.

Lemma write_all_eq ft ps : forall buf, Forall (survives ft) ps ->
  Forall (fun p => is_connect p = false) ps ->
  write_all ps buf = (Ok tt, buf ++ concat (map encode ps)).
Proof.
  induction ps as [|p ps IH]; intros buf Hs Hc.
  - cbn. rewrite app_nil_r. reflexivity.
  - apply Forall_cons_iff in Hs. destruct Hs as [Hp Hs]. apply Forall_cons_iff in Hc. destruct Hc as [Hcp Hc].
    cbn [write_all]. unfold wbind. rewrite (survives_write p buf ft Hp) by congruence.
    rewrite IH by assumption. cbn [map concat]. rewrite app_assoc. reflexivity.
Qed.
Lemma write_all_first ft ps : Forall (survives ft) ps ->
  Forall (fun p => is_connect p = false) (tl ps) ->
  write_all ps [] = (Ok tt, concat (map encode ps)).
Proof.
  intros Hs Hc. destruct ps as [|p ps]; [reflexivity|]. cbn [tl] in Hc.
  apply Forall_cons_iff in Hs. destruct Hs as [Hp Hs].
  cbn [write_all]. unfold wbind. rewrite (survives_write p [] ft Hp) by auto.
  rewrite (write_all_eq ft) by assumption. reflexivity.
Qed.

Lemma drains_encodings ft max ps tail qs e rest :
  Forall (survives ft) ps -> Forall (fun p => within max (body_size p)) ps -> bytes_ok tail ->
  drains ft max tail qs e rest ->
  drains ft max (concat (map encode ps) ++ tail) (map normalize ps ++ qs) e rest.
Proof.
  intros Hs Hm Ht Hd. induction ps as [|p ps IH]; [exact Hd|].
  apply Forall_cons_iff in Hs. destruct Hs as [(Hr & He & Hsafe) Hs].
  apply Forall_cons_iff in Hm. destruct Hm as [Hmp Hm].
  cbn [map concat app]. rewrite <- app_assoc. eapply drains_packet; [|apply IH; assumption].
  apply encode_read; try assumption.
  assert (B : forall l, Forall (survives ft) l -> bytes_ok (concat (map encode l))).
  { clear. induction 1 as [|p l (Hr & He & _) Hl IH]; [constructor|]. cbn [map concat]. apply bytes_ok_app.
    split; [eapply encode_bytes_ok; eassumption|exact IH]. }
  apply bytes_ok_app. split; [apply B; assumption|assumption].
Qed.

(** ** C02 *)

(** Any sequence of packets that survive a round trip, with CONNECT at most in first place,
    written into an empty buffer, is read back in order, and reading empties the buffer (the
    final result is the one for an empty buffer). *)
Theorem C02_pipelined_packets_in_order ft ps :
  Forall (survives ft) ps -> Forall (fun p => is_connect p = false) (tl ps) ->
  exists out, write_all ps [] = (Ok tt, out)
    /\ drains ft None out (map normalize ps) (InsufficientBytes 2) [].
Proof.
  intros Hs Hc. exists (concat (map encode ps)). split; [apply (write_all_first ft); assumption|].
  rewrite <- (app_nil_r (concat (map encode ps))), <- (app_nil_r (map normalize ps)).
  apply drains_encodings; try assumption; [|constructor|].
  - clear. induction ps; constructor; [exact I|assumption].
  - apply drains_stop. reflexivity.
Qed.
(** All sample packets, the CONNECT first, as one stream. *)
Example C02_instance ft : exists out, write_all samples [] = (Ok tt, out) /\ drains ft None out samples (InsufficientBytes 2) [].
Proof.
  apply (C02_pipelined_packets_in_order ft samples).
  - apply Forall_forall. intros p Hp. split; [|split].
    + exact (proj1 (Forall_forall _ _) (samples_rust ft) p Hp).
    + exact (proj1 (Forall_forall _ _) samples_encodable p Hp).
    + exact (proj1 (Forall_forall _ _) samples_safe p Hp).
  - repeat constructor.
Qed.
(** Without CONNECT the same holds for what is appended to a buffer in use, and whatever follows
    in the stream is dealt with afterwards. *)
Theorem C02_pipelined_packets_anywhere ft ps buf max tail qs e rest :
  Forall (survives ft) ps -> Forall (fun p => is_connect p = false) ps ->
  Forall (fun p => within max (body_size p)) ps ->
  bytes_ok tail -> drains ft max tail qs e rest ->
  exists out, write_all ps buf = (Ok tt, buf ++ out)
    /\ drains ft max (out ++ tail) (map normalize ps ++ qs) e rest.
Proof.
  intros Hs Hc Hm Ht Hd. exists (concat (map encode ps)). split; [apply (write_all_eq ft); assumption|].
  apply drains_encodings; assumption.
Qed.
(** ** C35, for streams *)

Lemma survives_ok ft ps : Forall (survives ft) ps -> bytes_ok (concat (map encode ps)).
Proof.
  induction 1 as [|p ps (Hr & He & _) _ IH]; cbn [map concat]; [constructor|].
  apply bytes_ok_app. split; [eapply encode_bytes_ok; eassumption|exact IH].
Qed.
(** If what one sender has written is the beginning of what another has written, then the packets
    of the first are, in normal form, the first packets of the second; the rest of the bytes is
    what the second has written for the others. *)
Theorem C35_streams_are_unambiguous ft ps qs s more :
  Forall (survives ft) ps -> Forall (fun p => is_connect p = false) (tl ps) ->
  Forall (survives ft) qs -> Forall (fun p => is_connect p = false) (tl qs) ->
  write_all ps [] = (Ok tt, s) -> write_all qs [] = (Ok tt, s ++ more) ->
  exists os, map normalize qs = map normalize ps ++ map normalize os
    /\ (ps <> [] -> write_all os [] = (Ok tt, more)) /\ (more = [] -> os = []).
Proof.
  intros Hp Cp Hq Cq Ep Eq. rewrite (write_all_first ft) in Ep, Eq by assumption.
  apply (f_equal snd) in Ep. apply (f_equal snd) in Eq. cbn [snd] in Ep, Eq. subst s.
  assert (X : exists os, map normalize qs = map normalize ps ++ map normalize os /\ more = concat (map encode os)
             /\ exists qs1, qs = qs1 ++ os /\ length qs1 = length ps).
  { clear Cp Cq. revert qs Hq Eq. induction Hp as [|p ps Hp Hps IH]; intros qs Hq Eq.
    - exists qs. split; [reflexivity|]. split; [symmetry; exact Eq|]. exists []. auto.
    - destruct Hq as [|q qs Hq Hqs]; cbn [map concat] in Eq.
      + exfalso. destruct p; discriminate Eq.
      + rewrite <- app_assoc in Eq.
        destruct (C35_encodings_are_unambiguous ft q p (concat (map encode qs)) (concat (map encode ps) ++ more)) as (E1 & _ & E2);
          try apply Hq; try apply Hp; [apply (survives_ok ft); exact Hqs|exact Eq|].
        destruct (IH qs Hqs E2) as (os & E3 & E4 & qs1 & -> & E5). exists os. cbn [map app]. rewrite E1, E3.
        split; [reflexivity|]. split; [exact E4|]. exists (q :: qs1). cbn [app length]. auto. }
  destruct X as (os & E1 & -> & qs1 & -> & El). exists os. split; [exact E1|].
  apply Forall_app in Hq. split.
  - intros Hne. rewrite (write_all_eq ft); [reflexivity|apply Hq|].
    destruct qs1 as [|q qs1]; [destruct ps; [congruence|discriminate El]|]. cbn [tl app] in Cq. apply Forall_app in Cq. apply Cq.
  - intros E. destruct os as [|o os]; [reflexivity|exfalso]. destruct o; discriminate E.
Qed.
Example C35_streams_instance :
  let r := P_PubRec (mkPubRec 7 PRR_Success None) in
  write_all [P_PingReq; r] [] = (Ok tt, [192; 0; 80; 2; 0; 7])
  /\ write_all [P_PingReq; r; P_PingResp] [] = (Ok tt, [192; 0; 80; 2; 0; 7] ++ [208; 0])
  /\ write_all [P_PingResp] [] = (Ok tt, [208; 0]).
Proof. repeat split; reflexivity. Qed.
(** CONNECT in second place: PINGREQ then a CONNECT with a login is not read back. *)
Theorem C02_connect_in_second_place_refuted ft :
  let c := P_Connect (mkConnect 0 [] true None) None (Some (mkLogin [117] [])) in
  survives ft P_PingReq /\ survives ft c
  /\ fst (write_all [P_PingReq; c] []) = Ok tt
  /\ ~ exists e rest, drains ft None (snd (write_all [P_PingReq; c] [])) [P_PingReq; c] e rest.
Proof.
  intros c. split; [split; [exact I|split; [apply first_error_forall; reflexivity|reflexivity]]|]. split.
  { split; [|split; [|reflexivity]].
    - cbn [rust_packet c]. split; [reflexivity|]. split; [|split; [constructor|split]].
      + split; [constructor|]. destruct ft; try exact I; exists []; split; try constructor.
      + discriminate.
      + intros l' E. injection E as <-. cbn [lo_username lo_password].
        split; (split; [repeat constructor|]).
        * destruct ft; try exact I; (exists [117]; split; [repeat constructor|reflexivity]).
        * destruct ft; try exact I; (exists []; split; [constructor|reflexivity]).
    - apply first_error_forall. vm_compute. reflexivity. }
  split; [vm_compute; reflexivity|].
  assert (Ew : snd (write_all [P_PingReq; c] []) = [192; 0; 16; 16; 0; 4; 77; 81; 84; 130; 5; 2; 0; 0; 0; 0; 0; 0; 1; 117])
    by (vm_compute; reflexivity).
  rewrite Ew. clear Ew.
  intros (e & rest & H). inversion H as [|s p s' ps e' rest' E1 H1]; subst.
  inversion H1 as [|s2 p2 s2' ps2 e2' rest2' E2 H2]; subst.
  assert (s' = [16; 16; 0; 4; 77; 81; 84; 130; 5; 2; 0; 0; 0; 0; 0; 0; 1; 117]) as ->
    by (apply (f_equal snd) in E1; destruct ft; vm_compute in E1; congruence).
  apply (f_equal fst) in E2. destruct ft; vm_compute in E2; discriminate E2.
Qed.

(** ** C08 *)

Lemma drains_det ft max s ps e rest ps' e' rest' :
  drains ft max s ps e rest -> drains ft max s ps' e' rest' -> ps = ps' /\ e = e' /\ rest = rest'.
Proof.
  intros H. revert ps' e' rest'. induction H as [s e rest E|s p s1 ps e rest E H IH]; intros ps' e' rest' H';
    inversion H'; subst; try congruence.
  - assert (X : (Err e, rest) = (@Err Packet e', rest')) by congruence. injection X as -> ->. auto.
  - assert (X : (Ok p, s1) = (Ok p0, s')) by congruence. injection X as <- <-.
    destruct (IH _ _ _ H1) as (-> & -> & ->). auto.
Qed.

(** Reading until an error always ends. *)
Lemma drains_total ft max s : bytes_ok s -> exists ps e rest, drains ft max s ps e rest /\ bytes_ok rest.
Proof.
  remember (length s) as n eqn:En. revert s En. induction n as [n IH] using lt_wf_ind. intros s -> Hs.
  destruct (C03_read_total ft max s Hs) as (s' & [[p E]|[e E]]).
  - destruct (C04_ok_one_frame ft max s p s' Hs E) as (f & -> & Hf & Hl & _).
    assert (Hs' : bytes_ok s') by (apply bytes_ok_app in Hs; tauto).
    destruct (IH (length s')) with (s := s') as (ps & e & rest & Hd & Hr); auto.
    { rewrite app_length. unfold blen in Hl. lia. }
    exists (p :: ps), e, rest. split; [eapply drains_packet; eassumption|exact Hr].
  - exists [], e, s'. split; [apply drains_stop; exact E|].
    destruct (C04_nothing_or_one_frame ft max s _ _ Hs E) as [[-> _]|(b & body & f & -> & _)]; [exact Hs|].
    apply bytes_ok_app in Hs. tauto.
Qed.

Lemma drains_ok ft max s ps e rest : bytes_ok s -> drains ft max s ps e rest -> bytes_ok rest.
Proof.
  intros Hs Hd. destruct (drains_total ft max s Hs) as (ps' & e' & rest' & Hd' & Hr).
  destruct (drains_det _ _ _ _ _ _ _ _ _ Hd Hd') as (_ & _ & ->). exact Hr.
Qed.

(** No complete frame of the stream makes Packet::read ask for more bytes: wherever the stream
    is cut into frames, the next frame alone does not give InsufficientBytes. *)
Definition no_false_alarm (ft : feature) (max : option N) (s : bytes) : Prop :=
  forall fs f tail n, s = concat fs ++ f ++ tail -> Forall is_frame fs -> is_frame f ->
    fst (Packet_read ft f max) <> Err (InsufficientBytes n).

Lemma no_false_alarm_prefix ft max s t : no_false_alarm ft max (s ++ t) -> no_false_alarm ft max s.
Proof.
  intros H fs f tail n -> Hfs Hf. apply (H fs f (tail ++ t)); try assumption. rewrite <- !app_assoc. reflexivity.
Qed.
Lemma no_false_alarm_suffix ft max f s : is_frame f -> no_false_alarm ft max (f ++ s) -> no_false_alarm ft max s.
Proof.
  intros Hf H fs g tail n -> Hfs Hg. apply (H (f :: fs) g tail); try assumption; [|constructor; assumption].
  cbn [concat]. rewrite <- app_assoc. reflexivity.
Qed.

Lemma framed_unlimited ft max byte1 body f rest : framed byte1 body f -> bytes_ok (f ++ rest) -> within max (blen body) ->
  fst (Packet_read ft f max) = fst (Packet_read ft (f ++ rest) max).
Proof.
  intros Hf Hok Hm. apply bytes_ok_app in Hok. destruct Hok as [Hfo Hr].
  assert (Hb : bytes_ok body). { destruct Hf as (lb & -> & _). bok. }
  rewrite <- (app_nil_r f) at 1. rewrite !(framed_read ft max byte1 body) by (auto; constructor). reflexivity.
Qed.

(** Asking for more leaves the stream alone. *)
Lemma no_false_alarm_waits ft max s n s' : bytes_ok s -> no_false_alarm ft max s ->
  Packet_read ft s max = (Err (InsufficientBytes n), s') -> s' = s.
Proof.
  intros Hs Ha E. destruct (C04_nothing_or_one_frame ft max s _ _ Hs E) as [[-> _]|(b & body & f & -> & Hf & Hm)]; [reflexivity|].
  exfalso. apply (Ha [] f s' n); [reflexivity|constructor|exists b, body; exact Hf|].
  rewrite (framed_unlimited ft max b body f s') by assumption. rewrite E. reflexivity.
Qed.

(** Draining a beginning of the stream. *)
Lemma drains_prefix ft max s ps e rest : drains ft max s ps e rest -> forall t,
  bytes_ok s -> bytes_ok t -> no_false_alarm ft max s ->
  ((forall n, e <> InsufficientBytes n) -> drains ft max (s ++ t) ps e (rest ++ t))
  /\ (forall n, e = InsufficientBytes n ->
        exists fs, s = concat fs ++ rest /\ Forall is_frame fs /\
        forall ps' e' rest', drains ft max (rest ++ t) ps' e' rest' -> drains ft max (s ++ t) (ps ++ ps') e' rest').
Proof.
  intros Hd. induction Hd as [s e rest E|s p s1 ps e rest E Hd IH]; intros t Hs Ht Ha.
  - split.
    + intros Hn. apply drains_stop. apply C07_later_bytes_do_not_matter; auto.
      intros [n X]. injection X as ->. exfalso. apply (Hn n). reflexivity.
    + intros n ->. assert (rest = s) as -> by (eapply no_false_alarm_waits; eassumption).
      exists []. repeat split; auto.
  - destruct (C04_ok_one_frame ft max s p s1 Hs E) as (f & Es & Hf & _). rewrite Es in *.
    assert (H1 : bytes_ok s1) by (apply bytes_ok_app in Hs; tauto).
    pose proof (no_false_alarm_suffix ft max f s1 Hf Ha) as Ha1.
    destruct (IH t H1 Ht Ha1) as [IH1 IH2].
    assert (E' : Packet_read ft ((f ++ s1) ++ t) max = (Ok p, s1 ++ t)).
    { apply C07_later_bytes_do_not_matter; auto. intros [n X]. discriminate. }
    split.
    + intros Hn. eapply drains_packet; [exact E'|]. apply IH1. exact Hn.
    + intros n Hn. destruct (IH2 n Hn) as (fs & -> & Hfs & Hall). exists (f :: fs). split; [|split; [constructor; assumption|]].
      * cbn [concat]. rewrite <- app_assoc. reflexivity.
      * intros ps' e' rest' Hd'. cbn [app]. eapply drains_packet; [exact E'|]. apply Hall. exact Hd'.
Qed.

Lemma concat_ok cs : Forall bytes_ok cs -> bytes_ok (concat cs).
Proof. induction 1; cbn [concat]; [constructor|]. apply bytes_ok_app. auto. Qed.
Lemma no_false_alarm_suffixes ft max fs s : Forall is_frame fs -> no_false_alarm ft max (concat fs ++ s) -> no_false_alarm ft max s.
Proof.
  induction 1 as [|f fs Hf Hfs IH]; intros Ha; [exact Ha|]. cbn [concat] in Ha. rewrite <- app_assoc in Ha.
  apply IH. eapply no_false_alarm_suffix; eassumption.
Qed.

(** Receiving in chunks is reading everything at once. *)
Theorem C08_chunks_are_read_as_one_stream ft max chunks : forall buf,
  bytes_ok buf -> Forall bytes_ok chunks -> no_false_alarm ft max (buf ++ concat chunks) ->
  forall ps e rest,
  receives ft max buf chunks ps e rest <-> drains ft max (buf ++ concat chunks) ps e rest.
Proof.
  induction chunks as [|c cs IH]; intros buf Hb Hcs Ha ps e rest.
  - cbn [concat] in *. rewrite app_nil_r in *. split.
    + intros H. inversion H; subst; [assumption|]. cbn [concat]. rewrite app_nil_r. assumption.
    + intros H. destruct e; try (rewrite <- (app_nil_r rest); apply (receives_fail ft max buf [] ps); [exact H|discriminate]).
      eapply receives_end. exact H.
  - apply Forall_cons_iff in Hcs. destruct Hcs as [Hc Hcs]. cbn [concat] in *.
    pose proof (concat_ok _ Hcs) as Hcc.
    assert (Htail : bytes_ok (c ++ concat cs)) by (bok).
    pose proof (no_false_alarm_prefix _ _ _ _ Ha) as Hab.
    split.
    + intros H. inversion H as [|buf0 c0 cs0 ps1 n buf' ps2 e0 rest0 Hd Hrec|buf0 cs0 ps1 e0 buf' Hd Hne]; subst.
      * destruct (drains_prefix ft max buf ps1 _ buf' Hd (c ++ concat cs) Hb Htail Hab) as [_ X].
        destruct (X n eq_refl) as (fs & -> & Hfs & Hall). apply Hall.
        rewrite <- !app_assoc in Ha. pose proof (no_false_alarm_suffixes _ _ _ _ Hfs Ha) as Ha'.
        rewrite app_assoc in *. apply IH; try assumption. apply bytes_ok_app in Hb. bok; tauto.
      * destruct (drains_prefix ft max buf ps _ buf' Hd (c ++ concat cs) Hb Htail Hab) as [X _].
        cbn [concat]. apply X. exact Hne.
    + intros H. destruct (drains_total ft max buf Hb) as (ps1 & e1 & buf' & Hd & Hb').
      destruct (drains_prefix ft max buf ps1 e1 buf' Hd (c ++ concat cs) Hb Htail Hab) as [X1 X2].
      destruct (match e1 with InsufficientBytes n => Some n | _ => None end) as [n|] eqn:En.
      * assert (e1 = InsufficientBytes n) as -> by (destruct e1; try discriminate; congruence).
        destruct (X2 n eq_refl) as (fs & -> & Hfs & Hall).
        rewrite <- !app_assoc in Ha. pose proof (no_false_alarm_suffixes _ _ _ _ Hfs Ha) as Ha'.
        assert (Hbc : bytes_ok (buf' ++ c ++ concat cs)) by (bok).
        destruct (drains_total ft max _ Hbc) as (ps2 & e2 & rest2 & Hd2 & _).
        pose proof (Hall _ _ _ Hd2) as Hd3. destruct (drains_det _ _ _ _ _ _ _ _ _ H Hd3) as (-> & -> & ->).
        eapply receives_chunk; [exact Hd|]. rewrite app_assoc in *. apply IH; try assumption. bok.
      * assert (Hne : forall n, e1 <> InsufficientBytes n) by (intros n ->; discriminate).
        destruct (drains_det _ _ _ _ _ _ _ _ _ H (X1 Hne)) as (-> & -> & ->).
        apply (receives_fail ft max buf (c :: cs)); assumption.
Qed.

(** Hence two ways of cutting the same stream into chunks give the same packets, the same final
    error and the same bytes left over (and there always is such a result). *)
Theorem C08_chunking_does_not_matter ft max chunks1 chunks2 :
  Forall bytes_ok chunks1 -> Forall bytes_ok chunks2 -> concat chunks1 = concat chunks2 ->
  no_false_alarm ft max (concat chunks1) ->
  exists ps e rest,
    (forall ps' e' rest', receives ft max [] chunks1 ps' e' rest' <-> (ps' = ps /\ e' = e /\ rest' = rest))
    /\ (forall ps' e' rest', receives ft max [] chunks2 ps' e' rest' <-> (ps' = ps /\ e' = e /\ rest' = rest)).
Proof.
  intros H1 H2 E Ha. destruct (drains_total ft max (concat chunks1) (concat_ok _ H1)) as (ps & e & rest & Hd & _).
  exists ps, e, rest.
  assert (X : forall cs, Forall bytes_ok cs -> concat cs = concat chunks1 -> forall ps' e' rest',
      receives ft max [] cs ps' e' rest' <-> (ps' = ps /\ e' = e /\ rest' = rest)).
  { intros cs Hcs Ec ps' e' rest'. rewrite C08_chunks_are_read_as_one_stream; [|constructor|exact Hcs|].
    - cbn [app]. rewrite Ec. split; [intros Hd'|intros (-> & -> & ->); exact Hd].
      exact (drains_det _ _ _ _ _ _ _ _ _ Hd' Hd).
    - cbn [app]. rewrite Ec. exact Ha. }
  split; apply X; auto.
Qed.

Lemma frames_split fs1 : forall fs2 t1 t2, Forall is_frame fs1 -> Forall is_frame fs2 ->
  bytes_ok (concat fs1 ++ t1) -> concat fs1 ++ t1 = concat fs2 ++ t2 ->
  (exists more, fs1 = fs2 ++ more /\ t2 = concat more ++ t1) \/ (exists more, fs2 = fs1 ++ more /\ t1 = concat more ++ t2).
Proof.
  induction fs1 as [|f fs1 IH]; intros fs2 t1 t2 H1 H2 Hok E.
  - right. exists fs2. auto.
  - destruct fs2 as [|g fs2]; [left; exists (f :: fs1); auto|].
    apply Forall_cons_iff in H1. destruct H1 as [Hf H1]. apply Forall_cons_iff in H2. destruct H2 as [Hg H2].
    cbn [concat] in *. rewrite <- !app_assoc in *.
    assert (Efg : f = g /\ concat fs1 ++ t1 = concat fs2 ++ t2).
    { pose proof Hok as Hok2. rewrite E in Hok2.
      destruct Hf as (b1 & body1 & lb1 & -> & W1). destruct Hg as (b2 & body2 & lb2 & -> & W2).
      cbn [app] in *. rewrite <- !app_assoc in *. injection E as Eb E. subst b2.
      apply bytes_ok_cons in Hok. destruct Hok as [_ Hok]. apply bytes_ok_app in Hok. destruct Hok as [_ Hok].
      apply bytes_ok_cons in Hok2. destruct Hok2 as [_ Hok2]. apply bytes_ok_app in Hok2. destruct Hok2 as [_ Hok2].
      destruct (varint_prefix_unique _ _ _ _ _ _ W1 W2 Hok Hok2 E) as (Ev & El & Er).
      subst lb2. apply blen_app_inv_tail in Er; [|exact Ev]. destruct Er as [-> ->]. auto. }
    destruct Efg as [-> E']. apply bytes_ok_app in Hok. destruct Hok as [_ Hok].
    destruct (IH fs2 t1 t2 H1 H2 Hok E') as [(more & -> & ->)|(more & -> & ->)];
      [left|right]; exists more; auto.
Qed.

(** The proviso of the two theorems above holds in particular for every stream of frames that
    decode, followed by an unfinished one. *)
Lemma decodable_stream_no_false_alarm ft max fs tail :
  Forall (fun f => is_frame f /\ bytes_ok f /\ forall n, fst (Packet_read ft f max) <> Err (InsufficientBytes n)) fs ->
  bytes_ok tail -> (forall f rest, is_frame f -> tail <> f ++ rest) ->
  no_false_alarm ft max (concat fs ++ tail).
Proof.
  intros Hfs Ht Hno gs g t n E Hgs Hg.
  assert (F1 : Forall is_frame fs) by (eapply Forall_impl; [|exact Hfs]; cbn; tauto).
  assert (F2 : Forall is_frame (gs ++ [g])) by (apply Forall_app; split; [assumption|constructor; [assumption|constructor]]).
  assert (Hok : bytes_ok (concat fs ++ tail)).
  { apply bytes_ok_app. split; [|exact Ht]. apply concat_ok. eapply Forall_impl; [|exact Hfs]; cbn; tauto. }
  assert (E' : concat fs ++ tail = concat (gs ++ [g]) ++ t).
  { rewrite concat_app. cbn [concat]. rewrite app_nil_r, <- app_assoc. exact E. }
  destruct (frames_split fs (gs ++ [g]) tail t F1 F2 Hok E') as [(more & -> & _)|(more & Em & ->)].
  - rewrite <- app_assoc in Hfs. apply Forall_app in Hfs. destruct Hfs as [_ Hfs]. apply Forall_cons_iff in Hfs.
    destruct Hfs as [(_ & _ & Hfs) _]. apply Hfs.
  - destruct more as [|m more].
    + rewrite app_nil_r in Em. subst fs. apply Forall_app in Hfs. destruct Hfs as [_ Hfs]. apply Forall_cons_iff in Hfs.
      destruct Hfs as [(_ & _ & Hfs) _]. apply Hfs.
    + exfalso. cbn [concat] in Hno. rewrite <- app_assoc in Hno. eapply Hno; [|reflexivity].
      assert (In m (gs ++ [g])) by (rewrite Em; apply in_or_app; right; left; reflexivity).
      eapply Forall_forall; [exact F2|exact H].
Qed.

Lemma survives_frame ft p : survives ft p -> is_frame (encode p) /\ bytes_ok (encode p)
  /\ forall max n, fst (Packet_read ft (encode p) max) <> Err (InsufficientBytes n).
Proof.
  intros (Hr & He & Hs). split; [do 2 eexists; apply encode_framed; exact He|]. split; [eapply encode_bytes_ok; eassumption|].
  intros max n H. pose proof (encode_bytes_ok ft p Hr He) as Hok.
  destruct (Packet_read ft (encode p) max) as [r s'] eqn:E. cbn [fst] in H. subst r.
  destruct (encodable_body _ He) as [_ Hn].
  pose proof (read_outcome ft (encode p) max Hok) as O. rewrite E in O. rewrite encode_split in O.
  pose proof (varint_is_wire _ Hn) as W.
  pose proof (body_bytes_ok ft p Hr (proj1 (encodable_body _ He))) as Hbok.
  destruct (exceeds max (blen (fields_bytes (body_fields p)))) eqn:X.
  - rewrite encode_split, (read_over ft (first_byte p) _ _ _ max W Hbok X) in E. destruct max; discriminate.
  - apply within_exceeds in X. pose proof (encode_read ft p [] max Hr He Hs bytes_ok_nil X) as R.
    rewrite app_nil_r, E in R. discriminate.
Qed.

(** End to end: whatever sequence of packets that survive a round trip a peer writes, and however
    the transport cuts the bytes into chunks, the receive loop delivers exactly these packets (in
    normal form), in order, and nothing is left over. *)
Theorem C08_any_chunking_delivers_the_packets ft ps chunks :
  Forall (survives ft) ps -> Forall (fun p => is_connect p = false) (tl ps) ->
  write_all ps [] = (Ok tt, concat chunks) ->
  forall ps' e rest,
  receives ft None [] chunks ps' e rest
  <-> (ps' = map normalize ps /\ e = InsufficientBytes 2 /\ rest = []).
Proof.
  intros Hs Hc Ew ps' e rest.
  pose proof (write_all_first ft ps Hs Hc) as Ew'. rewrite Ew' in Ew. apply (f_equal snd) in Ew. cbn [snd] in Ew.
  assert (Hok : bytes_ok (concat chunks)).
  { rewrite <- Ew. apply concat_ok. rewrite Forall_map. eapply Forall_impl; [|exact Hs]. intros p Hp. apply (survives_frame ft). exact Hp. }
  assert (Hcs : Forall bytes_ok chunks).
  { clear -Hok. induction chunks as [|c cs IH]; [constructor|]. cbn [concat] in Hok. apply bytes_ok_app in Hok.
    constructor; [tauto|apply IH; tauto]. }
  assert (Ha : no_false_alarm ft None ([] ++ concat chunks)).
  { cbn [app]. rewrite <- Ew, <- (app_nil_r (concat (map encode ps))). apply decodable_stream_no_false_alarm.
    - rewrite Forall_map. eapply Forall_impl; [|exact Hs]. intros p Hp.
      destruct (survives_frame ft p Hp) as (A & B & C). repeat split; auto.
    - constructor.
    - intros f r Hf E. symmetry in E. apply app_eq_nil in E. destruct E as [-> _]. apply frame_not_nil in Hf. congruence. }
  rewrite (C08_chunks_are_read_as_one_stream ft None chunks [] bytes_ok_nil Hcs Ha). cbn [app].
  destruct (C02_pipelined_packets_in_order ft ps Hs Hc) as (out & Ew2 & Hd).
  rewrite Ew' in Ew2. apply (f_equal snd) in Ew2. cbn [snd] in Ew2. subst out. rewrite Ew in Hd.
  split.
  - intros Hd'. apply (drains_det _ _ _ _ _ _ _ _ _ Hd' Hd).
  - intros (-> & -> & ->). exact Hd.
Qed.
(** The stream of all sample packets received byte by byte. *)
Example C08_instance ft :
  receives ft None [] (map (fun b => [b]) (snd (write_all samples []))) samples (InsufficientBytes 2) [].
Proof.
  assert (C : forall l : bytes, concat (map (fun b => [b]) l) = l)
    by (intros l; induction l as [|b l IH]; [reflexivity|exact (f_equal (cons b) IH)]).
  assert (E : fst (write_all samples []) = Ok tt) by (vm_compute; reflexivity).
  apply (C08_any_chunking_delivers_the_packets ft samples).
  - apply Forall_forall. intros p Hp. split; [|split].
    + exact (proj1 (Forall_forall _ _) (samples_rust ft) p Hp).
    + exact (proj1 (Forall_forall _ _) samples_encodable p Hp).
    + exact (proj1 (Forall_forall _ _) samples_safe p Hp).
  - repeat constructor.
  - rewrite C, <- E. apply surjective_pairing.
  - split; [symmetry; exact samples_normal|split; reflexivity].
Qed.

(** Without the proviso chunking matters: the five bytes E0 01 80 C0 00 (a DISCONNECT with a
    reason and no property length, which MQTT 5 allows, then a PINGREQ) received at once yield
    nothing and leave the PINGREQ unread; received as 3 + 2 bytes they yield the PINGREQ. *)
Theorem C08_chunking_matters_refuted ft :
  receives ft None [] [[224; 1; 128; 192; 0]] [] (InsufficientBytes 1) [192; 0]
  /\ receives ft None [] [[224; 1; 128]; [192; 0]] [P_PingReq] (InsufficientBytes 2) [].
Proof.
  split.
  - eapply (receives_chunk ft None [] [224; 1; 128; 192; 0] [] [] 2 []).
    + apply drains_stop. reflexivity.
    + apply receives_end. apply drains_stop. destruct ft; reflexivity.
  - eapply (receives_chunk ft None [] [224; 1; 128] [[192; 0]] [] 2 []).
    + apply drains_stop. reflexivity.
    + eapply (receives_chunk ft None _ [192; 0] [] [] 1 []).
      * apply drains_stop. destruct ft; reflexivity.
      * apply receives_end. eapply drains_packet; [destruct ft; reflexivity|]. apply drains_stop. reflexivity.
Qed.
