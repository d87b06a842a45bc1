(** Streams that were cut off or damaged, as a file of packets after a crash or a line with bit
    errors (C68). *)
From Verif Require Import Types Model Spec Wire Sites Faults Driver PBase PVarint PUtf8 PRead PItems PProps PFrame PWire PTotal
  PWrite PRound PBack PFaults TFraming TWrite TRound TDriver TProps TStream Samples.
Import Faults.
Ltac Zify.zify_post_hook ::= Z.div_mod_to_equations.

(** ** Cut off *)

Lemma cut_in_two (x y k l : bytes) : x ++ y = k ++ l ->
  (exists t, k = x ++ t /\ y = t ++ l) \/ (exists t, t <> [] /\ x = k ++ t /\ l = t ++ y).
Proof.
  revert k. induction x as [|a x IH]; intros k E; cbn [app] in E.
  - left. exists k. auto.
  - destruct k as [|b k]; cbn [app] in E.
    + right. exists (a :: x). split; [discriminate|]. auto.
    + injection E as <- E. destruct (IH k E) as [(t & -> & ->)|(t & Ht & -> & ->)].
      * left. exists t. auto.
      * right. exists t. auto.
Qed.
(** Packets were written one after the other and only the beginning [kept] of the bytes is still
    there.  Whatever the place of the cut, reading from [kept] gives exactly the packets whose
    bytes are all there, then asks for more, leaving the bytes of the packet that was cut; and
    what is before these bytes is what writing the packets read gives, so that a writer that
    drops them can go on as if the rest had never been written. *)
Theorem C68_cut_anywhere ft ps kept lost :
  Forall (survives ft) ps -> Forall (fun p => is_connect p = false) (tl ps) ->
  write_all ps [] = (Ok tt, kept ++ lost) ->
  exists whole others saved left n,
    ps = whole ++ others /\ kept = saved ++ left
    /\ drains ft None kept (map normalize whole) (InsufficientBytes n) left
    /\ write_all whole [] = (Ok tt, saved)
    /\ match others with
       | [] => left = [] /\ lost = []
       | p :: _ => exists missing, missing <> [] /\ Packet_write p [] = (Ok (blen (left ++ missing)), left ++ missing)
                     /\ (left <> [] -> n <= blen missing)
       end
    /\ forall qs e rest, drains ft None kept qs e rest ->
         qs = map normalize whole /\ e = InsufficientBytes n /\ rest = left.
Proof.
  intros Hs Hc Ew. rewrite (write_all_first ft ps Hs Hc) in Ew. apply (f_equal snd) in Ew. cbn [snd] in Ew.
  assert (X : exists whole others left n, ps = whole ++ others /\ kept = concat (map encode whole) ++ left
            /\ drains ft None kept (map normalize whole) (InsufficientBytes n) left
            /\ match others with
               | [] => left = [] /\ lost = []
               | p :: _ => exists missing, missing <> [] /\ encode p = left ++ missing /\ (left <> [] -> n <= blen missing)
               end).
  { clear Hc. revert kept Ew. induction Hs as [|p ps Hp Hs IH]; intros kept Ew; cbn [map concat] in Ew.
    - symmetry in Ew. apply app_eq_nil in Ew. destruct Ew as [-> ->]. exists [], [], [], 2.
      repeat split; auto. constructor. reflexivity.
    - pose proof (survives_ok ft ps Hs) as Hok. destruct (survives_frame ft p Hp) as (Hf & Hpok & _).
      destruct (cut_in_two _ _ _ _ Ew) as [(t & -> & E)|(t & Ht & E & El)].
      + destruct (IH t E) as (whole & others & left & n & -> & Et & Hd & Ho).
        exists (p :: whole), others, left, n. cbn [map concat app]. rewrite <- app_assoc, <- Et.
        split; [reflexivity|]. split; [reflexivity|]. split; [|exact Ho].
        eapply drains_packet; [|exact Hd]. destruct Hp as (Hr & He & Hsf). apply (encode_read ft); try assumption; [|exact I].
        rewrite E in Hok. apply bytes_ok_app in Hok. apply Hok.
      + destruct (encodable_body _ (proj1 (proj2 Hp))) as [_ Hn]. pose proof (encode_framed p (proj1 (proj2 Hp))) as F.
        rewrite E in F, Hpok.
        destruct kept as [|b k].
        * exists [], (p :: ps), [], 2. repeat split; auto; [constructor; reflexivity|]. exists t. split; [exact Ht|]. split; [exact E|]. congruence.
        * destruct (C05_incomplete_asks_for_more ft None (first_byte p) _ (b :: k) t F Hpok Ht (fun _ => I)) as (n & R & [_ Hb] & _).
          exists [], (p :: ps), (b :: k), n. cbn [map concat app]. repeat split; auto; [constructor; exact R|].
          exists t. split; [exact Ht|]. split; [exact E|]. auto. }
  destruct X as (whole & others & left & n & -> & -> & Hd & Ho).
  exists whole, others, (concat (map encode whole)), left, n. apply Forall_app in Hs. destruct Hs as [Hw Hs].
  repeat split; auto.
  - apply (write_all_first ft); [exact Hw|]. destruct whole; [constructor|]. cbn [app tl] in *. apply Forall_app in Hc. apply Hc.
  - destruct others as [|p others]; [exact Ho|]. destruct Ho as (missing & Hm & E & Hn). exists missing.
    split; [exact Hm|]. split; [|exact Hn]. rewrite <- E. apply (survives_write p [] ft); [|auto].
    apply Forall_cons_iff in Hs. apply Hs.
  - exact (proj1 (drains_det _ _ _ _ _ _ _ _ _ H Hd)).
  - exact (proj1 (proj2 (drains_det _ _ _ _ _ _ _ _ _ H Hd))).
  - exact (proj2 (proj2 (drains_det _ _ _ _ _ _ _ _ _ H Hd))).
Qed.
(** Three packets, the last cut off in its packet identifier. *)
Example C68_cut_instance ft :
  let ps := [P_PingReq; P_PubRec (mkPubRec 7 PRR_Success None); P_PubRec (mkPubRec 8 PRR_Success None)] in
  Forall (survives ft) ps /\ Forall (fun p => is_connect p = false) (tl ps)
  /\ write_all ps [] = (Ok tt, [192; 0; 80; 2; 0; 7; 80; 2; 0] ++ [8])
  /\ drains ft None [192; 0; 80; 2; 0; 7; 80; 2; 0] [P_PingReq; P_PubRec (mkPubRec 7 PRR_Success None)] (InsufficientBytes 1) [80; 2; 0].
Proof.
  cbn zeta.
  assert (S : forall p, In p [P_PingReq; P_PubRec (mkPubRec 7 PRR_Success None); P_PubRec (mkPubRec 8 PRR_Success None)] -> survives ft p).
  { intros p H. cbn [In] in H. destruct H as [<-|[<-|[<-|[]]]]; (split; [|split; [apply first_error_forall; reflexivity|reflexivity]]);
      cbn [rust_packet pr_pkid]; try exact I; (split; [reflexivity|constructor]). }
  split; [apply Forall_forall; exact S|]. split; [repeat constructor|]. split; [reflexivity|].
  eapply drains_packet; [destruct ft; reflexivity|]. eapply drains_packet; [destruct ft; reflexivity|].
  apply drains_stop. destruct ft; reflexivity.
Qed.

(** ** Damaged *)

(** [d] has arrived instead of the frame [f]: the length field is intact and no byte was lost or
    added; the first byte and the body may be anything. *)
Definition same_length_field (f d : bytes) : Prop :=
  exists b b' lb body body', f = b :: lb ++ body /\ d = b' :: lb ++ body' /\ blen body' = blen body
    /\ varint_wire (blen body) lb.

(** What may be read for the packet [p], written as [f], if [d] has arrived: the packet if there
    is no damage; otherwise an error or some packet, of the kind of [p] if the high half of the
    first byte is intact. *)
Definition confined (p : Packet) (fd : bytes * bytes) (r : res Packet) : Prop :=
  (fst fd = snd fd -> r = Ok (normalize p))
  /\ (forall q, r = Ok q -> hd 0 (fst fd) / 16 = hd 0 (snd fd) / 16 -> kind_number q = kind_number p).

Lemma confined_read ft p d : survives ft p -> same_length_field (encode p) d -> bytes_ok d ->
  limited_frame None d /\ confined p (encode p, d) (fst (Packet_read ft d None)).
Proof.
  intros Hp (b & b' & lb & body & body' & E & -> & Hl & Hw) Hok. split.
  - exists b', body'. split; [|exact I]. exists lb. rewrite Hl. auto.
  - split; cbn [fst snd].
    + intros <-. destruct Hp as (Hr & He & Hs).
      pose proof (encode_read ft p [] None Hr He Hs bytes_ok_nil I) as R. rewrite app_nil_r in R. rewrite R. reflexivity.
    + intros q Hq Hh. destruct (Packet_read ft (b' :: lb ++ body') None) as [r s] eqn:R. cbn [fst] in Hq. subst r.
      apply C33_kind_follows_first_byte in R; [|exact Hok]. rewrite R.
      destruct Hp as (Hr & He & Hs).
      pose proof (encode_read ft p [] None Hr He Hs bytes_ok_nil I) as R'. rewrite app_nil_r in R'.
      rewrite E in R', Hh. apply C33_kind_follows_first_byte in R'.
      * cbn [hd] in Hh. rewrite <- Hh, <- R'. destruct p; reflexivity.
      * rewrite <- E. eapply encode_bytes_ok; eassumption.
Qed.

(** A stream of packets is damaged in any number of frames, in any bytes but the length fields.
    Then as many calls of Packet::read as there are packets consume exactly the damaged frames;
    every packet whose frame is intact is read as it was sent, wherever the damage is, and what
    is read for a damaged frame is an error or, unless the type in the first byte is hit, a
    packet of the same kind.  There is no other outcome. *)
Theorem C68_damage_is_confined ft ps frames damaged tail :
  Forall (survives ft) ps -> Forall (fun p => is_connect p = false) (tl ps) ->
  Forall2 (fun p f => snd (Packet_write p []) = f) ps frames ->
  Forall2 same_length_field frames damaged -> bytes_ok (concat damaged ++ tail) ->
  write_all ps [] = (Ok tt, concat frames)
  /\ exists rs, read_times ft None (concat damaged ++ tail) rs tail
       /\ Forall2 (fun '(p, fd) r => confined p fd r) (combine ps (combine frames damaged)) rs
       /\ length rs = length ps
       /\ forall rs' rest, read_times ft None (concat damaged ++ tail) rs' rest -> length rs' = length ps ->
            rs' = rs /\ rest = tail.
Proof.
  intros Hs Hc Hw Hd Hok.
  assert (Ef : frames = map encode ps).
  { clear -Hs Hw. induction Hw as [|p f ps fs E Hw IH]; [reflexivity|]. apply Forall_cons_iff in Hs. destruct Hs as [Hp Hs].
    cbn [map]. rewrite (IH Hs), <- E, (survives_write p [] ft Hp) by auto. reflexivity. }
  subst frames. clear Hw. split; [apply (write_all_first ft); assumption|].
  assert (L : length damaged = length ps).
  { rewrite <- (map_length encode ps). clear -Hd. induction Hd; cbn [length]; congruence. }
  assert (X : Forall (limited_frame None) damaged
            /\ Forall2 (fun '(p, fd) r => confined p fd r) (combine ps (combine (map encode ps) damaged))
                 (map (fun f => fst (Packet_read ft f None)) damaged)).
  { apply bytes_ok_app in Hok. destruct Hok as [Hok _]. clear Hc L. revert damaged Hd Hok.
    induction Hs as [|p ps Hp Hs IH]; intros damaged Hd Hok; cbn [map] in Hd; inversion Hd as [|f d fs ds H1 H2]; subst.
    - split; constructor.
    - cbn [concat] in Hok. apply bytes_ok_app in Hok. destruct Hok as [Hok1 Hok2].
      destruct (IH _ H2 Hok2) as [A B]. destruct (confined_read ft p d Hp H1 Hok1) as [C D].
      split; [constructor; assumption|]. cbn [map combine]. constructor; assumption. }
  destruct X as [A B]. destruct (C47_frames_are_independent ft None damaged tail A Hok) as [R U].
  eexists. split; [exact R|]. split; [exact B|]. split; [rewrite map_length; exact L|].
  intros rs' rest H1 H2. apply (U rs' rest H1). congruence.
Qed.
(** A PUBLISH between two packets, with a damaged topic length: the PUBLISH is lost, nothing else. *)
Example C68_damage_instance ft :
  let p := P_Publish (mkPublish false AtMostOnce false [97] 0 [9; 9] None) in
  let ps := [P_PingReq; p; P_PingResp] in
  let frames := [[192; 0]; [48; 6; 0; 1; 97; 0; 9; 9]; [208; 0]] in
  let damaged := [[192; 0]; [48; 6; 0; 65; 97; 0; 9; 9]; [208; 0]] in
  Forall2 (fun p f => snd (Packet_write p []) = f) ps frames
  /\ Forall2 same_length_field frames damaged
  /\ read_times ft None (concat damaged ++ [7]) [Ok P_PingReq; Err (BoundaryCrossed 65); Ok P_PingResp] [7].
Proof.
  cbn zeta. split; [repeat constructor|].
  assert (W : forall n, n <= 127 -> varint_wire n [n]).
  { intros n H. pose proof (varint_is_wire n) as W. unfold max_varint in W. specialize (W ltac:(lia)).
    unfold varint in W. rewrite (proj2 (N.ltb_lt n 128)) in W by lia. exact W. }
  split.
  - constructor; [|constructor; [|constructor; [|constructor]]].
    + exists 192, 192, [0], [], []. split; [reflexivity|]. split; [reflexivity|]. split; [reflexivity|]. apply (W 0). lia.
    + exists 48, 48, [6], [0; 1; 97; 0; 9; 9], [0; 65; 97; 0; 9; 9]. split; [reflexivity|]. split; [reflexivity|]. split; [reflexivity|]. apply (W 6). lia.
    + exists 208, 208, [0], [], []. split; [reflexivity|]. split; [reflexivity|]. split; [reflexivity|]. apply (W 0). lia.
  - eapply read_times_once; [destruct ft; reflexivity|]. eapply read_times_once; [destruct ft; reflexivity|].
    eapply read_times_once; [destruct ft; reflexivity|]. constructor.
Qed.
(** A damaged length field is not confined: 2 for 0 in a PINGREQ hides the packet behind it. *)
Theorem C68_length_field_refuted ft :
  write_all [P_PingReq; P_PingResp; P_PingReq] [] = (Ok tt, [192; 0; 208; 0; 192; 0])
  /\ read_times ft None [192; 2; 208; 0; 192; 0] [Ok P_PingReq; Ok P_PingReq; Err (InsufficientBytes 2)] [].
Proof.
  split; [reflexivity|].
  eapply read_times_once; [destruct ft; reflexivity|]. eapply read_times_once; [destruct ft; reflexivity|].
  eapply read_times_once; [destruct ft; reflexivity|]. constructor.
Qed.
