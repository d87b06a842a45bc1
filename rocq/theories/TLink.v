(** C64 and C66: every schedule of a sender, a transport and a receiver; connections one after the other. *)
From Verif Require Import Types MLib Model Spec Wire Driver Link PBase PVarint PRound PFrame PWrite TFraming TWrite TRound TDriver Samples.

Definition pends (ft : feature) (max : option N) (p : Packet) : Prop := survives ft p /\ within max (body_size p).
(** The bytes under way are the encodings of the packets that were sent and not yet read. *)
Definition inv (ft : feature) (max : option N) (s : link) (pending : list Packet) : Prop :=
  map normalize (l_sent s) = l_got s ++ map normalize pending
  /\ Forall (pends ft max) pending
  /\ l_in s ++ l_wire s ++ l_out s = concat (map encode pending).

Lemma app_cases {A} (a b c d : list A) : a ++ b = c ++ d ->
  (exists e, a = c ++ e /\ d = e ++ b) \/ (exists e, e <> [] /\ c = a ++ e /\ b = e ++ d).
Proof.
  revert c. induction a as [|x a IH]; intros c E.
  - destruct c as [|y c]; [left; exists []; split; [reflexivity|symmetry; exact E]|].
    right. exists (y :: c). split; [discriminate|]. split; [reflexivity|exact E].
  - destruct c as [|y c]; [left; exists (x :: a); split; [reflexivity|symmetry; exact E]|].
    cbn in E. injection E as -> E. destruct (IH _ E) as [(e & -> & ->)|(e & N & -> & ->)]; [left|right]; exists e; auto.
Qed.
Lemma pends_ok ft max ps : Forall (pends ft max) ps -> bytes_ok (concat (map encode ps)).
Proof. intros H. eapply survives_ok. eapply Forall_impl; [|exact H]. intros p [S _]. exact S. Qed.

(** What Packet::read makes of the front of the encodings of some packets. *)
Lemma pending_read ft max ps inn more :
  Forall (pends ft max) ps -> inn ++ more = concat (map encode ps) ->
  (exists p ps' rest, ps = p :: ps' /\ inn = encode p ++ rest /\ rest ++ more = concat (map encode ps')
     /\ Packet_read ft inn max = (Ok (normalize p), rest))
  \/ (exists n, Packet_read ft inn max = (Err (InsufficientBytes n), inn) /\ 1 <= n
      /\ (ps = [] /\ inn = [] /\ more = [] \/ more <> [] /\ n <= blen more)).
Proof.
  intros H E. pose proof (pends_ok _ _ _ H) as Hok. rewrite <- E in Hok.
  assert (Hin : bytes_ok inn) by (apply Forall_app in Hok; tauto).
  destruct ps as [|p ps].
  - right. cbn in E. apply app_eq_nil in E. destruct E as [-> ->]. exists 2. split; [reflexivity|]. split; [lia|]. left. auto.
  - apply Forall_cons_iff in H. destruct H as [[(Hr & He & Hs) Hw] H]. cbn [map concat] in E.
    destruct (app_cases _ _ _ _ E) as [(e & Ei & Er)|(e & Ne & Ep & Em)].
    + left. exists p, ps, e. split; [reflexivity|]. split; [exact Ei|]. split; [symmetry; exact Er|]. subst inn.
      apply encode_read; auto. apply Forall_app in Hin. tauto.
    + right. pose proof (encode_framed p He) as F. rewrite Ep in F.
      destruct (C05_incomplete_asks_for_more ft max _ _ inn e F) as (n & R & B & _).
      * rewrite <- Ep. eapply encode_bytes_ok; eassumption.
      * exact Ne.
      * intros _. exact Hw.
      * exists n. split; [exact R|]. split; [lia|]. right. rewrite Em. split; [destruct e; [congruence|discriminate]|].
        rewrite blen_app. lia.
Qed.
Lemma failed_write_undone p buf e buf' : Packet_write p buf = (Err e, buf') -> firstn (length buf) buf' = buf.
Proof.
  intros E. destruct (C15_failed_write_leaves_bytes_refuted _ _ _ _ E) as (app & -> & _).
  rewrite firstn_app, Nat.sub_diag, firstn_all. cbn. apply app_nil_r.
Qed.

Lemma step_inv ft max s t ps : inv ft max s ps -> step ft max s t -> exists qs, inv ft max t qs.
Proof.
  intros (I1 & I2 & I3) S. destruct S as [sent out wire inn got p n out' W M|sent out wire inn got p e out' W|sent piece out wire inn got|sent out piece wire inn got|sent out wire inn got p rest R|sent out wire inn got e rest R];
    unfold inv; cbn [l_sent l_out l_wire l_in l_got] in *.
  - destruct M as (Hr & Hs & Hw & Hc).
    assert (Hb : bad_disconnect p = false) by (unfold roundtrip_safe in Hs; rewrite !andb_true_iff, !negb_true_iff in Hs; tauto).
    destruct (C13_success_means_encoding _ _ _ _ W Hc Hb) as (He & _ & ->).
    exists (ps ++ [p]). rewrite !map_app, concat_app, I1, <- I3. cbn [map concat]. rewrite app_nil_r, !app_assoc. split; [reflexivity|].
    split; [|reflexivity]. apply Forall_app. split; [exact I2|]. constructor; [|constructor]. split; [split; auto|exact Hw].
  - exists ps. rewrite (failed_write_undone _ _ _ _ W). auto.
  - exists ps. rewrite <- app_assoc. auto.
  - exists ps. rewrite <- app_assoc. rewrite <- app_assoc in I3. auto.
  - destruct (pending_read ft max ps inn (wire ++ out) I2 I3) as [(q & qs & r & -> & -> & E & R')|(n & R' & _)]; rewrite R in R'; [|discriminate].
    injection R' as -> ->. exists qs. split; [rewrite I1, <- app_assoc; reflexivity|]. apply Forall_cons_iff in I2. split; [tauto|exact E].
  - destruct (pending_read ft max ps inn (wire ++ out) I2 I3) as [(q & qs & r & -> & -> & E & R')|(n & R' & _)]; rewrite R in R'; [discriminate|].
    injection R' as -> ->. exists ps. auto.
Qed.
Lemma run_inv ft max s : run ft max idle s -> exists ps, inv ft max s ps.
Proof.
  intros H. remember idle as i eqn:E. induction H as [s|s t u H IH S].
  - subst. exists []. split; [reflexivity|]. split; [constructor|reflexivity].
  - destruct (IH E) as [ps I]. eapply step_inv; eassumption.
Qed.

(** In every state that any schedule can reach, the packets read so far are the first of those that
    were written successfully, in normal form and in order: nothing is lost in between, made up,
    doubled or reordered, also when writes fail in between. *)
Theorem C64_received_is_a_beginning_of_sent ft max s :
  run ft max idle s -> exists pending, map normalize (l_sent s) = l_got s ++ pending.
Proof. intros H. destruct (run_inv _ _ _ H) as (ps & I & _). eexists. exact I. Qed.

(** In every such state Packet::read returns either the next packet, or a request for more bytes with
    the buffer left as it is; it makes such a request only when all that was sent has been read or
    when so many bytes are in fact still under way. *)
Theorem C64_read_gives_the_next_packet_or_waits ft max s :
  run ft max idle s ->
  (exists p rest more, Packet_read ft (l_in s) max = (Ok p, rest) /\ map normalize (l_sent s) = l_got s ++ p :: more)
  \/ (exists n, Packet_read ft (l_in s) max = (Err (InsufficientBytes n), l_in s) /\ 1 <= n
      /\ (map normalize (l_sent s) = l_got s /\ l_in s = [] \/ n <= blen (l_wire s) + blen (l_out s))).
Proof.
  intros H. destruct (run_inv _ _ _ H) as (ps & I1 & I2 & I3).
  destruct (pending_read ft max ps _ _ I2 I3) as [(p & qs & r & -> & _ & _ & R)|(n & R & B & C)].
  - left. exists (normalize p), r, (map normalize qs). split; [exact R|exact I1].
  - right. exists n. split; [exact R|]. split; [exact B|]. destruct C as [(-> & E & _)|[_ C]].
    + left. split; [rewrite I1; apply app_nil_r|exact E].
    + right. rewrite <- blen_app. exact C.
Qed.

(** When everything has been handed over and delivered and Packet::read finds no packet any more, all
    packets have been received and no byte is left. *)
Theorem C64_everything_arrives ft max s e rest :
  run ft max idle s -> l_out s = [] -> l_wire s = [] -> Packet_read ft (l_in s) max = (Err e, rest) ->
  l_got s = map normalize (l_sent s) /\ l_in s = [].
Proof.
  intros H Ho Hw R. destruct (C64_read_gives_the_next_packet_or_waits ft max s H) as [(p & r & more & R' & _)|(n & _ & B & [[E I]|C])].
  - rewrite R in R'. discriminate.
  - auto.
  - rewrite Ho, Hw in C. change (n <= 0) in C. lia.
Qed.

Lemma run_trans ft max s t u : run ft max s t -> run ft max t u -> run ft max s u.
Proof. intros H H'. revert H. induction H' as [t|t u v H' IH S]; intros H; [exact H|]. eapply run_more; [apply IH; exact H|exact S]. Qed.
Lemma read_all ft max ps : forall sent inn got,
  Forall (pends ft max) ps -> inn = concat (map encode ps) ->
  run ft max (mkLink sent [] [] inn got) (mkLink sent [] [] [] (got ++ map normalize ps)).
Proof.
  induction ps as [|p ps IH]; intros sent inn got H E.
  - cbn in E. subst. cbn. rewrite app_nil_r. apply run_none.
  - destruct (pending_read ft max (p :: ps) inn [] H) as [(q & qs & r & L & -> & E' & R)|(n & _ & _ & [[X _]|[X _]])]; [rewrite app_nil_r; exact E| |discriminate|congruence].
    injection L as <- <-. eapply run_trans; [eapply run_more; [apply run_none|apply step_read; exact R]|].
    rewrite app_nil_r in E'. subst r. cbn [map].
    replace (got ++ normalize p :: map normalize ps) with ((got ++ [normalize p]) ++ map normalize ps) by (rewrite <- app_assoc; reflexivity).
    apply IH; [apply Forall_cons_iff in H; tauto|reflexivity].
Qed.
(** And no schedule spoils that: from every state that can be reached, handing over, delivering and
    reading the rest receives all packets. *)
Theorem C64_never_stuck ft max s :
  run ft max idle s -> run ft max s (mkLink (l_sent s) [] [] [] (map normalize (l_sent s))).
Proof.
  intros H. destruct (run_inv _ _ _ H) as (ps & I1 & I2 & I3). destruct s as [sent out wire inn got]. cbn [l_sent l_out l_wire l_in l_got] in *.
  apply (run_trans _ _ _ (mkLink sent [] (wire ++ out) inn got)).
  { eapply run_more; [apply run_none|]. rewrite <- (app_nil_r out) at 1. apply step_flush. }
  apply (run_trans _ _ _ (mkLink sent [] [] (inn ++ wire ++ out) got)).
  { eapply run_more; [apply run_none|]. rewrite <- (app_nil_r (wire ++ out)) at 1. apply step_deliver. }
  rewrite I1. apply read_all; assumption.
Qed.

(** Cutting the buffer back is needed: here a PUBLISH without the packet identifier it needs fails to be
    written, then a PINGREQ and a PINGRESP are written; all four bytes are delivered behind what the
    failure left, and the receiver gets neither. *)
Theorem C64_without_truncating_refuted ft :
  exists p left out, Packet_write p [] = (Err PacketIdZero, left)
    /\ write_all [P_PingReq; P_PingResp] left = (Ok tt, out)
    /\ drains ft None out [] (InsufficientBytes 2) out.
Proof.
  exists (P_Publish (mkPublish false AtLeastOnce false [97] 0 (repeat 120 5) None)). do 2 eexists.
  split; [vm_compute; reflexivity|]. split; [vm_compute; reflexivity|].
  apply drains_stop. destruct ft; vm_compute; reflexivity.
Qed.

(** A run: a CONNECT is written and half of it delivered, a PUBLISH fails to be written, a PINGREQ is
    written behind the CONNECT, more is delivered, a reading in between finds too little, then the
    CONNECT is read while the end of the PINGREQ is still in the sender's buffer. *)
Example C64_instance :
  run F_default (Some 200) idle (mkLink [s_connect_plain; P_PingReq] [0] [] [192] [s_connect_plain]).
Proof.
  eapply run_more.
  2:{ apply (step_read _ _ _ _ _ [16; 13; 0; 4; 77; 81; 84; 84; 5; 0; 0; 0; 0; 0; 0; 192] [] s_connect_plain [192]). vm_compute. reflexivity. }
  eapply run_more.
  2:{ apply (step_deliver _ _ _ _ [84; 84; 5; 0; 0; 0; 0; 0; 0; 192] [] [16; 13; 0; 4; 77; 81]). }
  eapply run_more.
  2:{ apply (step_read_fails _ _ _ _ _ [16; 13; 0; 4; 77; 81] _ (InsufficientBytes 9)). vm_compute. reflexivity. }
  eapply run_more.
  2:{ apply (step_deliver _ _ _ _ [16; 13; 0; 4; 77; 81] [84; 84; 5; 0; 0; 0; 0; 0; 0; 192] []). }
  eapply run_more.
  2:{ apply (step_flush _ _ _ [84; 84; 5; 0; 0; 0; 0; 0; 0; 192] [0] [16; 13; 0; 4; 77; 81]). }
  eapply run_more.
  2:{ apply (step_write _ _ [s_connect_plain] [84; 84; 5; 0; 0; 0; 0; 0; 0] _ _ _ P_PingReq 2); [vm_compute; reflexivity|].
      split; [exact I|]. split; [reflexivity|]. split; [vm_compute; discriminate|discriminate]. }
  eapply run_more.
  2:{ apply (step_write_fails _ _ _ [84; 84; 5; 0; 0; 0; 0; 0; 0] _ _ _
        (P_Publish (mkPublish false AtLeastOnce false t_topic 0 [] None)) PacketIdZero ([84; 84; 5; 0; 0; 0; 0; 0; 0] ++ [50; 6; 0; 3; 97; 47; 98])).
      vm_compute. reflexivity. }
  eapply run_more.
  2:{ apply (step_flush _ _ _ [16; 13; 0; 4; 77; 81] [84; 84; 5; 0; 0; 0; 0; 0; 0] []). }
  eapply run_more; [apply run_none|].
  apply (step_write _ _ [] [] _ _ _ s_connect_plain 15); [vm_compute; reflexivity|].
  split; [sample|]. split; [reflexivity|]. split; [vm_compute; discriminate|reflexivity].
Qed.

(** ** C66 *)

Lemma connections_run ft max done s : connections ft max done s -> Forall (run ft max idle) (done ++ [s]).
Proof.
  induction 1 as [|done s t H IH S|done s H IH].
  - repeat constructor.
  - apply Forall_app in IH. destruct IH as [I1 I2]. apply Forall_cons_iff in I2. destruct I2 as [I2 _].
    apply Forall_app. split; [exact I1|]. constructor; [|constructor]. eapply run_more; eassumption.
  - apply Forall_app. split; [exact IH|]. repeat constructor.
Qed.
(** Over any number of connections, each cut at any moment, each connection delivers a beginning of
    what was written during it: what is lost is its end, and nothing crosses from one to the next. *)
Theorem C66_each_connection_delivers_a_beginning ft max done s c :
  connections ft max done s -> In c (done ++ [s]) ->
  exists lost, map normalize (l_sent c) = l_got c ++ lost.
Proof.
  intros H I. apply connections_run in H. rewrite Forall_forall in H.
  apply (C64_received_is_a_beginning_of_sent ft max). apply H. exact I.
Qed.

Lemma sub_app {A} (a b c d : list A) : sub a b -> sub c d -> sub (a ++ c) (b ++ d).
Proof. intros H H'. induction H; cbn; [exact H'|constructor; assumption|constructor; assumption]. Qed.
Lemma sub_none {A} (l : list A) : sub [] l.
Proof. induction l; constructor; assumption. Qed.
Lemma sub_refl {A} (l : list A) : sub l l.
Proof. induction l; constructor; assumption. Qed.
(** So, over all connections, the packets read are packets written, in normal form, in order and each
    at most once. *)
Theorem C66_received_are_some_of_sent ft max done s :
  connections ft max done s -> sub (all_got (done ++ [s])) (map normalize (all_sent (done ++ [s]))).
Proof.
  intros H. apply connections_run in H. unfold all_got, all_sent. induction H as [|c l R H IH]; cbn [flat_map map]; [constructor|].
  rewrite map_app. apply sub_app; [|exact IH].
  destruct (C64_received_is_a_beginning_of_sent ft max c R) as [lost ->].
  rewrite <- (app_nil_r (l_got c)) at 1. apply sub_app; [apply sub_refl|apply sub_none].
Qed.

Lemma connections_go ft max done s t : connections ft max done s -> run ft max s t -> connections ft max done t.
Proof. intros H R. induction R as [u|u t v R IH S]; [exact H|]. eapply conn_step; [apply IH; exact H|exact S]. Qed.
(** However often the connection was cut before, the present one can still deliver everything that was
    written during it: an earlier cut does no harm to it. *)
Theorem C66_a_cut_does_no_later_harm ft max done s :
  connections ft max done s ->
  connections ft max done (mkLink (l_sent s) [] [] [] (map normalize (l_sent s))).
Proof.
  intros H. pose proof (connections_run _ _ _ _ H) as R. apply Forall_app in R. destruct R as [_ R].
  apply Forall_cons_iff in R. destruct R as [R _]. apply C64_never_stuck in R. eapply connections_go; eassumption.
Qed.

(** Both buffers have to be emptied.  If the receiver keeps the beginning of a PUBLISH of the connection
    that was cut, it takes the PINGREQ and PINGRESP of the next for the payload, and returns a packet
    that nobody wrote. *)
Definition cut_publish : Packet := P_Publish (mkPublish false AtMostOnce false [97] 0 (repeat 120 4) None).
Theorem C66_keeping_the_input_refuted ft :
  exists half rest next forged,
    encode cut_publish = half ++ rest /\ write_all [P_PingReq; P_PingResp] [] = (Ok tt, next)
    /\ forged <> cut_publish
    /\ drains ft None (half ++ next) [forged] (InsufficientBytes 2) [].
Proof.
  exists [48; 8; 0; 1; 97; 0], [120; 120; 120; 120], [192; 0; 208; 0],
    (P_Publish (mkPublish false AtMostOnce false [97] 0 [192; 0; 208; 0] None)).
  split; [reflexivity|]. split; [reflexivity|]. split; [discriminate|].
  eapply drains_packet; [destruct ft; vm_compute; reflexivity|]. apply drains_stop. destruct ft; vm_compute; reflexivity.
Qed.
(** If the sender keeps the end of it in its buffer, the receiver takes that for a header. *)
Theorem C66_keeping_the_output_refuted ft :
  exists half rest out,
    encode cut_publish = half ++ rest /\ write_all [P_PingReq; P_PingResp] rest = (Ok tt, out)
    /\ (exists e left, drains ft None out [] e left).
Proof.
  exists [48; 8; 0; 1; 97; 0], [120; 120; 120; 120], [120; 120; 120; 120; 192; 0; 208; 0].
  split; [reflexivity|]. split; [reflexivity|]. do 2 eexists.
  apply drains_stop. destruct ft; vm_compute; reflexivity.
Qed.

(** Two connections: the first is cut with a PINGREQ half delivered, the second delivers a PINGRESP. *)
Example C66_instance :
  connections F_default None [mkLink [P_PingReq] [0] [] [192] []] (mkLink [P_PingResp] [] [] [] [P_PingResp]).
Proof.
  eapply conn_step; [|apply (step_read _ _ _ _ _ [208; 0] [] P_PingResp []); vm_compute; reflexivity].
  eapply conn_step; [|apply (step_deliver _ _ _ _ [208; 0] [] [])].
  eapply conn_step; [|apply (step_flush _ _ _ [208; 0] [] [])].
  eapply conn_step; [|apply (step_write _ _ [] [] _ _ _ P_PingResp 2); [vm_compute; reflexivity|repeat split; discriminate]].
  apply (conn_cut _ _ []).
  eapply conn_step; [|apply (step_deliver _ _ _ _ [192] [] [])].
  eapply conn_step; [|apply (step_flush _ _ _ [192] [0] [])].
  eapply conn_step; [|apply (step_write _ _ [] [] _ _ _ P_PingReq 2); [vm_compute; reflexivity|repeat split; discriminate]].
  apply conn_first.
Qed.
