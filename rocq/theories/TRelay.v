(** A relay reads packets and writes them again (C55). *)
From Verif Require Import Types Model Spec Wire Driver PBase PVarint PRead PItems PProps PFrame PWire PWrite PTotal PRound PBack.
From Verif Require Import TFraming TWrite TRound TDriver TBack TStream Samples.
Ltac Zify.zify_post_hook ::= Z.div_mod_to_equations.

(** ** C55 *)

(** The relay: Packet::read until it returns an error; each packet is written into a buffer of its
    own and sent on.  What was sent, the error and what is left of the input. *)
Inductive relays (ft : feature) (max : option N) : bytes -> bytes -> error -> bytes -> Prop :=
| relays_stop s e rest : Packet_read ft s max = (Err e, rest) -> relays ft max s [] e rest
| relays_packet s p s' n f out e rest :
    Packet_read ft s max = (Ok p, s') -> Packet_write p [] = (Ok n, f) ->
    relays ft max s' out e rest ->
    relays ft max s (f ++ out) e rest.

(** An acknowledgement of success with properties that are present but empty: it is written with
    a reason code and a property length of 0, and comes back without properties. *)
Definition wordy (p : Packet) : bool :=
  let empty {A} (items : A -> list item) (o : option A) :=
    match o with Some q => negb (nonempty (items q)) | None => false end in
  match p with
  | P_PubAck a => (puback_code (pa_reason a) =? 0) && empty PubAckProperties_items (pa_properties a)
  | P_PubRec a => (pubrec_code (pr_reason a) =? 0) && empty PubRecProperties_items (pr_properties a)
  | P_PubRel a => (pubrel_code (pl_reason a) =? 0) && empty PubRelProperties_items (pl_properties a)
  | P_PubComp a => (pubcomp_code (pc_reason a) =? 0) && empty PubCompProperties_items (pc_properties a)
  | _ => false
  end.

Lemma drop_empty_items {A} (items : A -> list item) o : opt_items items (drop_empty items o) = opt_items items o.
Proof. destruct o as [q|]; [|reflexivity]. cbn [drop_empty]. destruct (items q) eqn:E; cbn [nonempty opt_items]; congruence. Qed.
Lemma drop_empty_none {A} (items : A -> list item) o :
  match o with Some q => negb (nonempty (items q)) | None => false end = false -> is_none (drop_empty items o) = is_none o.
Proof. destruct o as [q|]; [|reflexivity]. cbn [drop_empty]. destruct (nonempty (items q)); [reflexivity|discriminate]. Qed.
Lemma ack_normal {A} (items : A -> list item) pkid code o :
  (code =? 0) && match o with Some q => negb (nonempty (items q)) | None => false end = false ->
  ack_fields pkid code (is_none (drop_empty items o)) (opt_items items (drop_empty items o))
  = ack_fields pkid code (is_none o) (opt_items items o).
Proof.
  intros H. rewrite drop_empty_items. unfold ack_fields. destruct (code =? 0); [|reflexivity].
  rewrite drop_empty_none by exact H. reflexivity.
Qed.
Lemma will_normal w : will_fields (option_map normalize_will w) = will_fields w.
Proof. destruct w as [w|]; [|reflexivity]. cbn [option_map will_fields normalize_will lw_properties lw_topic lw_message]. rewrite drop_empty_items. reflexivity. Qed.
Lemma login_normal l : login_fields (normalize_login l) = login_fields l.
Proof.
  destruct l as [l|]; [|reflexivity]. cbn [normalize_login].
  destruct (nonempty (lo_username l)) eqn:E1, (nonempty (lo_password l)) eqn:E2; cbn [orb]; try reflexivity.
  cbn [login_fields]. rewrite E1, E2. reflexivity.
Qed.
Lemma flags_normal cs w l : connect_flags cs (option_map normalize_will w) (normalize_login l) = connect_flags cs w l.
Proof.
  unfold connect_flags. destruct w as [w|]; cbn [option_map normalize_will lw_qos lw_retain];
    (destruct l as [l|]; [|reflexivity]; cbn [normalize_login];
     destruct (nonempty (lo_username l)) eqn:E1, (nonempty (lo_password l)) eqn:E2; cbn [orb]; try reflexivity;
     rewrite ?E1, ?E2; cbn [bit]; lia).
Qed.

Lemma first_byte_normal p : first_byte (normalize p) = first_byte p.
Proof. destruct p; reflexivity. Qed.
Lemma fields_normal p : wordy p = false -> packet_fields (normalize p) = packet_fields p.
Proof.
  intros H. unfold packet_fields. rewrite first_byte_normal. f_equal.
  destruct p as [c w l|a|p|a| | |s|a|a|a|a|u|a|d]; cbn [wordy] in H; cbn [normalize body_fields];
      cbn [co_keep_alive co_client_id co_clean_start co_properties ck_session_present ck_code ck_properties
         pu_dup pu_qos pu_retain pu_topic pu_pkid pu_payload pu_properties pa_pkid pa_reason pa_properties
         pr_pkid pr_reason pr_properties pl_pkid pl_reason pl_properties pc_pkid pc_reason pc_properties
         su_pkid su_filters su_properties sa_pkid sa_return_codes sa_properties un_pkid un_filters un_properties
         ua_pkid ua_reasons ua_properties di_reason_code di_properties];
      try (apply ack_normal; exact H); try rewrite drop_empty_items; try reflexivity.
  - unfold connect_fields. cbn [co_keep_alive co_client_id co_clean_start co_properties].
    rewrite drop_empty_items, will_normal, login_normal, flags_normal. reflexivity.
  - destruct (pu_qos p); reflexivity.
Qed.
Lemma encode_normal p : wordy p = false -> encode (normalize p) = encode p.
Proof. intros H. unfold encode. rewrite fields_normal by exact H. reflexivity. Qed.

(** A wordy packet and its normal form, byte by byte. *)
Definition ack_head (p : Packet) : N * N :=
  match p with
  | P_PubAck a => (64, pa_pkid a) | P_PubRec a => (80, pr_pkid a)
  | P_PubRel a => (98, pl_pkid a) | P_PubComp a => (112, pc_pkid a)
  | _ => (0, 0)
  end.
Lemma wordy_shapes p : wordy p = true ->
  packet_fields p = frame_fields (fst (ack_head p)) [FTwo (snd (ack_head p)); FByte 0; FVar 0] /\
  packet_fields (normalize p) = frame_fields (fst (ack_head p)) [FTwo (snd (ack_head p))].
Proof.
  intros H.
  destruct p as [c w l|a|p|a| | |s|a|a|a|a|u|a|d]; try discriminate; cbn [wordy] in H;
    apply andb_prop in H; destruct H as [Hc H]; destruct a as [k r [q|]]; try discriminate;
    cbn [pa_reason pr_reason pl_reason pc_reason] in Hc;
    cbn [pa_properties pr_properties pl_properties pc_properties] in H;
    (split; unfold packet_fields; cbn [first_byte body_fields normalize ack_head fst snd
       pa_pkid pa_reason pa_properties pr_pkid pr_reason pr_properties pl_pkid pl_reason pl_properties pc_pkid pc_reason pc_properties
       drop_empty opt_items is_none]; [|apply negb_true_iff in H; rewrite H]; f_equal; unfold ack_fields; apply N.eqb_eq in Hc; rewrite Hc;
       [cbn [N.eqb andb is_none opt_items]|reflexivity]).
  all: match goal with |- context [section_fields ?l] => destruct l end; try discriminate; reflexivity.
Qed.
Lemma bad_normal p : bad_disconnect (normalize p) = bad_disconnect p.
Proof. destruct p; try reflexivity. cbn [normalize bad_disconnect di_reason_code di_properties]. rewrite drop_empty_items. reflexivity. Qed.
Lemma safe_normal p : publish_safe p = true -> publish_safe (normalize p) = true.
Proof.
  destruct p; try reflexivity. cbn [normalize publish_safe pu_properties]. destruct (pu_properties p) as [q|]; [|reflexivity].
  cbn [drop_empty]. intros H. destruct (nonempty _); [exact H|reflexivity].
Qed.
Lemma survives_normal ft p : survives ft p -> survives ft (normalize p).
Proof.
  intros (Hr & He & Hsf).
  assert (Hok : bytes_ok (encode p)) by (eapply encode_bytes_ok; eassumption).
  assert (E : Packet_read ft (encode p ++ []) None = (Ok (normalize p), [])) by (apply encode_read; try assumption; [constructor|exact I]).
  rewrite app_nil_r in E. destruct (C31_decoded_is_normal _ _ _ _ _ Hok E) as (Hrn & Hnm & Hl & Hli).
  split; [exact Hrn|]. split.
  - unfold encodable in *. destruct (wordy p) eqn:Hw; [|rewrite fields_normal by exact Hw; exact He].
    destruct (wordy_shapes p Hw) as [E1 E2]. rewrite E1 in He. rewrite E2. unfold frame_fields in *.
    inversion He as [|? ? _ He1]; subst. inversion He1 as [|? ? _ He2]; subst. inversion He2 as [|? ? H2 _]; subst.
    repeat (constructor; try reflexivity). 
  - unfold roundtrip_safe in *. rewrite !andb_true_iff, !negb_true_iff in *. rewrite bad_normal. destruct Hsf as [[[H1 H2] H3] H4].
    rewrite Hl, Hli. repeat split; auto. apply safe_normal. exact H3.
Qed.

Lemma relay_own ft ps fs tail out e rest :
  Forall (survives ft) ps -> Forall2 (fun p f => exists n, Packet_write p [] = (Ok n, f)) ps fs ->
  bytes_ok tail -> relays ft None tail out e rest ->
  bytes_ok (concat fs ++ tail) /\
  relays ft None (concat fs ++ tail) (concat (map (fun p => encode (normalize p)) ps) ++ out) e rest.
Proof.
  intros Hs H Ht Hd. induction H as [|p f ps fs [n Hf] H IH]; [auto|].
  apply Forall_cons_iff in Hs. destruct Hs as [Hp Hs]. destruct (IH Hs) as [Hok Hrel].
  assert (f = encode p) as ->.
  { rewrite (survives_write p [] ft Hp) in Hf by auto. injection Hf as _ <-. reflexivity. }
  cbn [concat map]. rewrite <- !app_assoc. split.
  - apply bytes_ok_app. split; [|exact Hok]. destruct Hp as (Hr & He & _). eapply encode_bytes_ok; eassumption.
  - apply (relays_packet ft None _ (normalize p) (concat fs ++ tail) (blen (encode (normalize p)))); [| |exact Hrel].
    + destruct Hp as (Hr & He & Hsf). apply encode_read; try assumption. exact I.
    + rewrite (survives_write _ [] ft) by auto using survives_normal. reflexivity.
Qed.

Lemma relays_end ft max : relays ft max [] [] (InsufficientBytes 2) [].
Proof. constructor. destruct ft, max; reflexivity. Qed.

(** What this crate has written passes through a relay unchanged, byte for byte. *)
Theorem C55_own_bytes_unchanged ft ps fs :
  Forall (survives ft) ps -> Forall (fun p => wordy p = false) ps ->
  Forall2 (fun p f => exists n, Packet_write p [] = (Ok n, f)) ps fs ->
  relays ft None (concat fs) (concat fs) (InsufficientBytes 2) [].
Proof.
  intros Hs Hw H. destruct (relay_own ft ps fs [] [] (InsufficientBytes 2) [] Hs H) as [_ Hr]; [constructor|apply relays_end|].
  rewrite !app_nil_r in Hr.
  assert (concat (map (fun p => encode (normalize p)) ps) = concat fs) as E; [|rewrite E in Hr; exact Hr].
  clear Hr. induction H as [|p f ps fs [n Hf] H IH]; [reflexivity|].
  apply Forall_cons_iff in Hs. destruct Hs as [Hp Hs]. apply Forall_cons_iff in Hw. destruct Hw as [Hwp Hw].
  cbn [map concat]. rewrite IH, encode_normal by assumption. f_equal.
  rewrite (survives_write p [] ft Hp) in Hf by auto. injection Hf as _ <-. reflexivity.
Qed.
(** The exception: an acknowledgement of success whose properties are present but empty is
    written in 6 bytes and leaves the relay as the 4 bytes that mean the same. *)
Theorem C55_wordy_ack_shrinks ft p n f :
  survives ft p -> wordy p = true -> Packet_write p [] = (Ok n, f) ->
  exists t hi lo, f = [t; 4; hi; lo; 0; 0] /\ relays ft None f [t; 2; hi; lo] (InsufficientBytes 2) [].
Proof.
  intros Hs Hw Hf. destruct (wordy_shapes p Hw) as [E1 E2].
  destruct (relay_own ft [p] [f] [] [] (InsufficientBytes 2) []) as [_ Hr];
    [auto|constructor; [eauto|constructor]|constructor|apply relays_end|].
  cbn [concat map] in Hr. rewrite !app_nil_r in Hr.
  rewrite (survives_write p [] ft Hs) in Hf by auto. injection Hf as _ <-.
  unfold encode in Hr |- *. rewrite E1, E2 in *.
  exists (fst (ack_head p)), (snd (ack_head p) / 256), (snd (ack_head p) mod 256).
  split; [reflexivity|]. cbn [app] in Hr. exact Hr.
Qed.

(** Whatever the relay read, however it was spelled: the receiver behind it reads the same
    packets, and a second relay behind the first changes nothing any more. *)
Theorem C55_next_hop_sees_the_same ft max s out ps e rest e' rest' :
  bytes_ok s -> relays ft max s out e rest -> drains ft max s ps e' rest' ->
  Forall (fun p => bad_disconnect p = false /\ publish_safe p = true) ps ->
  e' = e /\ rest' = rest /\
  drains ft None out ps (InsufficientBytes 2) [] /\
  relays ft None out out (InsufficientBytes 2) [].
Proof.
  intros Hs Hr. revert ps e' rest'.
  assert (X : forall ps e' rest', drains ft max s ps e' rest' ->
    Forall (fun p => bad_disconnect p = false /\ publish_safe p = true) ps ->
    e' = e /\ rest' = rest /\ Forall (survives ft) ps /\ map normalize ps = ps /\ out = concat (map encode ps)).
  { induction Hr as [s e rest E|s p s1 n f out e rest E Ew Hr IH]; intros ps e' rest' Hd Hf.
    - inversion Hd; subst; [|congruence].
      assert (X : (Err e, rest) = (@Err Packet e', rest')) by congruence. injection X as -> ->. cbn. auto.
    - inversion Hd as [|? q s2 qs ? ? E' Hd']; subst; [congruence|].
      assert (X : (Ok p, s1) = (Ok q, s2)) by congruence. injection X as <- <-.
      apply Forall_cons_iff in Hf. destruct Hf as [[Hb Hp] Hf].
      destruct (C31_decoded_is_normal _ _ _ _ _ Hs E) as (Hrp & Hnm & Hl & Hli).
      destruct (C13_success_means_encoding p [] n f Ew) as (He & _ & Hfe); [auto|exact Hb|].
      assert (Hs1 : bytes_ok s1).
      { destruct (C04_ok_one_frame _ _ _ _ _ Hs E) as (fr & -> & _). apply bytes_ok_app in Hs. tauto. }
      destruct (IH Hs1 _ _ _ Hd' Hf) as (-> & -> & Hall & Hnms & ->). cbn [map concat]. rewrite Hnm, Hnms.
      repeat split; auto; [|rewrite Hfe; reflexivity].
      constructor; [|exact Hall]. split; [exact Hrp|]. split; [exact He|].
      unfold roundtrip_safe. rewrite Hl, Hli, Hb, Hp. reflexivity. }
  intros ps e' rest' Hd Hf. destruct (X ps e' rest' Hd Hf) as (-> & -> & Hall & Hnm & ->).
  split; [reflexivity|]. split; [reflexivity|]. split.
  - pose proof (drains_encodings ft None ps [] [] (InsufficientBytes 2) []) as D. rewrite !app_nil_r, Hnm in D.
    apply D; [exact Hall|apply Forall_forall; intros; exact I|constructor|apply drains_stop; destruct ft; reflexivity].
  - destruct (relay_own ft ps (map encode ps) [] [] (InsufficientBytes 2) []) as [_ Hr'];
      [exact Hall| |constructor|apply relays_end|].
    + clear -Hall. induction Hall as [|p ps Hp Hall IH]; cbn [map]; constructor; [|exact IH].
      eexists. rewrite (survives_write p [] ft Hp) by auto. reflexivity.
    + rewrite !app_nil_r in Hr'.
      assert (Em : map (fun p => encode (normalize p)) ps = map encode ps) by (rewrite <- (map_map normalize encode), Hnm; reflexivity).
      rewrite Em in Hr'. exact Hr'.
Qed.
(** The relay never gets stuck: it goes through the input as far as the receiver would, if it has a
    size limit of at most 268435453, or the input is no longer than 268435458 bytes. *)
Theorem C55_relay_runs_to_the_end ft max s :
  bytes_ok s -> (exists m, max = Some m /\ m <= 268435453) \/ blen s <= 268435458 ->
  exists out ps e rest, relays ft max s out e rest /\ drains ft max s ps e rest.
Proof.
  intros Hs Hl. destruct (drains_total ft max s Hs) as (ps & e & rest & Hd & _).
  enough (exists out, relays ft max s out e rest) as [out Hr] by eauto 8.
  induction Hd as [s e rest E|s p s1 ps e rest E Hd IH]; [exists []; constructor; exact E|].
  assert (Hw : exists n, fst (Packet_write p []) = Ok n).
  { destruct Hl as [(m & -> & Hm)|Hl]; [eapply C31_limited_can_be_written; eassumption|].
    destruct (C31_decoded_can_be_written _ _ _ _ _ [] Hs E) as [Hw|[_ X]]; [exact Hw|lia]. }
  destruct (C04_ok_one_frame _ _ _ _ _ Hs E) as (fr & -> & _).
  assert (Hs1 : bytes_ok s1) by (apply bytes_ok_app in Hs; tauto).
  assert (Hl1 : (exists m, max = Some m /\ m <= 268435453) \/ blen s1 <= 268435458) by (rewrite blen_app in Hl; destruct Hl; [auto|right; lia]).
  destruct (IH Hs1 Hl1) as [out Hr]. destruct Hw as [n Hn].
  destruct (Packet_write p []) as [r f] eqn:Ew. cbn [fst] in Hn. subst r. exists (f ++ out). econstructor; eassumption.
Qed.
(** All sample packets, written one after the other, pass unchanged. *)
Example C55_instance ft :
  relays ft None (concat (map (fun p => snd (Packet_write p [])) samples))
    (concat (map (fun p => snd (Packet_write p [])) samples)) (InsufficientBytes 2) [].
Proof.
  assert (S : Forall (survives ft) samples).
  { apply Forall_forall. intros p Hp. split; [|split].
    + exact (proj1 (Forall_forall _ _) (samples_rust ft) p Hp).
    + exact (proj1 (Forall_forall _ _) samples_encodable p Hp).
    + exact (proj1 (Forall_forall _ _) samples_safe p Hp). }
  apply (C55_own_bytes_unchanged ft samples); [exact S|repeat (constructor; [reflexivity|]); constructor|].
  induction S as [|p ps Hp S IH]; cbn [map]; constructor; [|exact IH].
  eexists. rewrite (survives_write p [] ft Hp) by auto. reflexivity.
Qed.
(** A PUBLISH in another spelling (C31_instance) and a PINGREQ: the relay sends the crate's own
    spelling; the packets are the same, and that output passes unchanged. *)
Example C55_respelled ft :
  let s := [48; 146; 0; 0; 1; 97; 139; 0; 11; 129; 0; 3; 0; 1; 120; 1; 0; 1; 1; 7; 7; 192; 0; 64] in
  let out := [48; 14; 0; 1; 97; 8; 1; 1; 11; 1; 3; 0; 1; 120; 7; 7; 192; 0] in
  let p := P_Publish (mkPublish false AtMostOnce false [97] 0 [7; 7]
             (Some (mkPublishProperties (Some 1) None None None None [] [1] (Some [120])))) in
  relays ft None s out (InsufficientBytes 1) [64] /\
  drains ft None s [p; P_PingReq] (InsufficientBytes 1) [64] /\
  Forall (fun p => bad_disconnect p = false /\ publish_safe p = true) [p; P_PingReq] /\
  drains ft None out [p; P_PingReq] (InsufficientBytes 2) [] /\
  relays ft None out out (InsufficientBytes 2) [].
Proof.
  intros s out p.
  assert (R : relays ft None s out (InsufficientBytes 1) [64]).
  { apply (relays_packet ft None s p [192; 0; 64] 16 [48; 14; 0; 1; 97; 8; 1; 1; 11; 1; 3; 0; 1; 120; 7; 7] [192; 0]);
      [destruct ft; reflexivity|reflexivity|].
    apply (relays_packet ft None _ P_PingReq [64] 2 [192; 0] []); [destruct ft; reflexivity|reflexivity|].
    constructor. destruct ft; reflexivity. }
  assert (D : drains ft None s [p; P_PingReq] (InsufficientBytes 1) [64]).
  { repeat (eapply drains_packet; [destruct ft; reflexivity|]). apply drains_stop. destruct ft; reflexivity. }
  assert (F : Forall (fun p => bad_disconnect p = false /\ publish_safe p = true) [p; P_PingReq]) by (repeat constructor).
  split; [exact R|]. split; [exact D|]. split; [exact F|].
  assert (Hs : bytes_ok s) by (repeat constructor).
  destruct (C55_next_hop_sees_the_same ft None s out _ _ _ _ _ Hs R D F) as (_ & _ & H1 & H2). auto.
Qed.
(** The acknowledgement of success with empty properties. *)
Example C55_wordy_instance ft :
  let p := P_PubAck (mkPubAck 258 PAR_Success (Some (mkPubAckProperties None []))) in
  survives ft p /\ wordy p = true /\ Packet_write p [] = (Ok 6, [64; 4; 1; 2; 0; 0])
  /\ relays ft None [64; 4; 1; 2; 0; 0] [64; 2; 1; 2] (InsufficientBytes 2) [].
Proof.
  intros p. assert (S : survives ft p) by (repeat split; repeat constructor).
  split; [exact S|]. split; [reflexivity|]. split; [reflexivity|].
  destruct (C55_wordy_ack_shrinks ft p 6 [64; 4; 1; 2; 0; 0]) as (t & hi & lo & E & R); [exact S|reflexivity|reflexivity|].
  injection E as <- <- <-. exact R.
Qed.
(** The condition on DISCONNECT is needed: what the relay sends for one with a reason breaks the
    stream, and the receiver behind it gets neither the DISCONNECT nor what follows. *)
Theorem C55_disconnect_refuted ft :
  drains ft None [224; 2; 139; 0; 192; 0] [P_Disconnect (mkDisconnect DRC_ServerShuttingDown None); P_PingReq] (InsufficientBytes 2) []
  /\ relays ft None [224; 2; 139; 0; 192; 0] [224; 1; 139; 0; 192; 0] (InsufficientBytes 2) []
  /\ drains ft None [224; 1; 139; 0; 192; 0] [] (InsufficientBytes 1) [0; 192; 0].
Proof.
  split; [|split].
  - repeat (eapply drains_packet; [destruct ft; reflexivity|]). apply drains_stop. destruct ft; reflexivity.
  - apply (relays_packet ft None _ (P_Disconnect (mkDisconnect DRC_ServerShuttingDown None)) [192; 0] 3 [224; 1; 139; 0] [192; 0]);
      [destruct ft; reflexivity|reflexivity|].
    apply (relays_packet ft None _ P_PingReq [] 2 [192; 0] []); [destruct ft; reflexivity|reflexivity|].
    apply relays_end.
  - apply drains_stop. destruct ft; reflexivity.
Qed.

(** ** C59 *)

(** A decoded packet takes at most three bytes more when it is written again than the frame it was
    read from, a CONNECT with a will at most four, a ping none. *)
Theorem C59_reencoding_hardly_grows ft max s p rest buf n out :
  bytes_ok s -> Packet_read ft s max = (Ok p, rest) -> Packet_write p buf = (Ok n, out) ->
  blen out - blen buf <= blen s - blen rest + match p with P_Connect _ (Some _) _ => 4 | P_PingReq | P_PingResp => 0 | _ => 3 end.
Proof.
  intros Hs E Ew. destruct (decoded_size _ _ _ _ _ Hs E) as (k & h & [Hr Hnm Hl Hli He Hsz _] & Hn & Hlen & Hk & _ & Hwd).
  destruct (bad_disconnect p) eqn:B.
  - apply bad_disconnect_cases in B. assert (0 <= k) by lia. destruct B as (d & -> & Hrs & [Hp|(q & Hq & Hi)]).
    + rewrite bad_disconnect_none in Ew by assumption. apply (f_equal snd) in Ew. cbn [snd] in Ew. subst out. rewrite blen_app.
      match goal with |- context [blen buf + blen ?x - _] => change (blen x) with 4 end.
      assert (1 <= blen (varint k)); [|lia]. rewrite varint_len. unfold len_len.
      destruct (2097152 <=? k), (16384 <=? k), (128 <=? k); lia.
    + rewrite (bad_disconnect_empty _ _ _ Hq Hi) in Ew. apply (f_equal snd) in Ew. cbn [snd] in Ew. subst out. rewrite blen_app.
      match goal with |- context [blen buf + blen ?x - _] => change (blen x) with 2 end. lia.
  - destruct (written_size _ _ _ _ Ew B) as [Henc En].
    assert (Eo : blen out = blen buf + n).
    { apply (C10_write_returns_growth p buf n out Ew). intros Hbare. destruct p; try contradiction. destruct Hbare as [X Y].
      cbn [bad_disconnect] in B. rewrite Y in B. destruct (di_reason_code d); try discriminate B. apply X. reflexivity. }
    rewrite Eo. unfold encode, packet_fields in En. rewrite frame_size in En.
    assert (G : growth p + 1 = match p with P_Connect _ (Some _) _ => 5 | P_PingReq | P_PingResp => 1 | _ => 3 end)
      by (destruct p as [c [w|] l| | | | | | | | | | | | |]; reflexivity).
    assert (V : forall a b g, g <= 4 -> b <= a + g -> blen (varint b) <= blen (varint a) + 1).
    { intros a b g Hg Hab. rewrite !varint_len. unfold len_len.
      destruct (N.leb_spec 2097152 a); destruct (N.leb_spec 16384 a); destruct (N.leb_spec 128 a);
      destruct (N.leb_spec 2097152 b); destruct (N.leb_spec 16384 b); destruct (N.leb_spec 128 b); lia. }
    specialize (V k _ (growth p) (growth_le p) Hsz).
    destruct p as [c [w|] l| | | | | | | | | | | | |]; try lia.
    + destruct Hwd as [Hwd|[[Hwd _]|[Hw1 Hw2]]]; try lia. clear V.
      assert (V : forall b, b <= k + 4 -> blen (varint b) <= blen (varint k)).
      { intros b Hb. rewrite !varint_len. unfold len_len.
        destruct (N.leb_spec 2097152 k); destruct (N.leb_spec 16384 k); destruct (N.leb_spec 2097152 b);
        destruct (N.leb_spec 16384 b); destruct (N.leb_spec 128 b); lia. }
      specialize (V _ Hsz). lia.
    + cbn [body_fields] in *; change (fields_bytes []) with (@nil N) in *; rewrite blen_nil in *;
      change (blen (varint 0)) with 1 in *; assert (1 <= blen (varint k)); try lia;
      rewrite varint_len; unfold len_len; destruct (2097152 <=? k), (16384 <=? k), (128 <=? k); lia.
    + cbn [body_fields] in *; change (fields_bytes []) with (@nil N) in *; rewrite blen_nil in *;
      change (blen (varint 0)) with 1 in *; assert (1 <= blen (varint k)); try lia;
      rewrite varint_len; unfold len_len; destruct (2097152 <=? k), (16384 <=? k), (128 <=? k); lia.
Qed.
(** All three are reached. A PUBLISH of 2097154 bytes whose properties run over their declared length
    grows by three bytes; a CONNECT with a will of 32797 bytes by four; a ping by none. *)
Definition overrun : bytes := [64; 0] ++ repeat 0 (N.to_nat 16384).
Definition growing_publish : bytes :=
  48 :: [254; 255; 127] ++ [0; 0] ++ (1 :: 9 :: overrun) ++ repeat 7 (N.to_nat 2080760).
Definition growing_connect : bytes :=
  16 :: [153; 128; 2] ++ [0; 4; 77; 81; 84; 84; 5; 6; 0; 10] ++ (1 :: 22 :: overrun) ++ [0; 0]
  ++ (1 :: 9 :: overrun) ++ [0; 1; 97; 0; 0].
Definition sizes (s : bytes) : option (N * N) :=
  match Packet_read F_default s None with
  | (Ok p, []) => match Packet_write p [] with (Ok _, out) => Some (blen s, blen out) | _ => None end
  | _ => None
  end.
Example C59_reached :
  sizes growing_publish = Some (2097154, 2097157) /\ sizes growing_connect = Some (32797, 32801)
  /\ sizes [192; 0] = Some (2, 2).
Proof. split; [|split]; vm_compute; reflexivity. Qed.
