(** Two ends built with different string features (C69). *)
From Verif Require Import Types Model Spec Wire Sites Faults Content Driver PBase PVarint PUtf8 PRead PItems PProps PFrame PWire PTotal
  PWrite PRound PBack PFaults TFraming TWrite TRound TDriver TBack TProps TStream TStandard Samples.
Import Faults.

Definition utf8_only (p : Packet) : Prop := Forall utf8 (packet_texts p).
Lemma utf8_only_dec p : utf8_only p \/ ~ utf8_only p.
Proof.
  unfold utf8_only. induction (packet_texts p) as [|s l IH]; [left; constructor|].
  destruct (utf8_dec s) as [U|U]; [|right; intros H; inversion H; contradiction].
  destruct IH as [IH|IH]; [left; constructor; assumption|right; intros H; inversion H; contradiction].
Qed.

Lemma items_text_iff ft l : items_ok ft l <-> items_ok F_binary l /\ (ft <> F_binary -> Forall utf8 (items_texts l)).
Proof.
  assert (B : forall s, text ft s <-> text F_binary s /\ (ft <> F_binary -> utf8 s)).
  { intros s. unfold text. destruct ft; intuition congruence. }
  unfold items_ok, items_texts. induction l as [|[n v] l IH]; cbn [flat_map snd].
  - split; [intros _; split; [constructor|intros _; constructor]|intros _; constructor].
  - rewrite !Forall_cons_iff, IH, Forall_app. cbn [snd].
    destruct v; cbn [value_ok value_texts]; rewrite ?B, ?Forall_cons_iff; intuition.
Qed.
Lemma text_iff ft s : text ft s <-> text F_binary s /\ (ft <> F_binary -> utf8 s).
Proof. unfold text. destruct ft; intuition congruence. Qed.
Lemma texts_iff ft l : Forall (text ft) l <-> Forall (text F_binary) l /\ (ft <> F_binary -> Forall utf8 l).
Proof. induction l as [|s l IH]; rewrite ?Forall_cons_iff, ?IH, ?(text_iff ft); [intuition|]. intuition; try (constructor; auto). all: inversion H0; auto. Qed.

(** What the value of a packet type can be in a build: the same in all but the text fields, which
    hold well-formed UTF-8 unless binary_string is selected. *)
Lemma rust_packet_iff ft p : rust_packet ft p <-> rust_packet F_binary p /\ (ft <> F_binary -> utf8_only p).
Proof.
  unfold utf8_only. split.
  - intros H. split; [|intros Hft; apply packet_text in H; eapply Forall_impl; [|exact H]; intros x [_ X]; destruct ft; congruence].
    destruct p as [c w l|a|p|a| | |s|a|a|a|a|u|a|d]; cbn [rust_packet] in *; rewrite ?(items_text_iff ft), ?(text_iff ft) in H; try tauto.
    + destruct H as (H1 & [H2 _] & [H3 _] & H4 & H5). repeat (split; [assumption|]). split.
      * intros w' E. destruct (H4 w' E) as (A & B & C). apply items_text_iff in C. tauto.
      * intros l' E. destruct (H5 l' E) as (A & B). apply text_iff in A, B. tauto.
    + destruct H as (H1 & H2 & H3). repeat split; try tauto. eapply Forall_impl; [|exact H3]. intros f X. apply text_iff in X. tauto.
    + destruct H as (H1 & H2 & H3). repeat split; try tauto. apply texts_iff in H3. tauto.
  - intros [H U].
    destruct p as [c w l|a|p|a| | |s|a|a|a|a|u|a|d]; cbn [rust_packet packet_texts] in *; rewrite ?(items_text_iff ft), ?(text_iff ft); try tauto.
    + destruct H as (H1 & H2 & H3 & H4 & H5). rewrite Forall_cons_iff, !Forall_app in U.
      split; [tauto|]. split; [tauto|]. split; [tauto|]. split.
      * intros w' E. destruct (H4 w' E) as (A & B & C). split; [exact A|]. split; [exact B|]. apply items_text_iff. split; [exact C|].
        intros Hft. destruct (U Hft) as (_ & _ & X & _). subst w. exact X.
      * intros l' E. destruct (H5 l' E) as (A & B). rewrite !(text_iff ft).
        split; (split; [assumption|]); intros Hft; destruct (U Hft) as (_ & _ & _ & X); subst l; rewrite !Forall_cons_iff in X; tauto.
    + rewrite Forall_cons_iff in U. tauto.
    + destruct H as (H1 & H2 & H3). rewrite Forall_app in U. repeat split; try tauto.
      rewrite Forall_map in U. apply Forall_forall. intros f Hf. apply text_iff. split.
      * exact (proj1 (Forall_forall _ _) H3 f Hf).
      * intros Hft. exact (proj1 (Forall_forall _ _) (proj2 (U Hft)) f Hf).
    + destruct H as (H1 & H2 & H3). rewrite Forall_app in U. repeat split; try tauto. apply texts_iff. tauto.
Qed.

Lemma utf8_only_normal p : utf8_only (normalize p) -> rust_packet F_binary p -> utf8_only p.
Proof.
  assert (D : forall A (f : A -> list item) o, items_texts (opt_items f (drop_empty f o)) = items_texts (opt_items f o)).
  { intros A f [a|]; [|reflexivity]. cbn [drop_empty]. destruct (f a) eqn:E; cbn [nonempty opt_items]; rewrite ?E; reflexivity. }
  assert (U0 : utf8 []) by (exists []; split; [constructor|reflexivity]).
  intros H _. unfold utf8_only in *.
  destruct p as [c w l|a|p|a| | |s|a|a|a|a|u|a|d]; cbn [normalize packet_texts] in *;
    cbn [co_keep_alive co_client_id co_clean_start co_properties ck_session_present ck_code ck_properties
         pu_dup pu_qos pu_retain pu_topic pu_pkid pu_payload pu_properties pa_pkid pa_reason pa_properties
         pr_pkid pr_reason pr_properties pl_pkid pl_reason pl_properties pc_pkid pc_reason pc_properties
         su_pkid su_filters su_properties sa_pkid sa_return_codes sa_properties un_pkid un_filters un_properties
         ua_pkid ua_reasons ua_properties di_reason_code di_properties] in H; rewrite ?D in H; try exact H.
  rewrite Forall_cons_iff, !Forall_app in H |- *. destruct H as (H1 & H2 & H3 & H4). repeat split; auto.
  - destruct w as [w|]; [|constructor]. cbn [option_map normalize_will lw_properties] in H3. rewrite D in H3. exact H3.
  - destruct l as [[us pw]|]; [|constructor]. cbn [normalize_login lo_username lo_password] in *.
    destruct us as [|x us], pw as [|y pw]; cbn [nonempty orb lo_username lo_password] in H4; try exact H4.
    repeat constructor; exact U0.
Qed.

(** ** C69 *)

(** A build whose strings are texts can make no packet that a binary_string build could not hold,
    and a packet of a binary_string build can be held by the others exactly if its text fields are
    well-formed UTF-8. *)
Theorem C69_values_of_the_builds ft p :
  rust_packet ft p <-> rust_packet F_binary p /\ (ft <> F_binary -> Forall utf8 (packet_texts p)).
Proof. apply rust_packet_iff. Qed.

(** Whatever build wrote a packet that survives its own round trip: a build that can hold the
    packet reads it as if it had written it itself, and any other rejects it with TopicNotUtf8,
    taking exactly its frame. *)
Theorem C69_builds_interoperate writer reader p rest max :
  rust_packet writer p -> encodable p -> roundtrip_safe p = true ->
  bytes_ok rest -> within max (body_size p) ->
  exists n out, Packet_write p [] = (Ok n, out)
    /\ (reader = F_binary \/ Forall utf8 (packet_texts p) -> Packet_read reader (out ++ rest) max = (Ok (normalize p), rest))
    /\ (reader <> F_binary -> ~ Forall utf8 (packet_texts p) -> Packet_read reader (out ++ rest) max = (Err TopicNotUtf8, rest)).
Proof.
  intros Hr He Hs Hok Hm. apply rust_packet_iff in Hr. destruct Hr as [Hr _].
  exists (blen (encode p)), (encode p). split.
  { apply (survives_write p [] F_binary); [repeat split; assumption|auto]. }
  split.
  - intros H. apply encode_read; auto. apply rust_packet_iff. split; [exact Hr|]. intros Hn. destruct H as [H|H]; [contradiction|exact H].
  - intros Hn Hu. apply (C22_ill_formed_string_rejected reader max _ (normalize p) rest Hn).
    + apply bytes_ok_app. split; [eapply encode_bytes_ok; eassumption|assumption].
    + apply encode_read; auto.
    + intros U. apply Hu. apply utf8_only_normal; assumption.
Qed.
(** So every packet of a build whose strings are texts is delivered to every build. *)
Theorem C69_texts_reach_every_build writer reader p rest max :
  writer <> F_binary -> rust_packet writer p -> encodable p -> roundtrip_safe p = true ->
  bytes_ok rest -> within max (body_size p) ->
  exists n out, Packet_write p [] = (Ok n, out) /\ Packet_read reader (out ++ rest) max = (Ok (normalize p), rest).
Proof.
  intros Hw Hr He Hs Hok Hm. destruct (C69_builds_interoperate writer reader p rest max Hr He Hs Hok Hm) as (n & out & E & R & _).
  exists n, out. split; [exact E|]. apply R. right. apply rust_packet_iff in Hr. apply Hr. exact Hw.
Qed.

(** The same for streams: a packet the reading build cannot hold is lost alone. *)
Theorem C69_streams_across_builds writer reader ps tail :
  Forall (survives writer) ps -> Forall (fun p => is_connect p = false) (tl ps) -> bytes_ok tail ->
  exists out rs, write_all ps [] = (Ok tt, out)
    /\ read_times reader None (out ++ tail) rs tail
    /\ Forall2 (fun p r => (reader = F_binary \/ Forall utf8 (packet_texts p) -> r = Ok (normalize p))
                        /\ (reader <> F_binary -> ~ Forall utf8 (packet_texts p) -> r = Err TopicNotUtf8)) ps rs.
Proof.
  intros Hs Hc Ht. rewrite (write_all_first writer ps Hs Hc).
  assert (X : exists rs, read_times reader None (concat (map encode ps) ++ tail) rs tail
    /\ Forall2 (fun p r => (reader = F_binary \/ Forall utf8 (packet_texts p) -> r = Ok (normalize p))
                        /\ (reader <> F_binary -> ~ Forall utf8 (packet_texts p) -> r = Err TopicNotUtf8)) ps rs).
  { clear Hc. induction Hs as [|p ps Hp Hs (rs & IH1 & IH2)].
    - exists []. split; constructor.
    - pose proof (survives_ok writer ps Hs) as Hok. destruct Hp as (Hr & He & Hsf).
      assert (Ho : bytes_ok (concat (map encode ps) ++ tail)) by (apply bytes_ok_app; auto).
      destruct (C69_builds_interoperate writer reader p _ None Hr He Hsf Ho I) as (n & out & E & R1 & R2).
      rewrite (survives_write p [] writer) in E by (auto; repeat split; assumption). injection E as _ <-. cbn [app] in *.
      destruct (utf8_only_dec p) as [U|U].
      + exists (Ok (normalize p) :: rs). cbn [map concat]. rewrite <- app_assoc.
        split; [eapply read_times_once; [apply R1; auto|exact IH1]|]. constructor; [|exact IH2]. split; [reflexivity|]. intros _ X. contradiction.
      + destruct ((ltac:(destruct reader; ((left; reflexivity) || (right; discriminate)))) : reader = F_binary \/ reader <> F_binary) as [Hb|Hb].
        * exists (Ok (normalize p) :: rs). cbn [map concat]. rewrite <- app_assoc.
          split; [eapply read_times_once; [apply R1; auto|exact IH1]|]. constructor; [|exact IH2]. split; [reflexivity|]. intros X. contradiction.
        * exists (Err TopicNotUtf8 :: rs). cbn [map concat]. rewrite <- app_assoc.
          split; [eapply read_times_once; [apply R2; auto|exact IH1]|]. constructor; [|exact IH2]. split; [|reflexivity].
          intros [X|X]; contradiction. }
  destruct X as (rs & A & B). exists (concat (map encode ps)), rs. auto.
Qed.
(** A binary_string build writes a PINGREQ, a PUBLISH with the topic FF (no UTF-8) and a PINGRESP. *)
Example C69_stream_instance :
  let p := P_Publish (mkPublish false AtMostOnce false [255] 0 [7] None) in
  let ps := [P_PingReq; p; P_PingResp] in
  Forall (survives F_binary) ps /\ Forall (fun p => is_connect p = false) (tl ps)
  /\ write_all ps [] = (Ok tt, [192; 0; 48; 5; 0; 1; 255; 0; 7; 208; 0])
  /\ read_times F_default None ([192; 0; 48; 5; 0; 1; 255; 0; 7; 208; 0] ++ [9]) [Ok P_PingReq; Err TopicNotUtf8; Ok P_PingResp] [9]
  /\ read_times F_binary None ([192; 0; 48; 5; 0; 1; 255; 0; 7; 208; 0] ++ [9]) [Ok P_PingReq; Ok p; Ok P_PingResp] [9].
Proof.
  cbn zeta. split; [|split; [repeat constructor|split; [reflexivity|split]]].
  - repeat (apply Forall_cons || apply Forall_nil);
      (split; [|split; [apply first_error_forall; reflexivity|reflexivity]]); cbn [rust_packet pu_topic pu_pkid pu_payload pu_properties]; try exact I.
    split; [split; [repeat constructor|exact I]|]. split; [reflexivity|]. split; [repeat constructor|constructor].
  - eapply read_times_once; [reflexivity|]. eapply read_times_once; [reflexivity|]. eapply read_times_once; [reflexivity|]. constructor.
  - eapply read_times_once; [reflexivity|]. eapply read_times_once; [reflexivity|]. eapply read_times_once; [reflexivity|]. constructor.
Qed.
(** A text beyond ASCII (the Euro sign) written by one text build and read by the others. *)
Example C69_texts_instance reader :
  let p := P_Publish (mkPublish false AtMostOnce false [226; 130; 172] 0 [] None) in
  rust_packet F_boxed p /\ encodable p /\ roundtrip_safe p = true
  /\ Packet_write p [] = (Ok 8, [48; 6; 0; 3; 226; 130; 172; 0])
  /\ Packet_read reader ([48; 6; 0; 3; 226; 130; 172; 0] ++ [1]) None = (Ok p, [1]).
Proof.
  cbn zeta. split; [|split; [apply first_error_forall; reflexivity|split; [reflexivity|split; [reflexivity|destruct reader; reflexivity]]]].
  cbn [rust_packet pu_topic pu_pkid pu_payload pu_properties]. split; [split; [repeat constructor|]|].
  - exists [8364]. split; [repeat constructor|reflexivity].
  - split; [reflexivity|]. split; constructor.
Qed.
