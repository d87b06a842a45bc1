(** Frames of MQTT 3.1.1 peers (C73): an older client is refused with its protocol level, an older
    server's CONNACK looks unfinished, and apart from acknowledgements, pings and DISCONNECT
    nothing an older peer sends is taken for what it means. *)
From Verif Require Import Types Model Spec Wire Sites Faults Content Older PBase PVarint PUtf8 PRead PItems PProps PFrame PWire PTotal
  PWrite PRound PBack TFraming TFaults TWrite TRound TBack TStandard Samples.

(** ** Frames *)

Lemma frame_ok ft b1 body rest max : b1 < 256 -> bytes_ok body -> bytes_ok rest -> blen body <= max_varint ->
  bytes_ok ((b1 :: varint (blen body) ++ body) ++ rest) /\ framed b1 body (b1 :: varint (blen body) ++ body)
  /\ (within max (blen body) ->
      (forall e, body_faulty ft b1 body e -> Packet_read ft ((b1 :: varint (blen body) ++ body) ++ rest) max = (Err e, rest))
      /\ (forall p, body_wire ft b1 p body -> Packet_read ft ((b1 :: varint (blen body) ++ body) ++ rest) max = (Ok p, rest))).
Proof.
  intros H1 Hb Hr Hl.
  assert (Hs : bytes_ok ((b1 :: varint (blen body) ++ body) ++ rest)).
  { cbn [app]. constructor; [exact H1|]. unfold bytes_ok in *. rewrite !Forall_app. pose proof (varint_byte_ok _ Hl). auto. }
  assert (Hf : framed b1 body (b1 :: varint (blen body) ++ body)) by (exists (varint (blen body)); split; [reflexivity|apply varint_is_wire; exact Hl]).
  split; [exact Hs|]. split; [exact Hf|]. intros Hw. split.
  - intros e F. apply C42_errors_are_the_described_faults; [exact Hs|]. right. exists b1, body, (b1 :: varint (blen body) ++ body). auto.
  - intros p B. apply C37_read_is_the_wire_language; [exact Hs|]. exists b1, body, (b1 :: varint (blen body) ++ body). auto.
Qed.

Lemma u16be_ok n : n < 65536 -> bytes_ok (u16be n).
Proof. intros H. repeat constructor; [apply N.div_lt_upper_bound; lia|apply N.mod_lt; lia]. Qed.
Lemma string3_ok s : bytes_ok s -> blen s <= 65535 -> bytes_ok (string3 s).
Proof. intros H L. unfold string3. apply Forall_app. split; [apply u16be_ok; lia|exact H]. Qed.
Lemma good_string3_ok s : good_string3 s -> bytes_ok (string3 s).
Proof. intros (H & _ & L). apply string3_ok; assumption. Qed.
Lemma good_string3_wire ft s : good_string3 s -> str_wire ft s (string3 s).
Proof.
  intros (H & U & L). split; [split; [exact H|]; destruct ft; auto|]. split; [exact H|]. split; [lia|reflexivity].
Qed.
Lemma flag_le b n : flag b n <= n.
Proof. destruct b; cbn [flag]; lia. Qed.
Lemma first3_byte m : good3 m -> first3 m < 256.
Proof.
  intros [_ G]. destruct m as [| |dup qos retain t i p|[]|?|?|?|?| | |]; cbn [first3]; try lia.
  destruct G as (Q & _). pose proof (flag_le dup 8). pose proof (flag_le retain 1). lia.
Qed.
Lemma flat_ok {A} (g : A -> bytes) l : Forall (fun x => bytes_ok (g x)) l -> bytes_ok (flat_map g l).
Proof. induction 1; cbn [flat_map]; [constructor|]. apply Forall_app. auto. Qed.
Lemma body3_ok m : good3 m -> bytes_ok (body3 m).
Proof.
  intros [_ G]. unfold bytes_ok. destruct m; cbn [body3] in *.
  - destruct G as (K & C & W & U & P). rewrite !Forall_app. split; [vm_compute; repeat constructor|]. split.
    + constructor; [reflexivity|]. constructor; [|constructor]. unfold connect_flags3.
      pose proof (flag_le (present user) 128). pose proof (flag_le (present password) 64). pose proof (flag_le clean 2).
      destruct will as [w|]; [destruct W as (_ & _ & _ & Q); pose proof (flag_le (w3_retain w) 32)|]; lia.
    + split; [apply u16be_ok; exact K|]. split; [apply good_string3_ok; exact C|]. split.
      * destruct will as [w|]; [|constructor]. destruct W as (W1 & W2 & W3 & _). apply Forall_app. split; [apply good_string3_ok; exact W1|apply string3_ok; assumption].
      * split; [destruct user; [apply good_string3_ok; exact U|constructor]|]. destruct password; [apply string3_ok; apply P|constructor].
  - constructor; [destruct session_present; cbn [flag]; lia|]. constructor; [lia|constructor].
  - destruct G as (Q & T & P & I). rewrite !Forall_app. split; [apply good_string3_ok; exact T|]. split; [|exact P].
    destruct (qos =? 0); [constructor|apply u16be_ok; apply I].
  - apply u16be_ok, G.
  - destruct G as (I & _ & F). apply Forall_app. split; [apply u16be_ok, I|]. apply flat_ok. eapply Forall_impl; [|exact F].
    intros f ((S & _) & Q). apply Forall_app. split; [apply good_string3_ok; exact S|]. constructor; [lia|constructor].
  - destruct G as (I & _ & F). apply Forall_app. split; [apply u16be_ok, I|]. eapply Forall_impl; [|exact F]. cbn beta. intros c [Hc| ->]; lia.
  - destruct G as (I & _ & F). apply Forall_app. split; [apply u16be_ok, I|]. apply flat_ok. eapply Forall_impl; [|exact F].
    intros f (S & _). apply good_string3_ok; exact S.
  - apply u16be_ok, G.
  - constructor.
  - constructor.
  - constructor.
Qed.

Lemma frame3_err ft m rest max e : good3 m -> bytes_ok rest -> within max (blen (body3 m)) ->
  body_faulty ft (first3 m) (body3 m) e -> Packet_read ft (frame3 m ++ rest) max = (Err e, rest).
Proof.
  intros G R W F. pose proof (first3_byte m G) as B1. pose proof (body3_ok m G) as B2. destruct G as [L _].
  destruct (frame_ok ft _ _ rest max B1 B2 R L) as (_ & _ & X). apply X; assumption.
Qed.
Lemma frame3_ok ft m rest max p : good3 m -> bytes_ok rest -> within max (blen (body3 m)) ->
  body_wire ft (first3 m) p (body3 m) -> Packet_read ft (frame3 m ++ rest) max = (Ok p, rest).
Proof.
  intros G R W F. pose proof (first3_byte m G) as B1. pose proof (body3_ok m G) as B2. destruct G as [L _].
  destruct (frame_ok ft _ _ rest max B1 B2 R L) as (_ & _ & X). apply X; assumption.
Qed.
(** What is read from such a frame, if anything is. *)
Lemma frame3_inv ft m rest max p rest' : good3 m -> bytes_ok rest -> Packet_read ft (frame3 m ++ rest) max = (Ok p, rest') ->
  rest' = rest /\ within max (blen (body3 m)) /\ body_wire ft (first3 m) p (body3 m).
Proof.
  intros G R E. pose proof (first3_byte m G) as B1. pose proof (body3_ok m G) as B2. pose proof (proj1 G) as L.
  destruct (frame_ok ft _ _ rest max B1 B2 R L) as (Hs & Hf & _). fold (frame3 m) in Hs, Hf.
  pose proof (proj1 (C37_read_is_the_wire_language ft max _ p rest' Hs) E) as (b1 & body & f & E1 & F1 & B & W).
  destruct F1 as (lb & -> & V). destruct Hf as (lb' & E2 & V'). rewrite E2 in E1. cbn [app] in E1. injection E1 as E3 E4.
  rewrite <- !app_assoc in E4. destruct (varint_prefix _ _ _ _ _ _ V' V E4) as (En & -> & E5).
  destruct (blen_app_inv_tail _ _ _ _ E5 En) as [-> ->]. subst b1. auto.
Qed.

(** ** CONNECT *)

Lemma mqtt_is_text ft : str_wire ft mqtt (string3 mqtt).
Proof.
  apply good_string3_wire. split; [repeat constructor|]. split; [|vm_compute; discriminate].
  exists [77; 81; 84; 84]. split; [repeat constructor; left; reflexivity|reflexivity].
Qed.

(** Any other protocol name or level, whatever follows: MQTT 3.1 calls itself "MQIsdp". *)
Theorem C73_other_protocols_are_refused ft name level tail rest max :
  good_string3 name -> bytes_ok (level :: tail) -> bytes_ok rest -> name <> mqtt \/ level <> 5 ->
  let body := string3 name ++ level :: tail in
  blen body <= max_varint -> within max (blen body) ->
  Packet_read ft ((16 :: varint (blen body) ++ body) ++ rest) max
  = (Err (if list_eq_dec N.eq_dec name mqtt then InvalidProtocolLevel level else InvalidProtocol), rest).
Proof.
  intros Hn Ht Hr D body Hl Hw.
  assert (Hb : bytes_ok body) by (apply Forall_app; split; [apply good_string3_ok; exact Hn|exact Ht]).
  destruct (frame_ok ft 16 body rest max eq_refl Hb Hr Hl) as (_ & _ & X). destruct (X Hw) as [X1 _]. apply X1.
  unfold body_faulty. change (16 / 16) with 1. cbn beta iota. right. split; [unfold body, string3, u16be; discriminate|].
  right. exists name, (string3 name), (level :: tail). split; [reflexivity|]. split; [apply good_string3_wire; exact Hn|].
  right. exists level, [level], tail. split; [reflexivity|]. split; [reflexivity|].
  destruct (list_eq_dec N.eq_dec name mqtt) as [E|E].
  - right. split; [exact E|]. left. split; [|reflexivity]. destruct D; [contradiction|assumption].
  - left. auto.
Qed.

Theorem C73_older_clients_are_refused ft clean keep_alive client_id w user password rest max :
  let m := M3_Connect clean keep_alive client_id w user password in
  good3 m -> bytes_ok rest -> within max (blen (body3 m)) ->
  Packet_read ft (frame3 m ++ rest) max = (Err (InvalidProtocolLevel 4), rest).
Proof.
  intros m G R W. apply frame3_err; [exact G|exact R|exact W|]. unfold body_faulty. cbn [first3 m]. change (16 / 16) with 1. cbn beta iota.
  right. split; [discriminate|]. right. eexists mqtt, (string3 mqtt), _. split; [cbn [body3 m]; reflexivity|]. split; [apply mqtt_is_text|].
  right. eexists 4, [4], _. split; [reflexivity|]. split; [reflexivity|]. right. split; [reflexivity|]. left. split; [discriminate|reflexivity].
Qed.

(** ** CONNACK and UNSUBACK: complete, consumed, and yet reported as unfinished *)

Lemma nil_broken : varint_faulty [] (InsufficientBytes 1).
Proof. left. split; [|reflexivity]. split; [reflexivity|constructor]. Qed.

Theorem C73_older_connack_looks_unfinished ft session_present code rest max :
  let m := M3_ConnAck session_present code in
  good3 m -> bytes_ok rest -> within max (blen (body3 m)) ->
  frame3 m = [32; 2; flag session_present 1; code]
  /\ Packet_read ft (frame3 m ++ rest) max = (Err (InsufficientBytes 1), rest).
Proof.
  intros m G R W. split; [reflexivity|]. apply frame3_err; [exact G|exact R|exact W|]. unfold body_faulty. cbn [first3 m].
  change (32 / 16) with 2. cbn beta iota. right. split; [discriminate|]. cbn [body3 m].
  right. eexists _, [_], _. split; [reflexivity|]. split; [reflexivity|]. right. eexists _, [_], []. split; [reflexivity|]. split; [reflexivity|].
  left. left. exact nil_broken.
Qed.
Theorem C73_older_unsuback_looks_unfinished ft id rest max :
  let m := M3_UnsubAck id in
  good3 m -> bytes_ok rest -> within max (blen (body3 m)) ->
  frame3 m = [176; 2; id / 256; id mod 256]
  /\ Packet_read ft (frame3 m ++ rest) max = (Err (InsufficientBytes 1), rest).
Proof.
  intros m G R W. split; [reflexivity|]. apply frame3_err; [exact G|exact R|exact W|]. unfold body_faulty. cbn [first3 m].
  change (176 / 16) with 11. cbn beta iota. right. split; [discriminate|]. cbn [body3 m].
  right. exists id, (u16be id), []. split; [rewrite app_nil_r; reflexivity|]. split; [split; [apply G|reflexivity]|].
  left. left. exact nil_broken.
Qed.

(** ** What both versions write alike *)

Definition same3 (m : message3) : Packet :=
  match m with
  | M3_Ack A3_PubAck id => P_PubAck (mkPubAck id PAR_Success None)
  | M3_Ack A3_PubRec id => P_PubRec (mkPubRec id PRR_Success None)
  | M3_Ack A3_PubRel id => P_PubRel (mkPubRel id PLR_Success None)
  | M3_Ack A3_PubComp id => P_PubComp (mkPubComp id PCR_Success None)
  | M3_PingReq => P_PingReq
  | M3_PingResp => P_PingResp
  | _ => P_Disconnect (mkDisconnect DRC_NormalDisconnection None)
  end.

Theorem C73_common_messages_are_understood ft m rest max :
  common3 m -> good3 m -> bytes_ok rest -> within max (blen (body3 m)) ->
  exists p, Packet_read ft (frame3 m ++ rest) max = (Ok p, rest) /\ means3 p m.
Proof.
  intros C G R W. exists (same3 m). split.
  - apply frame3_ok; [exact G|exact R|exact W|]. destruct G as [_ G]. destruct m as [| | |t id| | | | | | |]; try contradiction C.
    + assert (U : u16_wire id (u16be id)) by (split; [apply G|reflexivity]).
      destruct t; (split; [reflexivity|]; exists (u16be id); split; [exact U|left; auto]).
    + split; [reflexivity|constructor].
    + split; [reflexivity|constructor].
    + split; [reflexivity|]. left. auto.
  - destruct m as [| | |[]| | | | | | |]; try contradiction C; cbn; auto.
Qed.
(** They are also what this crate writes for these packets. *)
Theorem C73_common_messages_are_written ft m : common3 m -> good3 m ->
  exists p, rust_packet ft p /\ means3 p m /\ Packet_write p [] = (Ok (blen (frame3 m)), frame3 m).
Proof.
  intros C [_ G]. exists (same3 m). destruct m as [| | |t id| | | | | | |]; try contradiction C.
  - destruct t; (split; [cbn; repeat split; try apply G; constructor|]; split; [cbn; auto|reflexivity]).
  - split; [exact I|]. split; [exact I|reflexivity].
  - split; [exact I|]. split; [exact I|reflexivity].
  - split; [constructor|]. split; [reflexivity|reflexivity].
Qed.

(** ** Nothing else is taken for what it means *)

Lemma section_nonempty ft allowed o ls : section_wire ft allowed o ls -> 1 <= blen ls.
Proof.
  intros (d & lb & V & X). assert (L : 1 <= blen lb) by (destruct V as (_ & S & _); destruct lb; [contradiction|rewrite blen_cons; lia]).
  destruct o; [destruct X as (_ & sp & _ & -> & _)|destruct X as [_ ->]]; [rewrite blen_app|]; lia.
Qed.
Lemma props_nonempty {A} ft allowed (of : list item -> A) o ls : props_wire ft allowed of o ls -> 1 <= blen ls.
Proof. intros (it & S & _). exact (section_nonempty _ _ _ _ S). Qed.
Lemma str_wire_len ft s l : str_wire ft s l -> blen l = 2 + blen s.
Proof. intros (_ & _ & _ & ->). rewrite blen_app. reflexivity. Qed.
Lemma u16_wire_len n l : u16_wire n l -> blen l = 2.
Proof. intros (_ & ->). reflexivity. Qed.
Lemma filters_len ft fs l : list_wire (filter_wire ft) fs l ->
  blen l = blen (flat_map (fun f => string3 (fst f) ++ [snd f]) (map (fun f => (fi_path f, qos_num (fi_qos f))) fs)).
Proof.
  induction 1 as [|f fs la ll (lp & o & -> & _ & S & _) _ IH]; [reflexivity|]. cbn [map flat_map fst snd]. rewrite !blen_app, IH.
  rewrite (str_wire_len _ _ _ S). unfold string3. rewrite blen_app. reflexivity.
Qed.
Lemma strings_len ft fs l : list_wire (str_wire ft) fs l -> blen l = blen (flat_map string3 fs).
Proof.
  induction 1 as [|f fs la ll S _ IH]; [reflexivity|]. cbn [flat_map]. rewrite !blen_app, IH, (str_wire_len _ _ _ S).
  unfold string3. rewrite blen_app. reflexivity.
Qed.

Theorem C73_nothing_else_is_understood ft m rest max p rest' :
  good3 m -> bytes_ok rest -> Packet_read ft (frame3 m ++ rest) max = (Ok p, rest') ->
  means3 p m -> common3 m.
Proof.
  intros G R E M. destruct (frame3_inv ft m rest max p rest' G R E) as (-> & W & B).
  destruct m as [clean ka cid w user password|sp code|dup qos retain topic id payload|t id|id filters|id codes|id filters|id| | |];
    cbn [common3]; try exact I; exfalso.
  - pose proof (C73_older_clients_are_refused ft clean ka cid w user password rest max G R W) as X. rewrite X in E. discriminate.
  - destruct (C73_older_connack_looks_unfinished ft sp code rest max G R W) as [_ X]. rewrite X in E. discriminate.
  - destruct p; try contradiction M. destruct M as (_ & Mq & _ & Mt & _ & Mp). destruct B as (_ & _ & _ & _ & _ & lt & li & ls & E1 & S & I1 & P).
    apply (f_equal blen) in E1. cbn [body3] in E1. rewrite !blen_app in E1. rewrite Mp in E1. pose proof (str_wire_len _ _ _ S) as L1. pose proof (props_nonempty _ _ _ _ _ P) as L2.
    rewrite Mt in L1. unfold string3 in E1. rewrite blen_app in E1. change (blen (u16be (blen topic))) with 2 in E1.
    assert (L3 : blen (if qos =? 0 then [] else u16be id) = blen li).
    { subst qos. destruct (pu_qos p); cbn [qos_num N.eqb] in *; destruct I1 as [_ I1]; [rewrite I1; reflexivity| |]; rewrite (u16_wire_len _ _ I1); reflexivity. }
    unfold bytes in *. rewrite L3, L1 in E1. clear - E1 L2. lia.
  - destruct p; try contradiction M. destruct M as (_ & Mf). destruct B as (_ & lk & ls & lf & E1 & U & P & F & _).
    apply (f_equal blen) in E1. cbn [body3] in E1. rewrite !blen_app in E1. pose proof (u16_wire_len _ _ U). pose proof (props_nonempty _ _ _ _ _ P).
    rewrite (filters_len _ _ _ F), Mf in E1. change (blen (u16be id)) with 2 in E1. lia.
  - destruct p; try contradiction M. destruct M as (_ & Mf). destruct B as (_ & lk & ls & E1 & U & P & _).
    apply (f_equal blen) in E1. cbn [body3] in E1. rewrite !blen_app in E1. pose proof (u16_wire_len _ _ U). pose proof (props_nonempty _ _ _ _ _ P).
    apply (f_equal (@length _)) in Mf. rewrite !map_length in Mf. change (blen (u16be id)) with 2 in E1.
    assert (X : blen (map suback_code (sa_return_codes s)) = blen codes) by (unfold blen; rewrite map_length, Mf; reflexivity). lia.
  - destruct p; try contradiction M. destruct M as (_ & Mf). destruct B as (_ & lk & ls & lf & E1 & U & P & F).
    apply (f_equal blen) in E1. cbn [body3] in E1. rewrite !blen_app in E1. pose proof (u16_wire_len _ _ U). pose proof (props_nonempty _ _ _ _ _ P).
    rewrite (strings_len _ _ _ F), Mf in E1. change (blen (u16be id)) with 2 in E1. lia.
  - destruct (C73_older_unsuback_looks_unfinished ft id rest max G R W) as [_ X]. rewrite X in E. discriminate.
Qed.

(** ** What it is taken for instead *)

(** PUBLISH: the payload begins where this version has the property length. *)
Theorem C73_publish_without_payload_looks_unfinished ft dup q retain topic id rest max :
  let m := M3_Publish dup (qos_num q) retain topic id [] in
  good3 m -> bytes_ok rest -> within max (blen (body3 m)) ->
  Packet_read ft (frame3 m ++ rest) max = (Err (InsufficientBytes 1), rest).
Proof.
  intros m G R W. apply frame3_err; [exact G|exact R|exact W|]. destruct G as (_ & _ & T & _ & I). cbn [first3 body3 m].
  assert (F : (48 + flag dup 8 + 2 * qos_num q + flag retain 1) / 16 = 3 /\ ((48 + flag dup 8 + 2 * qos_num q + flag retain 1) / 2) mod 4 = qos_num q)
    by (destruct dup, q, retain; vm_compute; auto).
  destruct F as [F1 F2]. unfold body_faulty. rewrite F1. cbn beta iota. right. split; [discriminate|]. unfold publish_faulty. rewrite F2.
  right. split; [destruct q; discriminate|]. right. exists topic, (string3 topic). eexists. split; [reflexivity|]. split; [apply good_string3_wire; exact T|].
  destruct q; cbn [qos_num N.eqb] in *.
  - left. exact nil_broken.
  - right. exists id, (u16be id), []. split; [reflexivity|]. split; [split; [apply I|reflexivity]|]. right. split; [destruct I; lia|]. left. exact nil_broken.
  - right. exists id, (u16be id), []. split; [reflexivity|]. split; [split; [apply I|reflexivity]|]. right. split; [destruct I; lia|]. left. exact nil_broken.
Qed.
Theorem C73_publish_loses_a_zero_byte ft dup q retain topic id payload rest max :
  let m := M3_Publish dup (qos_num q) retain topic id (0 :: payload) in
  good3 m -> bytes_ok rest -> within max (blen (body3 m)) ->
  Packet_read ft (frame3 m ++ rest) max = (Ok (P_Publish (mkPublish dup q retain topic id payload None)), rest).
Proof.
  intros m G R W. apply frame3_ok; [exact G|exact R|exact W|]. destruct G as (_ & _ & T & P & I). cbn [first3 body3 m].
  assert (F : (48 + flag dup 8 + 2 * qos_num q + flag retain 1) / 16 = 3 /\ ((48 + flag dup 8 + 2 * qos_num q + flag retain 1) / 2) mod 4 = qos_num q
              /\ N.testbit (48 + flag dup 8 + 2 * qos_num q + flag retain 1) 3 = dup /\ N.testbit (48 + flag dup 8 + 2 * qos_num q + flag retain 1) 0 = retain)
    by (destruct dup, q, retain; vm_compute; auto).
  destruct F as (F1 & F2 & F3 & F4). split; [exact F1|]. split; [symmetry; exact F3|]. split; [symmetry; exact F4|]. split; [symmetry; exact F2|].
  split; [apply Forall_inv_tail in P; exact P|]. exists (string3 topic), (if qos_num q =? 0 then [] else u16be id), [0].
  split; [reflexivity|]. split; [apply good_string3_wire; exact T|]. split.
  - cbn [pu_qos pu_pkid]. destruct q; cbn [qos_num N.eqb] in *; [auto| |]; (split; [destruct I; lia|split; [apply I|reflexivity]]).
  - exists None. split; [|reflexivity]. exists 0, [0]. split; [apply (varint_is_wire 0); vm_compute; discriminate|auto].
Qed.

(** SUBACK: the first code is taken for the property length. *)
Theorem C73_suback_loses_its_first_code ft id c codes rest max :
  let m := M3_SubAck id (0 :: c :: codes) in
  good3 m -> bytes_ok rest -> within max (blen (body3 m)) ->
  exists cs, Packet_read ft (frame3 m ++ rest) max = (Ok (P_SubAck (mkSubAck id cs None)), rest)
    /\ map suback_code cs = c :: codes.
Proof.
  intros m G R W. pose proof G as (_ & I & _ & F). apply Forall_inv_tail in F.
  assert (X : exists cs, map suback_code cs = c :: codes).
  { clear - F. induction F as [|x l [Hx| ->] _ (cs & IH)]; [exists []; reflexivity| |].
    - assert (D : x = 0 \/ x = 1 \/ x = 2) by lia.
      exists (SRC_Success (if x =? 0 then AtMostOnce else if x =? 1 then AtLeastOnce else ExactlyOnce) :: cs). cbn [map]. rewrite IH. f_equal.
      destruct D as [->|[->| ->]]; reflexivity.
    - exists (SRC_Unspecified :: cs). cbn [map]. rewrite IH. reflexivity. }
  destruct X as (cs & X). exists cs. split; [|exact X]. apply frame3_ok; [exact G|exact R|exact W|]. split; [reflexivity|].
  exists (u16be id), [0]. split; [cbn [body3 m sa_return_codes]; rewrite X; reflexivity|]. split; [split; [apply I|reflexivity]|]. split.
  - exists None. split; [|reflexivity]. exists 0, [0]. split; [apply (varint_is_wire 0); vm_compute; discriminate|auto].
  - cbn [sa_return_codes]. intros E. rewrite E in X. discriminate.
Qed.
Theorem C73_suback_of_one_code_is_rejected ft id c rest max :
  let m := M3_SubAck id [c] in
  good3 m -> bytes_ok rest -> within max (blen (body3 m)) ->
  Packet_read ft (frame3 m ++ rest) max = (Err (if c =? 128 then InsufficientBytes 1 else MalformedPacket), rest).
Proof.
  intros m G R W. apply frame3_err; [exact G|exact R|exact W|]. destruct G as (_ & I & _ & F). apply Forall_inv in F. cbn [first3 body3 m].
  unfold body_faulty. change (144 / 16) with 9. cbn beta iota. right. split; [discriminate|].
  right. exists id, (u16be id), [c]. split; [reflexivity|]. split; [split; [apply I|reflexivity]|].
  assert (D : c = 128 \/ c = 0 \/ c = 1 \/ c = 2) by lia. destruct D as [->|D]; [cbn [N.eqb Pos.eqb]|].
  - left. left. left. split; [|reflexivity]. split; [reflexivity|]. constructor; [lia|constructor].
  - replace (c =? 128) with false by (symmetry; apply N.eqb_neq; lia). destruct D as [->|D].
    + right. exists None, [0], []. split; [reflexivity|]. split; [exists 0, [0]; split; [apply (varint_is_wire 0); vm_compute; discriminate|auto]|]. left. auto.
    + left. right. exists c, [c], []. split; [reflexivity|]. split.
      * assert (V : varint c = [c]) by (destruct D as [->| ->]; reflexivity). rewrite <- V. apply varint_is_wire. unfold max_varint. lia.
      * exists [], []. split; [reflexivity|]. split; [constructor|]. split; [cbn [total]; lia|]. reflexivity.
Qed.

(** SUBSCRIBE and UNSUBSCRIBE: the high byte of the first length is taken for the property length,
    the low byte and the first letter for the length of the filter.  The condition fails only when
    the whole list is 256 times as long as its first filter; with one filter it holds. *)
Lemma shifted_boundary (t r : bytes) : bytes_ok t -> t <> [] -> blen t < 256 -> blen t + blen r <= 256 * blen t ->
  bin_faulty (blen t :: t ++ r) (BoundaryCrossed (256 * blen t + hd 0 t)).
Proof.
  intros Ht Hne H1 H2. destruct t as [|h t]; [congruence|]. cbn [hd]. apply Forall_inv in Ht. set (n := blen (h :: t)) in *.
  assert (Hl : n = 1 + blen t) by (unfold n; apply blen_cons).
  right. exists (256 * n + h), (t ++ r). split; [lia|]. split; [|split; [rewrite blen_app; lia|reflexivity]].
  unfold u16be. cbn [app]. f_equal; [|f_equal].
  - symmetry. rewrite N.mul_comm, N.div_add_l by lia. rewrite N.div_small by exact Ht. lia.
  - symmetry. rewrite N.add_comm, N.mul_comm, N.mod_add by lia. apply N.mod_small. exact Ht.
Qed.
Lemma zero_section ft allowed : section_wire ft allowed None [0].
Proof. exists 0, [0]. split; [apply (varint_is_wire 0); vm_compute; discriminate|auto]. Qed.
Lemma short_string t r : blen t < 256 -> string3 t ++ r = [0] ++ (blen t :: t ++ r).
Proof. intros H. unfold string3, u16be. rewrite N.div_small, N.mod_small by exact H. reflexivity. Qed.

Theorem C73_subscribe_is_out_of_step ft id t q filters rest max :
  let m := M3_Subscribe id ((t, q) :: filters) in
  good3 m -> bytes_ok rest -> within max (blen (body3 m)) -> blen t < 256 -> blen (body3 m) <= 256 * blen t ->
  Packet_read ft (frame3 m ++ rest) max = (Err (BoundaryCrossed (256 * blen t + hd 0 t)), rest).
Proof.
  intros m G R W Ht Hs. apply frame3_err; [exact G|exact R|exact W|]. destruct G as (_ & I & _ & F). apply Forall_inv in F. cbn [fst snd] in F. destruct F as (((T & _) & Tn) & _).
  assert (E : body3 m = u16be id ++ [0] ++ (blen t :: t ++ [q] ++ flat_map (fun f => string3 (fst f) ++ [snd f]) filters)).
  { cbn [body3 m flat_map fst snd]. rewrite <- app_assoc. rewrite (short_string t _ Ht). reflexivity. }
  rewrite E in Hs. rewrite E. cbn [first3 m].
  unfold body_faulty. change (130 / 16) with 8. cbn beta iota. right. split; [discriminate|].
  right. exists id, (u16be id). eexists. split; [reflexivity|]. split; [split; [apply I|reflexivity]|].
  right. exists None, [0]. eexists. split; [reflexivity|]. split; [apply zero_section|]. right. exists [], []. eexists. split; [reflexivity|]. split; [constructor|].
  split; [discriminate|]. left. left. apply shifted_boundary; [exact T|exact Tn|exact Ht|].
  unfold bytes, blen in *. rewrite !app_length in *. cbn [length u16be app] in Hs. rewrite !app_length in Hs. cbn [length] in *. lia.
Qed.
Theorem C73_unsubscribe_is_out_of_step ft id t filters rest max :
  let m := M3_Unsubscribe id (t :: filters) in
  good3 m -> bytes_ok rest -> within max (blen (body3 m)) -> blen t < 256 -> blen (body3 m) <= 256 * blen t ->
  Packet_read ft (frame3 m ++ rest) max = (Err (BoundaryCrossed (256 * blen t + hd 0 t)), rest).
Proof.
  intros m G R W Ht Hs. apply frame3_err; [exact G|exact R|exact W|]. destruct G as (_ & I & _ & F). apply Forall_inv in F. destruct F as ((T & _) & Tn).
  assert (E : body3 m = u16be id ++ [0] ++ (blen t :: t ++ flat_map string3 filters)).
  { cbn [body3 m flat_map]. rewrite (short_string t _ Ht). reflexivity. }
  rewrite E in Hs. rewrite E. cbn [first3 m].
  unfold body_faulty. change (162 / 16) with 10. cbn beta iota. right. split; [discriminate|].
  right. exists id, (u16be id). eexists. split; [reflexivity|]. split; [split; [apply I|reflexivity]|].
  right. exists None, [0]. eexists. split; [reflexivity|]. split; [apply zero_section|]. exists [], []. eexists. split; [reflexivity|]. split; [constructor|].
  split; [discriminate|]. left. apply shifted_boundary; [exact T|exact Tn|exact Ht|].
  unfold bytes, blen in *. rewrite !app_length in *. cbn [length u16be app] in Hs. rewrite !app_length in Hs. cbn [length] in *. lia.
Qed.
(** With a single filter nothing more is asked. *)
Theorem C73_single_filters_are_out_of_step ft id t q rest max :
  let s := M3_Subscribe id [(t, q)] in let u := M3_Unsubscribe id [t] in
  blen t < 256 -> bytes_ok rest ->
  (good3 s -> within max (blen (body3 s)) -> Packet_read ft (frame3 s ++ rest) max = (Err (BoundaryCrossed (256 * blen t + hd 0 t)), rest))
  /\ (good3 u -> within max (blen (body3 u)) -> Packet_read ft (frame3 u ++ rest) max = (Err (BoundaryCrossed (256 * blen t + hd 0 t)), rest)).
Proof.
  intros s u Ht R. split; intros G W.
  - apply C73_subscribe_is_out_of_step; try assumption. destruct G as (_ & _ & _ & F). apply Forall_inv in F. destruct F as ((_ & Tn) & _). cbn [fst] in Tn.
    assert (L : 1 <= blen t) by (destruct t; [congruence|rewrite blen_cons; lia]).
    cbn [body3 flat_map fst snd]. rewrite app_nil_r. unfold string3. rewrite !blen_app. change (blen (u16be id)) with 2. change (blen (u16be (blen t))) with 2. change (blen [q]) with 1. lia.
  - apply C73_unsubscribe_is_out_of_step; try assumption. destruct G as (_ & _ & _ & F). apply Forall_inv in F. destruct F as (_ & Tn).
    assert (L : 1 <= blen t) by (destruct t; [congruence|rewrite blen_cons; lia]).
    cbn [body3 flat_map]. rewrite app_nil_r. unfold string3. rewrite !blen_app. change (blen (u16be id)) with 2. change (blen (u16be (blen t))) with 2. lia.
Qed.

(** ** Instances *)

Definition sample_connect3 : message3 :=
  M3_Connect true 60 [99; 49] (Some (mkWill3 [97] [0; 255] 1 true)) (Some [117]) (Some [1; 2]).
Example C73_instances :
  (good3 sample_connect3 /\ within None (blen (body3 sample_connect3)))
  /\ good3 (M3_ConnAck true 0) /\ good3 (M3_UnsubAck 10)
  /\ good3 (M3_Publish true 1 false [97; 47; 98] 10 [0; 7]) /\ good3 (M3_Publish false 0 false [97] 0 [])
  /\ good3 (M3_SubAck 10 [0; 128; 2]) /\ good3 (M3_SubAck 10 [128])
  /\ good3 (M3_Ack A3_PubRel 300)
  /\ (good3 (M3_Subscribe 10 [([97; 47; 98], 1); ([99], 2)])
      /\ blen (body3 (M3_Subscribe 10 [([97; 47; 98], 1); ([99], 2)])) <= 256 * blen [97; 47; 98]).
Proof.
  assert (A : forall s, Forall (fun x => x < 128) s -> blen s <= 65535 -> good_string3 s).
  { intros s H L. split; [eapply Forall_impl; [|exact H]; cbn beta; lia|]. split; [|exact L]. exists s. split.
    - eapply Forall_impl; [|exact H]. cbn beta. intros x Hx. left. lia.
    - clear L. induction H as [|x l Hx _ IH]; [reflexivity|]. cbn [flat_map]. rewrite <- IH. unfold utf8_encode. apply N.ltb_lt in Hx. rewrite Hx. reflexivity. }
  assert (S1 : good_string3 [97]) by (apply A; [repeat constructor|vm_compute; discriminate]).
  assert (S2 : good_string3 [99; 49]) by (apply A; [repeat constructor|vm_compute; discriminate]).
  assert (S3 : good_string3 [117]) by (apply A; [repeat constructor|vm_compute; discriminate]).
  assert (S4 : good_string3 [97; 47; 98]) by (apply A; [repeat constructor|vm_compute; discriminate]).
  assert (S5 : good_string3 [99]) by (apply A; [repeat constructor|vm_compute; discriminate]).
  split; [|split; [|split; [|split; [|split; [|split; [|split; [|split]]]]]]].
  - split; [|exact I]. split; [vm_compute; discriminate|]. cbn. split; [lia|]. split; [exact S2|]. split.
    + split; [exact S1|]. split; [repeat constructor|]. split; [vm_compute; discriminate|lia].
    + split; [exact S3|]. split; [repeat constructor|vm_compute; discriminate].
  - split; [vm_compute; discriminate|]. lia.
  - split; [vm_compute; discriminate|]. split; reflexivity.
  - split; [vm_compute; discriminate|]. cbn. split; [lia|]. split; [exact S4|]. split; [repeat constructor|]. split; reflexivity.
  - split; [vm_compute; discriminate|]. cbn. split; [lia|]. split; [exact S1|]. split; [constructor|reflexivity].
  - split; [vm_compute; discriminate|]. split; [split; reflexivity|]. split; [discriminate|]. constructor; [left; lia|]. constructor; [right; reflexivity|]. constructor; [left; lia|constructor].
  - split; [vm_compute; discriminate|]. split; [split; reflexivity|]. split; [discriminate|]. constructor; [right; reflexivity|constructor].
  - split; [vm_compute; discriminate|]. split; reflexivity.
  - split; [split; [vm_compute; discriminate|]|vm_compute; discriminate]. split; [split; reflexivity|]. split; [discriminate|].
    constructor; [split; [split; [exact S4|discriminate]|cbn; lia]|]. constructor; [split; [split; [exact S5|discriminate]|cbn; lia]|constructor].
Qed.
