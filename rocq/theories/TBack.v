(** What holds of every packet Packet::read returns: C22, C31, C34, C38. *)
From Verif Require Import Types Model Spec Wire Content PBase PVarint PUtf8 PRead PItems PProps PFrame PWire PWrite PTotal PRound PBack PFeat.
From Verif Require Import TFraming TWrite TRound Samples.
Ltac Zify.zify_post_hook ::= Z.div_mod_to_equations.

(** The frame a decoded packet comes from, and what is known of the packet. *)
Lemma decoded_sound ft max s p rest : bytes_ok s -> Packet_read ft s max = (Ok p, rest) ->
  exists n, sound ft p n /\ n <= max_varint /\ blen rest + n + 2 <= blen s.
Proof.
  intros Hs E. apply C37_read_is_the_wire_language in E; [|exact Hs].
  destruct E as (b1 & body & f & -> & (lb & -> & Hw) & B & _).
  exists (blen body). bok. split; [eapply body_back; eassumption|].
  pose proof (varint_wire_bound _ _ Hw). rewrite blen_app, blen_cons, blen_app. unfold max_varint. lia.
Qed.
(** The same with the exact size of the header and the limit. *)
Lemma decoded_size ft max s p rest : bytes_ok s -> Packet_read ft s max = (Ok p, rest) ->
  exists n k, sound ft p n /\ n <= max_varint /\ blen s = blen rest + 1 + k + n /\ blen (varint n) <= k <= 4 /\ within max n
    /\ (blen (fields_bytes (body_fields p)) <= n + 2
        \/ (blen (fields_bytes (body_fields p)) <= n + 3 /\ n <= 4194304) \/ (16384 <= n /\ n <= 1048576)).
Proof.
  intros Hs E. apply C37_read_is_the_wire_language in E; [|exact Hs].
  destruct E as (b1 & body & f & -> & (lb & -> & Hw) & B & Hm).
  exists (blen body), (blen lb). bok. split; [eapply body_back; eassumption|].
  pose proof (varint_wire_bound _ _ Hw). destruct (varint_shortest _ _ Hw). rewrite blen_app, blen_cons, blen_app. unfold max_varint.
  split; [lia|]. split; [lia|]. split; [lia|]. split; [exact Hm|]. eapply body_wide; eassumption.
Qed.

(** ** C38 *)

(** All strings, binary values and the payload together with one unit for each list element
    take no more room than the consumed frame, header excluded. *)
Theorem C38_contents_fit_the_frame ft max s p rest :
  bytes_ok s -> Packet_read ft s max = (Ok p, rest) ->
  packet_data p + 2 <= blen s - blen rest /\ blen s - blen rest <= 268435460.
Proof.
  intros Hs E. destruct (decoded_sound _ _ _ _ _ Hs E) as (n & S & _ & Hn). apply sound_data in S.
  destruct (C04_ok_one_frame _ _ _ _ _ Hs E) as (f & -> & _ & Hf). rewrite blen_app in *. ulia.
Qed.
Example C38_tight :
  Packet_read F_default [48; 5; 0; 1; 97; 0; 98] None = (Ok (P_Publish (mkPublish false AtMostOnce false [97] 0 [98] None)), [])
  /\ packet_data (P_Publish (mkPublish false AtMostOnce false [97] 0 [98] None)) = 2.
Proof. split; reflexivity. Qed.

(** ** C22 *)

Lemma items_text ft l : items_ok ft l -> Forall (text ft) (items_texts l).
Proof.
  intros H. unfold items_texts. induction H as [|[id v] l Hv _ IH]; [constructor|]. cbn [flat_map snd] in *.
  apply Forall_app. split; [|exact IH]. destruct v; cbn [value_texts value_ok] in *; repeat (apply Forall_cons || apply Forall_nil); tauto.
Qed.
Lemma packet_text ft p : rust_packet ft p -> Forall (text ft) (packet_texts p).
Proof.
  intros H. destruct p as [c w l|a|p|a| | |s|a|a|a|a|u|a|d]; cbn [rust_packet packet_texts] in *;
    try (apply items_text; tauto); try constructor.
  - tauto.
  - destruct H as (_ & _ & H1 & H2 & H3). apply Forall_app. split; [apply items_text; exact H1|].
    apply Forall_app. split.
    + destruct w as [w|]; [|constructor]. apply items_text. apply (H2 w eq_refl).
    + destruct l as [l|]; [|constructor]. destruct (H3 l eq_refl). repeat (apply Forall_cons || apply Forall_nil); assumption.
  - tauto.
  - apply items_text. tauto.
  - apply Forall_app. split; [apply items_text; tauto|]. apply Forall_map. tauto.
  - apply Forall_app. split; [apply items_text; tauto|]. tauto.
Qed.
(** Unless binary_string is selected, every string of a decoded packet is well-formed UTF-8. *)
Theorem C22_decoded_strings_are_utf8 ft max s p rest :
  ft <> F_binary -> bytes_ok s -> Packet_read ft s max = (Ok p, rest) -> Forall utf8 (packet_texts p).
Proof.
  intros Hft Hs E. destruct (decoded_sound _ _ _ _ _ Hs E) as (n & S & _ & _). apply sound_rust, packet_text in S.
  eapply Forall_impl; [|exact S]. intros x [_ H]. destruct ft; auto. congruence.
Qed.
Example C22_instance :
  Packet_read F_default [48; 6; 0; 3; 226; 130; 172; 0] None
  = (Ok (P_Publish (mkPublish false AtMostOnce false [226; 130; 172] 0 [] None)), []) /\ [226; 130; 172] = utf8_encode 8364.
Proof. split; reflexivity. Qed.
(** Any string (also one overwritten by a later duplicate) that the binary_string build accepts
    and this build rejects is reported as TopicNotUtf8: whatever the input, this build returns
    what binary_string returns or TopicNotUtf8, with the same bytes consumed. *)
Theorem C22_check_only_adds_rejections ft max s :
  Packet_read ft s max = Packet_read F_binary s max
  \/ fst (Packet_read ft s max) = Err TopicNotUtf8
     /\ snd (Packet_read ft s max) = snd (Packet_read F_binary s max).
Proof. apply read_stricter. Qed.
(** So a frame the binary_string build decodes to a packet with an ill-formed string is rejected
    with TopicNotUtf8. *)
Theorem C22_ill_formed_string_rejected ft max s p rest :
  ft <> F_binary -> bytes_ok s -> Packet_read F_binary s max = (Ok p, rest) ->
  ~ Forall utf8 (packet_texts p) -> Packet_read ft s max = (Err TopicNotUtf8, rest).
Proof.
  intros Hft Hs E Hn. destruct (read_stricter ft s max) as [X|[X Y]].
  - exfalso. apply Hn. rewrite E in X. eapply C22_decoded_strings_are_utf8; eassumption.
  - rewrite E in Y. cbn [snd] in Y. destruct (Packet_read ft s max); cbn [fst snd] in *. congruence.
Qed.
Example C22_binary_makes_no_check :
  Packet_read F_binary [48; 4; 0; 1; 255; 0] None = (Ok (P_Publish (mkPublish false AtMostOnce false [255] 0 [] None)), [])
  /\ Packet_read F_default [48; 4; 0; 1; 255; 0] None = (Err TopicNotUtf8, []).
Proof. split; reflexivity. Qed.

(** ** C34 *)

(** String, Box<str> and Cow<str> builds return the same result for every stream. *)
Theorem C34_checking_features_agree ft ft' max s :
  ft <> F_binary -> ft' <> F_binary -> Packet_read ft s max = Packet_read ft' s max.
Proof. intros H H'. rewrite (read_same ft), (read_same ft') by assumption. reflexivity. Qed.
(** The binary_string build accepts at least as much, with the same packet. *)
Theorem C34_binary_accepts_the_same_packets ft max s p rest :
  Packet_read ft s max = (Ok p, rest) -> Packet_read F_binary s max = (Ok p, rest).
Proof. intros E. destruct (read_stricter ft s max) as [X|[X _]]; rewrite E in X; [congruence|discriminate]. Qed.
(** If no string check fails, all builds return the same. *)
Theorem C34_features_agree_but_for_utf8 ft ft' max s :
  fst (Packet_read ft s max) <> Err TopicNotUtf8 -> fst (Packet_read ft' s max) <> Err TopicNotUtf8 ->
  Packet_read ft s max = Packet_read ft' s max.
Proof.
  intros H H'. destruct (read_stricter ft s max) as [-> |[X _]]; [|contradiction].
  destruct (read_stricter ft' s max) as [-> |[X _]]; [reflexivity|contradiction].
Qed.
Example C34_instance :
  Packet_read F_cow (encode s_connect) None = (Ok s_connect, []) /\ Packet_read F_binary (encode s_connect) None = (Ok s_connect, []).
Proof. split; vm_compute; reflexivity. Qed.

(** ** C31 *)

(** A decoded packet is a value of the Rust types, in normal form. *)
Theorem C31_decoded_is_normal ft max s p rest :
  bytes_ok s -> Packet_read ft s max = (Ok p, rest) ->
  rust_packet ft p /\ normalize p = p /\ legacy_connack p = false /\ list_safe p = true.
Proof.
  intros Hs E. destruct (decoded_sound _ _ _ _ _ Hs E) as (n & [] & _ & _). auto.
Qed.
Lemma growth_le p : growth p <= 4.
Proof. destruct p as [c [w|] l| | | | | | | | | | | | |]; cbn [growth]; lia. Qed.
Lemma large_body n k : 268435455 < n + 2 -> blen (varint n) <= k -> k = 4 \/ 4 < k.
Proof. intros H. rewrite varint_len. unfold len_len. destruct (N.leb_spec 2097152 n); lia. Qed.
(** Writing it again, to any buffer, never panics; it succeeds unless the body would exceed the
    limit of 268435455 bytes, which needs a frame of more than 268435458 of the 268435460 bytes
    possible (C59 bounds the growth). *)
Theorem C31_decoded_can_be_written ft max s p rest buf :
  bytes_ok s -> Packet_read ft s max = (Ok p, rest) ->
  (exists n, fst (Packet_write p buf) = Ok n)
  \/ (fst (Packet_write p buf) = Err PayloadTooLong /\ 268435458 < blen s - blen rest).
Proof.
  intros Hs E. destruct (decoded_size _ _ _ _ _ Hs E) as (n & k & [Hr Hnm Hl Hli He Hsz _] & Hn & Hlen & Hk & _ & Hwd).
  specialize (He Hn). pose proof (growth_le p) as Hg.
  destruct (bad_disconnect p) eqn:B; [left; apply C14_bad_disconnect_always_ok; exact B|].
  destruct (N.leb_spec (blen (fields_bytes (body_fields p))) max_varint) as [L|L].
  - left. apply C14_write_ok_iff_encodable; auto. unfold encodable, packet_fields, frame_fields.
    constructor; [reflexivity|]. constructor; [|exact He].
    cbn [field_error]. rewrite (proj2 (N.leb_le _ _) L). reflexivity.
  - right. split; [|unfold max_varint in *; destruct (large_body n k); lia].
    apply C14_write_error_is_first_cause; auto. unfold packet_fields, frame_fields. cbn [first_error field_error].
    rewrite (proj2 (N.leb_gt _ _) L). reflexivity.
Qed.
(** With a size limit of at most 268435453 it always succeeds. *)
Theorem C31_limited_can_be_written ft m s p rest buf :
  bytes_ok s -> Packet_read ft s (Some m) = (Ok p, rest) -> m <= 268435453 ->
  exists n, fst (Packet_write p buf) = Ok n.
Proof.
  intros Hs E Hm. destruct (C31_decoded_can_be_written _ _ _ _ _ buf Hs E) as [H|[_ H]]; [exact H|exfalso].
  destruct (decoded_size _ _ _ _ _ Hs E) as (n & k & _ & _ & Hlen & Hk & W & _). cbn [within] in W. lia.
Qed.
Lemma too_long_first p : max_varint < blen (fields_bytes (body_fields p)) -> first_error (packet_fields p) = Some PayloadTooLong.
Proof.
  intros L. unfold packet_fields, frame_fields. cbn [first_error field_error]. rewrite (proj2 (N.leb_gt _ _) L). reflexivity.
Qed.
Definition long_body (data payload : bytes) : bytes := [0; 0] ++ [1; 9] ++ u16be (blen data) ++ data ++ payload.
Definition long_publish (data payload : bytes) : Packet :=
  P_Publish (mkPublish false AtMostOnce false [] 0 payload
    (Some (mkPublishProperties None None None None (Some data) [] [] None))).
Lemma long_wire ft data payload : bytes_ok data -> 1 <= blen data -> blen data < 65536 -> bytes_ok payload ->
  body_wire ft 48 (long_publish data payload) (long_body data payload).
Proof.
  intros Hd D1 D2 Hp. split; [reflexivity|]. unfold long_publish. cbn [body_wire]. unfold publish_wire. cbn [pu_dup pu_retain pu_qos pu_payload pu_topic pu_pkid pu_properties qos_num].
  split; [reflexivity|]. split; [reflexivity|]. split; [reflexivity|]. split; [exact Hp|].
  exists [0; 0], [], ([1; 9] ++ u16be (blen data) ++ data).
  split; [unfold long_body; cbn [app]; rewrite <- !app_assoc; reflexivity|]. split; [split; [apply empty_text|]; split; [constructor|]; split; [rewrite blen_nil; lia|reflexivity]|].
  split; [auto|].
  exists (Some [(9, VBin data)]). split; [|reflexivity].
  exists 1, [1]. split; [apply (varint_is_wire 1); vm_compute; discriminate|]. split; [lia|].
  exists [((9, VBin data), 9 :: u16be (blen data) ++ data)]. cbn [map concat fst snd app]. rewrite app_nil_r.
  split; [reflexivity|]. split; [reflexivity|]. split.
  - constructor; [|constructor]. split; [vm_compute; tauto|]. split; [reflexivity|]. exists (u16be (blen data) ++ data).
    split; [reflexivity|]. split; [exact Hd|]. split; [exact D2|reflexivity].
  - split; [cbn; lia|]. cbn [total]. unfold counted. cbn [snd fst]. rewrite blen_cons. lia.
Qed.
Lemma long_size data payload : 16384 <= blen data -> blen data < 65536 ->
  blen (fields_bytes (body_fields (long_publish data payload))) = 8 + blen data + blen payload.
Proof.
  intros D1 D2. unfold long_publish. cbn [body_fields].
  cbn [pu_dup pu_retain pu_qos pu_payload pu_topic pu_pkid pu_properties opt_items].
  match goal with |- context [PublishProperties_items ?q] => change (PublishProperties_items q) with [(9, VBin data)] end.
  rewrite !fields_bytes_app, !blen_app, section_bytes, blen_app. fold (isize [(9, VBin data)]).
  assert (I : isize [(9, VBin data)] = 3 + blen data).
  { rewrite isize_one. unfold item_fields. cbn [snd fst value_fields]. rewrite fields_bytes_cons, fields_bytes_one, blen_app, bin_bytes_len.
    change (blen (field_bytes (FByte 9))) with 1. lia. }
  rewrite I, varint_len. unfold len_len. rewrite !fields_bytes_one, bin_bytes_len. cbn [field_bytes]. change (fields_bytes []) with (@nil N). rewrite !blen_nil.
  destruct (N.leb_spec 2097152 (3 + blen data)); destruct (N.leb_spec 16384 (3 + blen data)); destruct (N.leb_spec 128 (3 + blen data)); lia.
Qed.
Lemma long_body_len data payload : blen (long_body data payload) = 6 + blen data + blen payload.
Proof. unfold long_body. rewrite !blen_app. change (blen (u16be (blen data))) with 2. change (blen [0; 0]) with 2. change (blen [1; 9]) with 2. lia. Qed.
Lemma long_wire_len : varint_wire 268435454 [254; 255; 255; 127].
Proof.
  assert (E : varint 268435454 = [254; 255; 255; 127]) by (vm_compute; reflexivity). rewrite <- E.
  apply varint_is_wire. vm_compute. discriminate.
Qed.
(** Both bounds are the best possible: a frame of 268435459 bytes, its body 268435454 bytes long,
    that is read with the limit 268435454 and cannot be written. Its properties run over their
    declared length. *)
Theorem C31_too_long_to_write ft data payload rest buf :
  bytes_ok data -> 16384 <= blen data -> blen data < 65536 -> bytes_ok payload -> bytes_ok rest ->
  blen data + blen payload = 268435448 ->
  let frame := [48; 254; 255; 255; 127] ++ [0; 0] ++ [1; 9] ++ u16be (blen data) ++ data ++ payload in
  let p := P_Publish (mkPublish false AtMostOnce false [] 0 payload
             (Some (mkPublishProperties None None None None (Some data) [] [] None))) in
  blen frame = 268435459
  /\ Packet_read ft (frame ++ rest) (Some 268435454) = (Ok p, rest)
  /\ fst (Packet_write p buf) = Err PayloadTooLong.
Proof.
  intros Hd D1 D2 Hp Hr Hl frame p.
  pose proof (long_body_len data payload) as Eb. rewrite <- N.add_assoc, Hl in Eb. change (6 + 268435448) with 268435454 in Eb.
  change frame with ([48; 254; 255; 255; 127] ++ long_body data payload). change p with (long_publish data payload). clear frame p.
  assert (Ef : blen ([48; 254; 255; 255; 127] ++ long_body data payload) = 268435459) by (rewrite blen_app, Eb; reflexivity).
  split; [exact Ef|]. split.
  - apply C37_read_is_the_wire_language.
    + apply Forall_app. split; [|exact Hr]. unfold long_body, u16be.
      repeat (apply Forall_app; split); try assumption; repeat (constructor; try lia).
    + exists 48, (long_body data payload), ([48; 254; 255; 255; 127] ++ long_body data payload).
      split; [reflexivity|]. split; [|split; [apply long_wire; auto; lia|unfold within; rewrite Eb; lia]].
      exists [254; 255; 255; 127]. split; [reflexivity|]. rewrite Eb. exact long_wire_len.
  - apply C14_write_error_is_first_cause; [reflexivity|reflexivity|]. apply too_long_first.
    rewrite long_size by assumption. unfold max_varint. lia.
Qed.
Lemma filler a b : 16384 <= a -> a < 65536 -> a + b = 268435448 ->
  let data := repeat 0 (N.to_nat a) in let payload := repeat 0 (N.to_nat b) in
  bytes_ok data /\ 16384 <= blen data /\ blen data < 65536 /\ bytes_ok payload /\ blen data + blen payload = 268435448.
Proof. cbv zeta. intros. rewrite !blen_repeat. auto 6 using repeat_ok. Qed.
Example C31_too_long_instance : exists data payload : bytes,
  bytes_ok data /\ 16384 <= blen data /\ blen data < 65536 /\ bytes_ok payload /\ blen data + blen payload = 268435448.
Proof.
  exists (repeat 0 (N.to_nat 16384)). assert (E : forall b, b = 268419064 -> 16384 + b = 268435448) by (intros b ->; reflexivity).
  generalize dependent 268419064. intros b E. exists (repeat 0 (N.to_nat b)). apply (filler 16384 b); [|reflexivity|auto].
  vm_compute. discriminate.
Qed.
Lemma decoded_encodable ft max s p rest :
  bytes_ok s -> Packet_read ft s max = (Ok p, rest) -> blen s - blen rest <= 268435458 ->
  encodable p.
Proof.
  intros Hs E Hsm. destruct (decoded_size _ _ _ _ _ Hs E) as (n & k & [Hr Hnm Hl Hli He Hsz _] & Hn & Hlen & Hk & _ & Hwd).
  specialize (He Hn). unfold encodable, packet_fields, frame_fields.
  constructor; [reflexivity|]. constructor; [|exact He]. pose proof (growth_le p) as Hg.
  cbn [field_error]. rewrite (proj2 (N.leb_le _ _)); [reflexivity|]. unfold max_varint.
  destruct (N.le_gt_cases (n + 2) 268435455) as [L|L]; [lia|]. destruct (large_body n k); lia.
Qed.
(** Writing a decoded packet and reading the result returns the same packet, exactly when it is
    neither a DISCONNECT other than normal without properties nor a PUBLISH with unsafe
    subscription identifiers (C21). *)
Theorem C31_reread_returns_the_same ft max s p rest :
  bytes_ok s -> Packet_read ft s max = (Ok p, rest) -> blen s - blen rest <= 268435458 ->
  (exists n out, Packet_write p [] = (Ok n, out) /\ Packet_read ft out None = (Ok p, []))
  <-> bad_disconnect p = false /\ publish_safe p = true.
Proof.
  intros Hs E Hsm. pose proof (decoded_encodable _ _ _ _ _ Hs E Hsm) as He.
  destruct (C31_decoded_is_normal _ _ _ _ _ Hs E) as (Hr & Hnm & Hl & Hli).
  pose proof (C01_exact ft p Hr) as X. rewrite Hnm in X. rewrite X.
  unfold roundtrip_safe. rewrite Hl, Hli, !andb_true_iff, !negb_true_iff. tauto.
Qed.
(** A frame the crate would not write itself (overlong lengths, properties in another order and
    repeated): what is decoded is written in the crate's own form and reads back the same. *)
Example C31_instance ft :
  let s := [48; 146; 0; 0; 1; 97; 139; 0; 11; 129; 0; 3; 0; 1; 120; 1; 0; 1; 1; 7; 7] in
  let p := P_Publish (mkPublish false AtMostOnce false [97] 0 [7; 7]
             (Some (mkPublishProperties (Some 1) None None None None [] [1] (Some [120])))) in
  Packet_read ft s None = (Ok p, [])
  /\ Packet_write p [] = (Ok 16, [48; 14; 0; 1; 97; 8; 1; 1; 11; 1; 3; 0; 1; 120; 7; 7])
  /\ Packet_read ft [48; 14; 0; 1; 97; 8; 1; 1; 11; 1; 3; 0; 1; 120; 7; 7] None = (Ok p, []).
Proof. destruct ft; repeat split; vm_compute; reflexivity. Qed.
(** Both exceptions are met: a DISCONNECT that is accepted ... *)
Theorem C31_disconnect_refuted ft :
  Packet_read ft [224; 2; 128; 0] None = (Ok (P_Disconnect (mkDisconnect DRC_UnspecifiedError None)), [])
  /\ Packet_write (P_Disconnect (mkDisconnect DRC_UnspecifiedError None)) [] = (Ok 3, [224; 1; 128; 0])
  /\ Packet_read ft [224; 1; 128; 0] None = (Err (InsufficientBytes 1), [0]).
Proof. destruct ft; repeat split; reflexivity. Qed.
(** ... and a PUBLISH whose three identifiers stand before another property, where they are read
    correctly; the writer puts them last. *)
Theorem C31_publish_refuted ft :
  let p := P_Publish (mkPublish false AtMostOnce false [] 0 []
             (Some (mkPublishProperties None (Some 1) None None None [] [1; 2; 3] None))) in
  let q := P_Publish (mkPublish false AtMostOnce false [] 0 [11; 3]
             (Some (mkPublishProperties None (Some 1) None None None [] [1; 2] None))) in
  let out := [48; 14; 0; 0; 11; 2; 0; 0; 0; 1; 11; 1; 11; 2; 11; 3] in
  Packet_read ft [48; 14; 0; 0; 11; 11; 1; 11; 2; 11; 3; 2; 0; 0; 0; 1] None = (Ok p, [])
  /\ Packet_write p [] = (Ok 16, out)
  /\ Packet_read ft out None = (Ok q, []).
Proof. destruct ft; repeat split; reflexivity. Qed.
