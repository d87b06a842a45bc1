(** Round trips: C01, C21, C29, C30, C35. *)
From Verif Require Import Types Model Spec Wire PBase PVarint PUtf8 PRead PItems PProps PFrame PWire PWrite PTotal PRound.
From Verif Require Import TFraming TWrite Samples.
Ltac Zify.zify_post_hook ::= Z.div_mod_to_equations.

Lemma body_wire_ok_read ft byte1 p body : byte1 < 256 -> bytes_ok body -> body_wire ft byte1 p body ->
  body_read ft byte1 body = Ok p.
Proof. intros H1 Hb H. apply body_read_wire; assumption. Qed.

(** Encodings consist of bytes. *)
Lemma text_bytes ft s : text ft s -> bytes_ok s. Proof. intros [H _]; exact H. Qed.
Lemma bin_bytes s : bytes_ok s -> field_error (FBin s) = None -> bytes_ok (field_bytes (FBin s)).
Proof. intros Hs H. apply bin_small in H. cbn [field_bytes]. bok. apply u16be_ok. exact H. Qed.
Lemma item_bytes_ok ft allowed i : wk allowed i -> value_ok ft (snd i) -> enc (item_fields i) ->
  bytes_ok (fields_bytes (item_fields i)).
Proof.
  intros Hw Hv He.
  assert (S : Forall (spelled_wire ft allowed) (spell [i])).
  { apply spell_wire; [constructor; [exact Hw|constructor]|constructor; [exact Hv|constructor]|].
    unfold items_fields. cbn [flat_map]. rewrite app_nil_r. exact He. }
  apply spelled_ok in S. rewrite spell_bytes in S. unfold items_fields in S. cbn [flat_map] in S.
  rewrite app_nil_r in S. exact S.
Qed.
Lemma section_bytes_ok ft allowed l : Forall (wk allowed) l -> items_ok ft l -> enc (section_fields l) ->
  bytes_ok (fields_bytes (section_fields l)).
Proof.
  intros Hw Hi He. rewrite section_bytes. unfold section_fields in He. encs. fold (isize l) in H.
  apply bytes_ok_app. split; [apply varint_byte_ok, var_small; exact H|].
  rewrite <- spell_bytes. apply (spelled_ok ft allowed). apply spell_wire; assumption.
Qed.
Lemma opt_section_bytes_ok {A} ft allowed (items : A -> list item) o : (forall p, Forall (wk allowed) (items p)) ->
  items_ok ft (opt_items items o) -> enc (section_fields (opt_items items o)) ->
  bytes_ok (fields_bytes (section_fields (opt_items items o))).
Proof.
  intros Hw Hi He. apply (section_bytes_ok ft allowed); [|exact Hi|exact He].
  destruct o; cbn [opt_items]; [apply Hw|constructor].
Qed.
Lemma ack_bytes_ok {A} ft (items : A -> list item) pkid code (o : option A) :
  pkid < 65536 -> code < 256 -> (forall p, Forall (wk ack_allowed) (items p)) ->
  items_ok ft (opt_items items o) -> enc (ack_fields pkid code (is_none o) (opt_items items o)) ->
  bytes_ok (fields_bytes (ack_fields pkid code (is_none o) (opt_items items o))).
Proof.
  intros Hk Hc Hw Hi He. unfold ack_fields in *. destruct ((code =? 0) && is_none o).
  - rewrite fields_bytes_one. apply u16be_ok. exact Hk.
  - rewrite fields_bytes_app, fields_bytes_cons, fields_bytes_one. encs. cbn [field_bytes]. bok.
    + apply u16be_ok. exact Hk.
    + eapply opt_section_bytes_ok; eassumption.
Qed.
Lemma codes_ok {A} (f : A -> N) l : (forall x, f x < 256) -> bytes_ok (map f l).
Proof. intros H. induction l; [constructor|]. constructor; auto. Qed.

Lemma body_bytes_ok ft p : rust_packet ft p -> enc (body_fields p) -> bytes_ok (fields_bytes (body_fields p)).
Proof.
  intros Hr He. destruct p as [c w l|a|p|a| | |s|a|a|a|a|u|a|d]; cbn [rust_packet body_fields] in *.
  - destruct Hr as (Hk & Hc & Hi & Hw & Hl). unfold connect_fields in *. rewrite !fields_bytes_app. encs.
    rewrite fields_bytes_one. bok.
    + rewrite !fields_bytes_cons. cbn [field_bytes]. pose proof (connect_flags_bits (co_clean_start c) w l) as [B _].
      bok; try reflexivity; try (unfold u16be, mqtt; bok; reflexivity). change (fields_bytes []) with (@nil N). bok. apply u16be_ok. exact Hk.
    + eapply opt_section_bytes_ok; [apply ConnectProperties_items_wk|eassumption|assumption].
    + apply bin_bytes; [apply (text_bytes ft); assumption|assumption].
    + eapply will_wire_ok. apply (will_enc_wire ft true w l); assumption.
    + eapply login_wire_ok. apply (login_enc_wire ft true w l); assumption.
  - encs. rewrite fields_bytes_app, fields_bytes_cons, fields_bytes_one. cbn [field_bytes]. bok.
    + destruct (ck_session_present a); reflexivity.
    + apply connack_code_byte.
    + eapply opt_section_bytes_ok; [apply ConnAckProperties_items_wk|eassumption|assumption].
  - destruct Hr as (Ht & Hk & Hp & Hi). rewrite !fields_bytes_app. encs. rewrite !fields_bytes_one. bok.
    + apply bin_bytes; [apply (text_bytes ft); assumption|assumption].
    + destruct (pu_qos p); [constructor| |]; rewrite fields_bytes_one; cbn [field_bytes];
        (destruct (pu_pkid p =? 0); [constructor|apply u16be_ok; exact Hk]).
    + eapply opt_section_bytes_ok; [apply PublishProperties_items_wk|eassumption|assumption].
  - destruct Hr as [Hk Hi]. eapply ack_bytes_ok; [exact Hk|destruct (pa_reason a); reflexivity|apply PubAckProperties_items_wk|exact Hi|exact He].
  - constructor.
  - constructor.
  - destruct Hr as (Hk & Hi & Hf). rewrite !fields_bytes_app. encs. rewrite fields_bytes_one. bok.
    + apply u16be_ok. exact Hk.
    + eapply opt_section_bytes_ok; [apply SubscribeProperties_items_wk|eassumption|assumption].
    + eapply list_wire_ok; [apply (filter_wire_ok ft)|]. apply filters_enc_wire; assumption.
  - destruct Hr as (Hk & Hi). rewrite !fields_bytes_app. encs. rewrite fields_bytes_one, codes_bytes. bok.
    + apply u16be_ok. exact Hk.
    + eapply opt_section_bytes_ok; [apply SubAckProperties_items_wk|eassumption|assumption].
    + apply codes_ok. intros r; destruct r; try match goal with q : QoS |- _ => destruct q end; reflexivity.
  - destruct Hr as [Hk Hi]. eapply ack_bytes_ok; [exact Hk|destruct (pr_reason a); reflexivity|apply PubRecProperties_items_wk|exact Hi|exact He].
  - destruct Hr as [Hk Hi]. eapply ack_bytes_ok; [exact Hk|destruct (pl_reason a); reflexivity|apply PubRelProperties_items_wk|exact Hi|exact He].
  - destruct Hr as [Hk Hi]. eapply ack_bytes_ok; [exact Hk|destruct (pc_reason a); reflexivity|apply PubCompProperties_items_wk|exact Hi|exact He].
  - destruct Hr as (Hk & Hi & Hf). rewrite !fields_bytes_app. encs. rewrite fields_bytes_one. bok.
    + apply u16be_ok. exact Hk.
    + eapply opt_section_bytes_ok; [apply UnsubscribeProperties_items_wk|eassumption|assumption].
    + eapply list_wire_ok; [intros x lx; apply (str_wire_ok ft)|]. apply topics_enc_wire; assumption.
  - destruct Hr as (Hk & Hi). rewrite !fields_bytes_app. encs. rewrite fields_bytes_one, codes_bytes. bok.
    + apply u16be_ok. exact Hk.
    + eapply opt_section_bytes_ok; [apply UnsubAckProperties_items_wk|eassumption|assumption].
    + apply codes_ok. intros r; destruct r; reflexivity.
  - destruct ((disconnect_code (di_reason_code d) =? 0) && negb (nonempty (opt_items DisconnectProperties_items (di_properties d)))); [constructor|].
    rewrite fields_bytes_app, fields_bytes_one. encs. cbn [field_bytes]. bok.
    + destruct (di_reason_code d); reflexivity.
    + eapply opt_section_bytes_ok; [apply DisconnectProperties_items_wk|eassumption|assumption].
Qed.
Lemma encode_bytes_ok ft p : rust_packet ft p -> encodable p -> bytes_ok (encode p).
Proof.
  intros Hr He. pose proof (encodable_body _ He) as [Hb Hn]. rewrite encode_split. bok.
  - apply first_byte_ok.
  - apply varint_byte_ok. exact Hn.
  - eapply body_bytes_ok; eassumption.
Qed.

(** The body of a packet's encoding. *)
Definition body_size (p : Packet) : N := blen (fields_bytes (body_fields p)).

(** Reading an encoding back. *)
Lemma encode_read ft p rest max :
  rust_packet ft p -> encodable p -> roundtrip_safe p = true -> bytes_ok rest -> within max (body_size p) ->
  Packet_read ft (encode p ++ rest) max = (Ok (normalize p), rest).
Proof.
  intros Hr He Hs Hok Hm. pose proof (encodable_body _ He) as [Hb Hn].
  rewrite (framed_read ft max (first_byte p) (fields_bytes (body_fields p))); auto.
  - f_equal. apply body_wire_ok_read; [apply first_byte_ok|eapply body_bytes_ok; eassumption|].
    apply body_enc_wire; assumption.
  - apply encode_framed. exact He.
  - eapply body_bytes_ok; eassumption.
Qed.

(** ** C01 *)

(** A packet of the Rust types whose fields all have an encoding and that has none of the shapes
    of Spec.roundtrip_safe is written into an empty buffer without error, the result is the
    number of bytes, and reading those bytes (followed by anything) returns the packet's normal
    form (Spec.normalize) and leaves exactly what followed. *)
Theorem C01_write_then_read ft p rest max :
  rust_packet ft p -> encodable p -> roundtrip_safe p = true ->
  bytes_ok rest -> within max (body_size p) ->
  exists n out, Packet_write p [] = (Ok n, out) /\ n = blen out
    /\ Packet_read ft (out ++ rest) max = (Ok (normalize p), rest).
Proof.
  intros Hr He Hs Hok Hm. exists (blen (encode p)), (encode p).
  pose proof Hs as Hs'. unfold roundtrip_safe in Hs'. rewrite !andb_true_iff, !negb_true_iff in Hs'.
  destruct Hs' as [[[Hb Hl] _] _].
  split; [apply (C13_write_is_the_encoding p []); auto|]. split; [reflexivity|].
  apply encode_read; assumption.
Qed.
(** Every sample packet meets the hypotheses (and is its own normal form); a limit of exactly
    the body size will do. *)
Example C01_instances ft p rest : In p samples -> bytes_ok rest ->
  rust_packet ft p /\ encodable p /\ roundtrip_safe p = true /\ normalize p = p
  /\ Packet_read ft (snd (Packet_write p []) ++ rest) (Some (body_size p)) = (Ok p, rest).
Proof.
  intros Hp Hr. pose proof (proj1 (Forall_forall _ _) (samples_rust ft) p Hp) as H1.
  pose proof (proj1 (Forall_forall _ _) samples_encodable p Hp) as H2.
  pose proof (proj1 (Forall_forall _ _) samples_safe p Hp) as H3. cbv beta in H3.
  assert (H4 : normalize p = p) by (clear -Hp; repeat destruct Hp as [<-|Hp]; try contradiction; reflexivity).
  repeat (split; [assumption|]).
  destruct (C01_write_then_read ft p rest (Some (body_size p)) H1 H2 H3 Hr) as (n & out & E & _ & R); [apply N.le_refl|].
  rewrite E. cbn [snd]. rewrite R, H4. reflexivity.
Qed.
(** The same into a buffer that already holds something, for every packet but CONNECT. *)
Theorem C01_write_then_read_later ft p buf rest max :
  is_connect p = false ->
  rust_packet ft p -> encodable p -> roundtrip_safe p = true ->
  bytes_ok rest -> within max (body_size p) ->
  exists n out, Packet_write p buf = (Ok n, buf ++ out) /\ n = blen out
    /\ Packet_read ft (out ++ rest) max = (Ok (normalize p), rest).
Proof.
  intros Hc Hr He Hs Hok Hm. exists (blen (encode p)), (encode p).
  pose proof Hs as Hs'. unfold roundtrip_safe in Hs'. rewrite !andb_true_iff, !negb_true_iff in Hs'.
  destruct Hs' as [[[Hb Hl] _] _].
  split; [apply C13_write_is_the_encoding; auto; congruence|]. split; [reflexivity|].
  apply encode_read; assumption.
Qed.
(** Normalising twice is normalising once. *)
Lemma drop_empty_idem {A} (f : A -> list item) o : drop_empty f (drop_empty f o) = drop_empty f o.
Proof. destruct o as [x|]; [|reflexivity]. cbn [drop_empty]. destruct (nonempty (f x)) eqn:E; [|reflexivity]. cbn [drop_empty]. rewrite E. reflexivity. Qed.
Theorem C01_normal_form_is_normal p : normalize (normalize p) = normalize p.
Proof.
  destruct p as [c w l|a|p|a| | |s|a|a|a|a|u|a|d]; cbn [normalize]; try reflexivity;
    cbn [co_keep_alive co_client_id co_clean_start co_properties ck_session_present ck_code ck_properties
         pu_dup pu_qos pu_retain pu_topic pu_pkid pu_payload pu_properties pa_pkid pa_reason pa_properties
         pr_pkid pr_reason pr_properties pl_pkid pl_reason pl_properties pc_pkid pc_reason pc_properties
         su_pkid su_filters su_properties sa_pkid sa_return_codes sa_properties un_pkid un_filters un_properties
         ua_pkid ua_reasons ua_properties di_reason_code di_properties]; rewrite ?drop_empty_idem; try reflexivity.
  - f_equal.
    + destruct w as [w|]; [|reflexivity]. cbn [option_map]. f_equal. unfold normalize_will.
      cbn [lw_topic lw_message lw_qos lw_retain lw_properties].
      rewrite drop_empty_idem. reflexivity.
    + destruct l as [l|]; [|reflexivity]. cbn [normalize_login].
      destruct (nonempty (lo_username l) || nonempty (lo_password l)) eqn:E; [|reflexivity]. cbn [normalize_login]. rewrite E. reflexivity.
  - f_equal. f_equal. destruct (pu_qos p); reflexivity.
Qed.

(** ** C21 *)

(** What a PUBLISH with properties reads back as: its property items (in the order written) are
    cut after [kept], the shortest beginning with which the reader's count, one byte too many
    per subscription identifier, reaches the true length; the bytes of the rest are prepended to
    the payload. *)
Theorem C21_publish_reads_back_as ft p q rest max :
  rust_packet ft (P_Publish p) -> encodable (P_Publish p) -> pu_properties p = Some q ->
  PublishProperties_items q <> [] -> bytes_ok rest -> within max (body_size (P_Publish p)) ->
  exists kept lost,
    PublishProperties_items q = kept ++ lost
    /\ (lost = [] <-> ids_safe (pp_subscription_identifiers q) (pp_content_type q) = true)
    /\ Packet_read ft (snd (Packet_write (P_Publish p) []) ++ rest) max
       = (Ok (P_Publish (mkPublish (pu_dup p) (pu_qos p) (pu_retain p) (pu_topic p)
                (match pu_qos p with AtMostOnce => 0 | _ => pu_pkid p end)
                (fields_bytes (items_fields lost) ++ pu_payload p)
                (Some (PublishProperties_of kept)))), rest).
Proof.
  intros Hr He Eq Hne Hok Hm. pose proof (encodable_body _ He) as [Hb Hn].
  assert (Ei : opt_items PublishProperties_items (pu_properties p) = PublishProperties_items q) by (rewrite Eq; reflexivity).
  assert (Hsec : enc (section_fields (PublishProperties_items q))).
  { cbn [body_fields] in Hb. rewrite Ei in Hb. encs. assumption. }
  assert (Hio : items_ok ft (PublishProperties_items q)).
  { destruct Hr as (_ & _ & _ & Hi). rewrite Ei in Hi. exact Hi. }
  destruct (covers_prefix (isize (PublishProperties_items q)) (PublishProperties_items q)) as (l1 & l2 & El & Hl1 & Hc).
  { destruct (N.eq_dec (isize (PublishProperties_items q)) 0) as [E|E]; [|lia]. apply isize_0 in E. congruence. }
  { rewrite total_spell. lia. }
  exists l1, l2. split; [exact El|]. split.
  { rewrite <- publish_covers by exact Hne. split.
    - intros ->. rewrite app_nil_r in El. rewrite <- El in Hc. rewrite El in Hc at 1. rewrite <- El in Hc. exact Hc.
    - intros C. destruct l2 as [|x l2]; [reflexivity|]. exfalso.
      rewrite El in C. assert (Hx : x :: l2 <> []) by discriminate. destruct (exists_last Hx) as (a & y & Ey).
      rewrite Ey, app_assoc in C. destruct C as [C _]. rewrite spell_app in C. cbn [spell map] in C.
      rewrite removelast_snoc in C. fold (spell (l1 ++ a)) in C. rewrite spell_app in C.
      destruct Hc as [_ Hc]. rewrite El, Ey, app_assoc in Hc.
      assert (T : total (spell l1) <= total (spell l1 ++ spell a)).
      { rewrite <- spell_app, !total_spell, isize_app, nvars_app. lia. }
      lia. }
  rewrite (C13_write_is_the_encoding (P_Publish p) [] He) by (auto; discriminate).
  cbn [snd app].
  assert (Hl1ok : items_ok ft l1 /\ items_ok ft l2).
  { unfold items_ok in *. rewrite El in Hio. apply Forall_app in Hio. exact Hio. }
  assert (Hwk : Forall (wk publish_allowed) l1 /\ Forall (wk publish_allowed) l2).
  { apply Forall_app. rewrite <- El. apply PublishProperties_items_wk. }
  rewrite (framed_read ft max (first_byte (P_Publish p)) (fields_bytes (body_fields (P_Publish p))));
    [|apply encode_framed; exact He|eapply body_bytes_ok; eassumption|exact Hok|exact Hm].
  f_equal. apply body_wire_ok_read; [apply first_byte_ok|eapply body_bytes_ok; eassumption|].
  split; [apply publish_first_byte|].
  assert (Hl2 : enc (items_fields l2)).
  { unfold section_fields in Hsec. encs. rewrite El, items_fields_app in *. encs. assumption. }
  assert (Hpay : bytes_ok (fields_bytes (items_fields l2) ++ pu_payload p)).
  { apply bytes_ok_app. split.
    - rewrite <- spell_bytes. apply (spelled_ok ft publish_allowed). apply spell_wire; tauto.
    - apply Hr. }
  apply (publish_enc_wire ft p l1 l2); try assumption; try reflexivity.
  - rewrite Ei. eexists. split; [|instantiate (1 := Some l1); reflexivity]. rewrite El.
    apply section_prefix_wire; try tauto; rewrite <- El; assumption.
  - rewrite Ei. exact El.
Qed.
(** Four one-byte identifiers: the last one is not read as a property and turns up in front of
    the payload; three survive. *)
Example C21_instances ft :
  let p ids := mkPublish false AtMostOnce false t_topic 0 [9] (Some (mkPublishProperties None None None None None [] ids None)) in
  rust_packet ft (P_Publish (p [1; 2; 3; 4])) /\ encodable (P_Publish (p [1; 2; 3; 4]))
  /\ ids_safe [1; 2; 3; 4] None = false /\ ids_safe [1; 2; 300] None = true
  /\ Packet_read ft (snd (Packet_write (P_Publish (p [1; 2; 3; 4])) [])) None
     = (Ok (P_Publish (mkPublish false AtMostOnce false t_topic 0 [11; 4; 9]
          (Some (mkPublishProperties None None None None None [] [1; 2; 3] None)))), [])
  /\ Packet_read ft (snd (Packet_write (P_Publish (p [1; 2; 300])) [])) None = (Ok (P_Publish (p [1; 2; 300])), []).
Proof.
  cbv zeta. split; [sample|]. split; [apply encodable_check; reflexivity|]. split; [reflexivity|]. split; [reflexivity|].
  destruct ft; split; reflexivity.
Qed.
(** Hence a PUBLISH is read back unchanged (up to normalisation) iff its identifiers are safe. *)
Theorem C21_publish_roundtrips_iff_ids_safe ft p :
  rust_packet ft (P_Publish p) -> encodable (P_Publish p) ->
  Packet_read ft (snd (Packet_write (P_Publish p) [])) None = (Ok (normalize (P_Publish p)), [])
  <-> publish_safe (P_Publish p) = true.
Proof.
  intros Hr He. split.
  - intros E. cbn [publish_safe]. destruct (pu_properties p) as [q|] eqn:Eq; [|reflexivity].
    destruct (PublishProperties_items q) as [|i l] eqn:Ei.
    + rewrite publish_items_split in Ei. apply app_eq_nil in Ei. destruct Ei as [_ Ei]. apply app_eq_nil in Ei.
      destruct Ei as [E1 E2]. destruct (pp_subscription_identifiers q); [|discriminate].
      destruct (pp_content_type q); [discriminate|reflexivity].
    + destruct (C21_publish_reads_back_as ft p q [] None Hr He Eq) as (kept & lost & _ & Hiff & R); [congruence|constructor|exact I|].
      rewrite app_nil_r, E in R. apply Hiff. apply (f_equal fst) in R. cbn [fst normalize] in R.
      assert (P : pu_payload p = fields_bytes (items_fields lost) ++ pu_payload p) by congruence.
      apply self_app in P. apply isize_0. unfold isize. rewrite P. reflexivity.
  - intros Hs. destruct (C01_write_then_read ft (P_Publish p) [] None Hr He) as (n & out & Ew & _ & R);
      [|constructor|exact I|].
    + unfold roundtrip_safe. cbn [bad_disconnect legacy_connack list_safe]. rewrite Hs. reflexivity.
    + rewrite Ew. cbn [snd]. rewrite app_nil_r in R. exact R.
Qed.
Lemma ids_size_one n : ids_size [n] = 1 + len_len n.
Proof. exact (isize_id n). Qed.
(** Up to two identifiers are always safe; six or more never are without a content type. *)
Theorem C21_two_identifiers_are_safe ids ct : (length ids <= 2)%nat -> ids_safe ids ct = true.
Proof.
  intros H. unfold ids_safe. destruct ct as [ct|]; [apply N.ltb_lt; lia|].
  assert (S : forall n, 2 <= ids_size [n]).
  { intros n. rewrite ids_size_one. unfold len_len.
    destruct (2097152 <=? n), (16384 <=? n), (128 <=? n); lia. }
  destruct ids as [|a [|b [|c ids]]]; [reflexivity| | |cbn in H; lia].
  - apply (ids_safe_from_snoc [] 0 a). specialize (S a). cbn [length]. lia.
  - apply (ids_safe_from_snoc [a] 0 b). specialize (S b). cbn [length]. lia.
Qed.
Theorem C21_six_identifiers_refuted ids : (6 <= length ids)%nat -> ids_safe ids None = false.
Proof.
  intros H. destruct (ids_safe ids None) eqn:E; [|reflexivity]. exfalso. cbn [ids_safe] in E.
  assert (Hne : ids <> []) by (destruct ids; [cbn in H; lia|discriminate]).
  destruct (exists_last Hne) as (a & x & ->). apply ids_safe_from_snoc in E. rewrite app_length in H. cbn [length] in H.
  assert (S : ids_size [x] <= 5).
  { rewrite ids_size_one. unfold len_len. destruct (2097152 <=? x), (16384 <=? x), (128 <=? x); lia. }
  lia.
Qed.

(** ** C01, exactly *)

(** The listed shapes are all there are: whenever the hypotheses of C01 fail the packet does not
    survive. *)
Theorem C01_exact ft p :
  rust_packet ft p ->
  (exists n out, Packet_write p [] = (Ok n, out) /\ Packet_read ft out None = (Ok (normalize p), []))
  <-> encodable p /\ roundtrip_safe p = true.
Proof.
  intros Hr. split.
  - intros (n & out & Ew & Er).
    assert (Hb : bad_disconnect p = false).
    { destruct (bad_disconnect p) eqn:B; [|reflexivity]. exfalso.
      apply bad_disconnect_cases in B. destruct B as (d & -> & Hd & [Hp|(q & Hq & Hi)]).
      - rewrite bad_disconnect_none in Ew by assumption. injection Ew as <- <-.
        cbn [app] in Er.
        change [224; 1; disconnect_code (di_reason_code d); 0] with ([224; 1; disconnect_code (di_reason_code d)] ++ [0]) in Er.
        rewrite (framed_read ft None 224 [disconnect_code (di_reason_code d)] [224; 1; disconnect_code (di_reason_code d)] [0]) in Er.
        + apply (f_equal snd) in Er. discriminate Er.
        + exists [1]. split; [reflexivity|]. apply (varint_is_wire 1). unfold max_varint. lia.
        + constructor; [destruct (di_reason_code d); reflexivity|constructor].
        + constructor; [reflexivity|constructor].
        + exact I.
      - rewrite (bad_disconnect_empty _ _ _ Hq Hi) in Ew. injection Ew as <- <-. destruct ft; cbn in Er; injection Er as E _; congruence. }
    destruct (C13_success_means_encoding p [] n out Ew) as (He & _ & ->); [auto|exact Hb|].
    split; [exact He|]. cbn [app] in Er.
    assert (Hl : legacy_connack p = false).
    { destruct (legacy_connack p) eqn:L; [|reflexivity]. destruct p; try discriminate. cbn [legacy_connack] in L.
      rewrite (legacy_write _ _ L) in Ew. cbv zeta in Ew. destruct (_ <=? _); discriminate. }
    unfold roundtrip_safe. rewrite Hb, Hl. cbn [negb andb]. apply andb_true_iff.
    pose proof (encodable_body _ He) as [Hbody _].
    assert (HW : body_wire ft (first_byte p) (normalize p) (fields_bytes (body_fields p))).
    { apply body_read_wire; [apply first_byte_ok|eapply body_bytes_ok; eassumption|].
      rewrite <- (app_nil_r (encode p)) in Er.
      rewrite (framed_read ft None (first_byte p) (fields_bytes (body_fields p)) (encode p) []) in Er;
        [|apply encode_framed; exact He|eapply body_bytes_ok; eassumption|constructor|exact I].
      apply (f_equal fst) in Er. exact Er. }
    split.
    + destruct p; try reflexivity. apply (C21_publish_roundtrips_iff_ids_safe ft); auto.
      rewrite Ew. cbn [snd app]. exact Er.
    + destruct p as [c w l|a|p|a| | |s|a|a|a|a|u|a|d]; try reflexivity; cbn [normalize body_wire list_safe] in *.
      * destruct HW as [_ (? & ? & ? & _ & _ & _ & _ & H)]. cbn [su_filters] in H. destruct (su_filters s); [congruence|reflexivity].
      * destruct HW as [_ (? & ? & _ & _ & _ & H)]. cbn [sa_return_codes] in H. destruct (sa_return_codes a); [congruence|reflexivity].
      * destruct HW as [_ (? & ? & _ & _ & _ & H)]. cbn [ua_reasons] in H. destruct (ua_reasons a); [congruence|reflexivity].
  - intros [He Hs]. destruct (C01_write_then_read ft p [] None Hr He Hs) as (n & out & Ew & _ & R); [constructor|exact I|].
    exists n, out. rewrite app_nil_r in R. auto.
Qed.

(** ** C29 *)

(** A CONNECT with a login of which username or password is not empty reads back with that
    login, one with both empty without a login. *)
Theorem C29_login_presence ft c w u pw rest :
  let p := P_Connect c w (Some (mkLogin u pw)) in
  rust_packet ft p -> encodable p -> bytes_ok rest ->
  exists n out c' w',
    Packet_write p [] = (Ok n, out)
    /\ Packet_read ft (out ++ rest) None
       = (Ok (P_Connect c' w' (match u, pw with [], [] => None | _, _ => Some (mkLogin u pw) end)), rest).
Proof.
  intros p Hr He Hok. destruct (C01_write_then_read ft p rest None Hr He) as (n & out & Ew & _ & R); [reflexivity|exact Hok|exact I|].
  exists n, out. do 2 eexists. split; [exact Ew|]. rewrite R. unfold p. cbn [normalize normalize_login lo_username lo_password].
  destruct u, pw; reflexivity.
Qed.
Example C29_instances ft :
  Forall (fun l => Packet_read ft (snd (Packet_write (P_Connect (mkConnect 0 [] true None) None l) [])) None
                   = (Ok (P_Connect (mkConnect 0 [] true None) None l), []))
    [None; Some (mkLogin [117] []); Some (mkLogin [] [112]); Some (mkLogin [117] [112])]
  /\ Packet_read ft (snd (Packet_write (P_Connect (mkConnect 0 [] true None) None (Some (mkLogin [] []))) [])) None
     = (Ok (P_Connect (mkConnect 0 [] true None) None None), []).
Proof. destruct ft; repeat constructor. Qed.

(** ** C30 *)

(** Normal disconnection, or properties with something in them: the reason survives. *)
Theorem C30_reason_survives ft d rest :
  rust_packet ft (P_Disconnect d) -> encodable (P_Disconnect d) -> bytes_ok rest ->
  di_reason_code d = DRC_NormalDisconnection
  \/ (exists q, di_properties d = Some q /\ DisconnectProperties_items q <> []) ->
  exists n out d',
    Packet_write (P_Disconnect d) [] = (Ok n, out)
    /\ Packet_read ft (out ++ rest) None = (Ok (P_Disconnect d'), rest)
    /\ di_reason_code d' = di_reason_code d.
Proof.
  intros Hr He Hok H. destruct (C01_write_then_read ft (P_Disconnect d) rest None Hr He) as (n & out & Ew & _ & R).
  - unfold roundtrip_safe. cbn [bad_disconnect legacy_connack publish_safe list_safe].
    destruct H as [-> |(q & -> & Hq)]; [reflexivity|]. cbn [opt_items].
    destruct (DisconnectProperties_items q); [congruence|]. cbn [nonempty negb]. rewrite andb_false_r. reflexivity.
  - exact Hok.
  - exact I.
  - exists n, out. eexists. split; [exact Ew|]. split; [exact R|]. reflexivity.
Qed.
(** Any other reason with an empty property struct is turned into a normal disconnection. *)
Theorem C30_empty_properties_lose_reason_refuted ft d q rest :
  di_reason_code d <> DRC_NormalDisconnection -> di_properties d = Some q -> DisconnectProperties_items q = [] ->
  bytes_ok rest ->
  Packet_write (P_Disconnect d) [] = (Ok 2, [224; 0])
  /\ Packet_read ft ([224; 0] ++ rest) None = (Ok (P_Disconnect (mkDisconnect DRC_NormalDisconnection None)), rest).
Proof.
  intros Hr Hq Hi Hok. rewrite (bad_disconnect_empty _ _ _ Hq Hi). split; [reflexivity|].
  rewrite (framed_read ft None 224 [] [224; 0] rest); [|exists [0]; split; [reflexivity|apply (varint_is_wire 0); unfold max_varint; lia]|constructor|exact Hok|exact I].
  f_equal. 
Qed.
(** Without properties what is written cannot be read: the reader consumes three of the four
    bytes and asks for more. *)
Theorem C30_bare_disconnect_unreadable_refuted ft d rest :
  di_reason_code d <> DRC_NormalDisconnection -> di_properties d = None -> bytes_ok rest ->
  exists out, Packet_write (P_Disconnect d) [] = (Ok 3, out)
    /\ Packet_read ft (out ++ rest) None = (Err (InsufficientBytes 1), 0 :: rest).
Proof.
  intros Hr Hp Hok. rewrite (bad_disconnect_none d [] Hr Hp). cbn [app]. eexists. split; [reflexivity|].
  change ([224; 1; disconnect_code (di_reason_code d); 0] ++ rest) with ([224; 1; disconnect_code (di_reason_code d)] ++ (0 :: rest)).
  rewrite (framed_read ft None 224 [disconnect_code (di_reason_code d)] [224; 1; disconnect_code (di_reason_code d)] (0 :: rest)).
  - f_equal. destruct (di_reason_code d); try congruence; destruct ft; reflexivity.
  - exists [1]. split; [reflexivity|]. apply (varint_is_wire 1). unfold max_varint. lia.
  - constructor; [destruct (di_reason_code d); reflexivity|constructor].
  - constructor; [reflexivity|exact Hok].
  - exact I.
Qed.
Example C30_instances ft :
  Packet_read ft (snd (Packet_write s_disconnect [])) None = (Ok s_disconnect, [])
  /\ Packet_read ft (snd (Packet_write (P_Disconnect (mkDisconnect DRC_ServerBusy None)) [])) None = (Err (InsufficientBytes 1), [0])
  /\ Packet_read ft (snd (Packet_write (P_Disconnect (mkDisconnect DRC_ServerBusy (Some (mkDisconnectProperties None None [] None)))) [])) None
     = (Ok s_disconnect_normal, []).
Proof. destruct ft; repeat split; reflexivity. Qed.

(** ** C35 *)

(** If the encodings of two round-trippable packets begin two equal streams, the packets have
    the same normal form and the same encoding: encodings are unambiguous and none is a proper
    prefix of another. *)
Theorem C35_encodings_are_unambiguous ft p1 p2 r1 r2 :
  rust_packet ft p1 -> encodable p1 -> roundtrip_safe p1 = true ->
  rust_packet ft p2 -> encodable p2 -> roundtrip_safe p2 = true ->
  bytes_ok r1 -> encode p1 ++ r1 = encode p2 ++ r2 ->
  normalize p1 = normalize p2 /\ encode p1 = encode p2 /\ r1 = r2.
Proof.
  intros. apply (C37_wire_language_unambiguous ft _ _ _ _ r1 r2); try (apply encode_frame_wire; assumption); [|assumption].
  apply bytes_ok_app. split; [eapply encode_bytes_ok; eassumption|assumption].
Qed.
Theorem C35_different_packets_different_bytes ft p1 p2 n1 n2 out1 out2 more :
  rust_packet ft p1 -> roundtrip_safe p1 = true -> rust_packet ft p2 -> roundtrip_safe p2 = true ->
  Packet_write p1 [] = (Ok n1, out1) -> Packet_write p2 [] = (Ok n2, out2) ->
  normalize p1 <> normalize p2 -> out2 <> out1 ++ more.
Proof.
  intros Hr1 Hs1 Hr2 Hs2 E1 E2 Hne E.
  assert (B1 : bad_disconnect p1 = false) by (unfold roundtrip_safe in Hs1; rewrite !andb_true_iff, !negb_true_iff in Hs1; tauto).
  assert (B2 : bad_disconnect p2 = false) by (unfold roundtrip_safe in Hs2; rewrite !andb_true_iff, !negb_true_iff in Hs2; tauto).
  destruct (C13_success_means_encoding p1 [] n1 out1 E1) as (He1 & _ & ->); [auto|exact B1|].
  destruct (C13_success_means_encoding p2 [] n2 out2 E2) as (He2 & _ & ->); [auto|exact B2|].
  cbn [app] in E. apply Hne.
  assert (Hm : bytes_ok more).
  { pose proof (encode_bytes_ok ft p2 Hr2 He2) as K. rewrite E in K. apply bytes_ok_app in K. tauto. }
  apply (C35_encodings_are_unambiguous ft p1 p2 more []); auto. rewrite app_nil_r. symmetry. exact E.
Qed.
Example C35_instance :
  encode s_pubrel <> encode (P_PubComp (mkPubComp 11 PCR_Success None))
  /\ encode (P_PubAck (mkPubAck 1 PAR_Success None)) <> encode (P_PubAck (mkPubAck 1 PAR_Success (Some (mkPubAckProperties None []))))
  /\ normalize (P_PubAck (mkPubAck 1 PAR_Success None)) = normalize (P_PubAck (mkPubAck 1 PAR_Success (Some (mkPubAckProperties None [])))).
Proof. repeat split; discriminate. Qed.
