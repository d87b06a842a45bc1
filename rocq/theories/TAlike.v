(** C35 for every packet that can be written, not only those that survive a round trip: the bytes tell the packet. *)
From Coq Require Import Lia.
From Verif Require Import Types MLib Model Spec Wire Samples PBase PVarint PItems PProps PWire PWrite PRound Driver.
From Verif Require Import TFraming TWrite TRound TDriver TBack TFields TPeer.

Lemma item_prefix_sized ft i j x y :
  property_kind (fst i) = Some (value_kind (snd i)) -> value_ok ft (snd i) -> enc (item_fields i) ->
  property_kind (fst j) = Some (value_kind (snd j)) -> value_ok ft (snd j) -> enc (item_fields j) ->
  fields_bytes (item_fields i) ++ x = fields_bytes (item_fields j) ++ y -> i = j /\ x = y.
Proof.
  destruct i as [id v], j as [id' v']. unfold item_fields. cbn [fst snd]. intros K1 V1 E1 K2 V2 E2 E.
  rewrite !fields_bytes_cons in E. cbn [field_bytes app] in E. injection E as -> E.
  rewrite K1 in K2. injection K2 as K.
  destruct v, v'; try discriminate K; cbn [value_fields value_ok] in *; encs; rewrite ?fields_bytes_cons in E;
    change (fields_bytes []) with (@nil N) in E; rewrite ?app_nil_r in E; rewrite <- ?app_assoc in E;
    repeat match goal with
    | H : field_error (FBin _) = None |- _ => apply bin_small in H
    | H : field_error (FVar _) = None |- _ => apply var_small in H
    end.
  - cbn [field_bytes app] in E. injection E as -> ->. auto.
  - apply two_prefix in E; [destruct E as [-> ->]; auto|assumption..].
  - apply four_prefix in E; [destruct E as [-> ->]; auto|assumption..].
  - apply var_prefix in E; [destruct E as [-> ->]; auto|assumption..].
  - apply bin_prefix in E; [destruct E as [-> ->]; auto|lia..].
  - apply bin_prefix in E; [destruct E as [-> ->]; auto|lia..].
  - apply bin_prefix in E; [|lia..]. destruct E as [-> E]. apply bin_prefix in E; [destruct E as [-> ->]; auto|lia..].
Qed.
Lemma items_alike ft a p : forall b q,
  Forall (wk a) p -> items_ok ft p -> enc (items_fields p) -> Forall (wk b) q -> items_ok ft q -> enc (items_fields q) ->
  fields_bytes (items_fields p) = fields_bytes (items_fields q) -> p = q.
Proof.
  induction p as [|i p IH]; intros b [|j q] Wp Ip Ep Wq Iq Eq E; [reflexivity|..].
  - exfalso. symmetry in E. unfold items_fields in E. cbn [flat_map] in E. rewrite fields_bytes_app in E. apply app_eq_nil in E.
    apply (item_not_nil j). tauto.
  - exfalso. unfold items_fields in E. cbn [flat_map] in E. rewrite fields_bytes_app in E. apply app_eq_nil in E.
    apply (item_not_nil i). tauto.
  - apply Forall_cons_iff in Wp, Wq, Ip, Iq. destruct Wp as [[_ Hi] Wp], Wq as [[_ Hj] Wq], Ip as [Vi Ip], Iq as [Vj Iq].
    unfold items_fields in E, Ep, Eq. cbn [flat_map] in E, Ep, Eq. encs. rewrite !fields_bytes_app in E.
    apply (item_prefix_sized ft) in E; [|assumption..]. destruct E as [-> E]. f_equal. apply (IH b); assumption.
Qed.
Lemma section_alike ft a b p q x y :
  Forall (wk a) p -> items_ok ft p -> enc (section_fields p) -> Forall (wk b) q -> items_ok ft q -> enc (section_fields q) ->
  fields_bytes (section_fields p) ++ x = fields_bytes (section_fields q) ++ y -> p = q /\ x = y.
Proof.
  intros Wp Ip Ep Wq Iq Eq E. unfold section_fields in *. encs. apply var_small in H, H1.
  rewrite !fields_bytes_cons in E. cbn [field_bytes] in E. rewrite <- !app_assoc in E.
  apply var_prefix in E; [|assumption..]. destruct E as [E1 E]. apply blen_app_inv_tail in E; [|exact E1].
  destruct E as [E ->]. split; [|reflexivity]. apply (items_alike ft a p b q); assumption.
Qed.
(** Property structures with the same items are the same, but for none and an empty one. *)
Lemma opt_alike {A} (of : list item -> A) (items : A -> list item) o o' :
  (forall p, of (items p) = p) -> opt_items items o = opt_items items o' -> drop_empty items o = drop_empty items o'.
Proof.
  intros Hof E. destruct o as [p|], o' as [q|]; cbn [opt_items drop_empty] in *.
  - rewrite <- (Hof p), <- (Hof q), E. reflexivity.
  - rewrite E. reflexivity.
  - rewrite <- E. reflexivity.
  - reflexivity.
Qed.
Lemma opt_wk {A} (items : A -> list item) allowed o : (forall p, Forall (wk allowed) (items p)) -> Forall (wk allowed) (opt_items items o).
Proof. intros H. destruct o; cbn [opt_items]; [apply H|constructor]. Qed.

Lemma publish_alike ft p q : rust_packet ft (P_Publish p) -> rust_packet ft (P_Publish q) ->
  enc (body_fields (P_Publish p)) -> enc (body_fields (P_Publish q)) ->
  first_byte (P_Publish p) = first_byte (P_Publish q) ->
  fields_bytes (body_fields (P_Publish p)) = fields_bytes (body_fields (P_Publish q)) ->
  normalize (P_Publish p) = normalize (P_Publish q).
Proof.
  intros (T1 & K1 & P1 & I1) (T2 & K2 & P2 & I2) E1 E2 F E.
  assert (X : pu_dup p = pu_dup q /\ pu_qos p = pu_qos q /\ pu_retain p = pu_retain q).
  { clear -F. cbn [first_byte] in F. destruct p as [d1 q1 r1 ? ? ? ?], q as [d2 q2 r2 ? ? ? ?].
    cbn [pu_dup pu_qos pu_retain] in *. destruct d1, q1, r1, d2, q2, r2; try discriminate F; auto. }
  destruct X as (D & Q & R). cbn [body_fields] in E, E1, E2. encs.
  rewrite !fields_bytes_app, !fields_bytes_one in E.
  repeat match goal with H : field_error (FBin _) = None |- _ => apply bin_small in H end.
  apply bin_prefix in E; [|lia..]. destruct E as [Et E].
  assert (Y : match pu_qos p with AtMostOnce => 0 | _ => pu_pkid p end = match pu_qos q with AtMostOnce => 0 | _ => pu_pkid q end
    /\ fields_bytes (section_fields (opt_items PublishProperties_items (pu_properties p))) ++ pu_payload p
     = fields_bytes (section_fields (opt_items PublishProperties_items (pu_properties q))) ++ pu_payload q).
  { rewrite Q in *. destruct (pu_qos q); cbn [app field_bytes] in E; [split; [reflexivity|exact E]|..];
      encs; rewrite !fields_bytes_one in E;
      repeat match goal with H : field_error (FId _) = None |- _ => cbn [field_error] in H end; cbn [field_bytes] in E;
      (destruct (pu_pkid p =? 0); [discriminate|]); (destruct (pu_pkid q =? 0); [discriminate|]); apply two_prefix in E; assumption. }
  destruct Y as [Ek Es].
  apply (section_alike ft publish_allowed publish_allowed) in Es; try assumption; try (apply opt_wk, PublishProperties_items_wk).
  destruct Es as [Ei Ep]. cbn [normalize]. rewrite D, R, Et, Ek, Ep.
  rewrite (opt_alike _ _ _ _ PublishProperties_of_items Ei), Q. reflexivity.
Qed.

(** Lists that may be empty. *)
Lemma pkid_section_alike ft allowed (k k' : N) p q x y : k < 65536 -> k' < 65536 ->
  Forall (wk allowed) p -> items_ok ft p -> Forall (wk allowed) q -> items_ok ft q ->
  enc (section_fields p) -> enc (section_fields q) ->
  fields_bytes ([FTwo k] ++ section_fields p ++ x) = fields_bytes ([FTwo k'] ++ section_fields q ++ y) ->
  k = k' /\ p = q /\ fields_bytes x = fields_bytes y.
Proof.
  intros Hk Hk' Wp Ip Wq Iq Ep Eq E. rewrite !fields_bytes_app, !fields_bytes_one in E. cbn [field_bytes] in E.
  apply two_prefix in E; [|assumption..]. destruct E as [-> E].
  apply (section_alike ft allowed allowed) in E; try assumption. tauto.
Qed.
Lemma bytes_list_nil {A} (f : A -> N) l : fields_bytes (map (fun r => FByte (f r)) l) = [] -> l = [].
Proof. destruct l; [reflexivity|]. cbn [map]. rewrite fields_bytes_cons. discriminate. Qed.
Lemma filters_list_nil l : fields_bytes (flat_map filter_fields l) = [] -> l = [].
Proof. destruct l; [reflexivity|]. cbn [flat_map]. rewrite fields_bytes_app. unfold filter_fields. rewrite fields_bytes_cons. discriminate. Qed.

Lemma kinds_alike p q : first_byte p = first_byte q -> match p, q with
  | P_Connect _ _ _, P_Connect _ _ _ | P_ConnAck _, P_ConnAck _ | P_Publish _, P_Publish _ | P_PubAck _, P_PubAck _
  | P_PubRec _, P_PubRec _ | P_PubRel _, P_PubRel _ | P_PubComp _, P_PubComp _ | P_Subscribe _, P_Subscribe _
  | P_SubAck _, P_SubAck _ | P_Unsubscribe _, P_Unsubscribe _ | P_UnsubAck _, P_UnsubAck _ | P_PingReq, P_PingReq
  | P_PingResp, P_PingResp | P_Disconnect _, P_Disconnect _ => True
  | _, _ => False
  end.
Proof.
  intros F. destruct p as [| |p| | | | | | | | | | |], q as [| |q| | | | | | | | | | |]; try exact I; try discriminate F; cbn [first_byte] in F;
    repeat match goal with |- context [P_Publish ?p] => destruct p as [[] [] [] ? ? ? ?] | p : Publish |- _ => destruct p as [[] [] [] ? ? ? ?] end;
    discriminate F.
Qed.

(** Two encodings are equal only if the packets are, but for what [normalize] forgets. *)
Lemma encodings_alike ft p q : rust_packet ft p -> encodable p -> rust_packet ft q -> encodable q ->
  bad_disconnect p = false -> bad_disconnect q = false -> legacy_connack p = false -> legacy_connack q = false ->
  encode p = encode q -> normalize p = normalize q.
Proof.
  intros Hp Ep Hq Eq Bp Bq Lp Lq E.
  pose proof (encodable_body _ Ep) as [Fp Np]. pose proof (encodable_body _ Eq) as [Fq Nq].
  assert (S : roundtrip_safe p = true -> roundtrip_safe q = true -> normalize p = normalize q).
  { intros Sp Sq. apply (C35_encodings_are_unambiguous ft p q [] []); try assumption; [constructor|].
    rewrite !app_nil_r. exact E. }
  rewrite !encode_split in E. cbn [app] in E. injection E as F E. apply var_prefix in E; [|assumption..]. destruct E as [_ E].
  pose proof (kinds_alike p q F) as K. unfold roundtrip_safe in S. rewrite Bp, Bq, Lp, Lq in S. cbn [negb andb] in S.
  destruct p as [| |p| | | |p|p| | | | |p|], q as [| |q| | | |q|q| | | | |q|]; try contradiction K;
    try (apply S; reflexivity).
  - eapply publish_alike; eassumption.
  - cbn [publish_safe list_safe andb] in S.
    destruct (nonempty (su_filters p)) eqn:N1; destruct (nonempty (su_filters q)) eqn:N2; try (apply S; reflexivity); clear S;
      destruct Hp as (Kp & Ip & _), Hq as (Kq & Iq & _); cbn [body_fields] in E, Fp, Fq; encs;
      (apply (pkid_section_alike ft subscribe_allowed) in E; try assumption; try (apply opt_wk, SubscribeProperties_items_wk));
      destruct E as (Ek & Ei & El); cbn [normalize]; rewrite Ek, (opt_alike _ _ _ _ SubscribeProperties_of_items Ei).
    + destruct (su_filters q); [|discriminate N2]. apply filters_list_nil in El. rewrite El. reflexivity.
    + destruct (su_filters p); [|discriminate N1]. symmetry in El. apply filters_list_nil in El. rewrite El. reflexivity.
    + destruct (su_filters p), (su_filters q); try discriminate. reflexivity.
  - cbn [publish_safe list_safe andb] in S.
    destruct (nonempty (sa_return_codes p)) eqn:N1; destruct (nonempty (sa_return_codes q)) eqn:N2; try (apply S; reflexivity); clear S;
      destruct Hp as (Kp & Ip), Hq as (Kq & Iq); cbn [body_fields] in E, Fp, Fq; encs;
      (apply (pkid_section_alike ft ack_allowed) in E; try assumption; try (apply opt_wk, SubAckProperties_items_wk));
      destruct E as (Ek & Ei & El); cbn [normalize]; rewrite Ek, (opt_alike _ _ _ _ SubAckProperties_of_items Ei).
    + destruct (sa_return_codes q); [|discriminate N2]. apply bytes_list_nil in El. rewrite El. reflexivity.
    + destruct (sa_return_codes p); [|discriminate N1]. symmetry in El. apply bytes_list_nil in El. rewrite El. reflexivity.
    + destruct (sa_return_codes p), (sa_return_codes q); try discriminate. reflexivity.
  - cbn [publish_safe list_safe andb] in S.
    destruct (nonempty (ua_reasons p)) eqn:N1; destruct (nonempty (ua_reasons q)) eqn:N2; try (apply S; reflexivity); clear S;
      destruct Hp as (Kp & Ip), Hq as (Kq & Iq); cbn [body_fields] in E, Fp, Fq; encs;
      (apply (pkid_section_alike ft ack_allowed) in E; try assumption; try (apply opt_wk, UnsubAckProperties_items_wk));
      destruct E as (Ek & Ei & El); cbn [normalize]; rewrite Ek, (opt_alike _ _ _ _ UnsubAckProperties_of_items Ei).
    + destruct (ua_reasons q); [|discriminate N2]. apply bytes_list_nil in El. rewrite El. reflexivity.
    + destruct (ua_reasons p); [|discriminate N1]. symmetry in El. apply bytes_list_nil in El. rewrite El. reflexivity.
    + destruct (ua_reasons p), (ua_reasons q); try discriminate. reflexivity.
Qed.

(** ** C35: the bytes tell the packet *)

(** Two packets written without error into empty buffers, neither of them a DISCONNECT with an error code and a
    present-but-empty property structure: if the bytes of one begin the bytes of the other, nothing follows, and the packets
    are the same (but for present-but-empty properties, an empty login, and the unused id of a QoS 0 PUBLISH). *)
Definition empty_props_disconnect (p : Packet) : bool :=
  match p with
  | P_Disconnect d =>
      match di_reason_code d, di_properties d with
      | DRC_NormalDisconnection, _ | _, None => false
      | _, Some q => negb (nonempty (DisconnectProperties_items q))
      end
  | _ => false
  end.
Lemma disconnect_cases p : empty_props_disconnect p = false ->
  bad_disconnect p = false \/ exists d, p = P_Disconnect d /\ di_reason_code d <> DRC_NormalDisconnection /\ di_properties d = None.
Proof.
  intros H. destruct (bad_disconnect p) eqn:B; [right|left; reflexivity].
  apply bad_disconnect_cases in B. destruct B as (d & -> & Hd & [Hp|(q & Hq & Hi)]); [eauto|exfalso].
  cbn [empty_props_disconnect] in H. rewrite Hq, Hi in H. destruct (di_reason_code d); try discriminate H. congruence.
Qed.
(** A DISCONNECT that is written well is not one byte long. *)
Lemma disconnect_not_one d c x y : encodable (P_Disconnect d) -> encode (P_Disconnect d) ++ x <> [224; 1; c; 0] ++ y.
Proof.
  intros He E. pose proof (encodable_body _ He) as [_ Hn]. rewrite encode_split in E. cbn [app first_byte] in E. injection E as E.
  rewrite <- app_assoc in E. change (1 :: c :: 0 :: y) with (varint 1 ++ c :: 0 :: y) in E.
  apply var_prefix in E; [|exact Hn|unfold max_varint; lia]. destruct E as [E _]. cbn [body_fields] in E.
  destruct (_ && _); [discriminate E|]. cbn [app] in E. rewrite fields_bytes_cons in E. cbn [field_bytes app] in E.
  rewrite blen_cons in E.
  assert (Z : fields_bytes (section_fields (opt_items DisconnectProperties_items (di_properties d))) = []).
  { destruct (fields_bytes _) as [|b l]; [reflexivity|]. rewrite blen_cons in E. lia. }
  apply (section_not_nil (opt_items DisconnectProperties_items (di_properties d)) []). rewrite app_nil_r. exact Z.
Qed.
Lemma disconnect_code_inj r r' : disconnect_code r = disconnect_code r' -> r = r'.
Proof. destruct r, r'; intros E; first [reflexivity | discriminate E]. Qed.

Theorem C35_written_bytes_tell_the_packet ft p1 p2 n1 n2 out1 out2 more :
  rust_packet ft p1 -> rust_packet ft p2 ->
  empty_props_disconnect p1 = false -> empty_props_disconnect p2 = false ->
  Packet_write p1 [] = (Ok n1, out1) -> Packet_write p2 [] = (Ok n2, out2) -> out2 = out1 ++ more ->
  more = [] /\ normalize p1 = normalize p2.
Proof.
  intros Hr1 Hr2 D1 D2 E1 E2 E.
  assert (L : forall p n out, Packet_write p [] = (Ok n, out) -> legacy_connack p = false).
  { intros p n out Ew. destruct (legacy_connack p) eqn:L; [|reflexivity]. destruct p; try discriminate. cbn [legacy_connack] in L.
    rewrite (legacy_write _ _ L) in Ew. cbv zeta in Ew. destruct (_ <=? _); discriminate. }
  pose proof (L _ _ _ E1) as L1. pose proof (L _ _ _ E2) as L2. clear L.
  destruct (disconnect_cases p1 D1) as [B1|(d1 & -> & R1 & P1)]; destruct (disconnect_cases p2 D2) as [B2|(d2 & -> & R2 & P2)].
  - destruct (C13_success_means_encoding p1 [] n1 out1 E1) as (He1 & _ & ->); [auto|exact B1|].
    destruct (C13_success_means_encoding p2 [] n2 out2 E2) as (He2 & _ & ->); [auto|exact B2|].
    cbn [app] in E. assert (M : more = []).
    { rewrite !encode_split in E. cbn [app] in E. injection E as _ E. rewrite <- app_assoc in E.
      pose proof (encodable_body _ He1) as [_ N1]. pose proof (encodable_body _ He2) as [_ N2].
      apply var_prefix in E; [|assumption..]. destruct E as [S E].
      apply (f_equal blen) in E. rewrite blen_app in E. destruct more; [reflexivity|]. rewrite blen_cons in E. lia. }
    split; [exact M|]. subst more. rewrite app_nil_r in E. apply (encodings_alike ft); auto.
  - exfalso. destruct (C13_success_means_encoding p1 [] n1 out1 E1) as (He1 & _ & ->); [auto|exact B1|].
    rewrite bad_disconnect_none in E2 by assumption. injection E2 as _ <-. cbn [app] in E.
    assert (K : first_byte p1 = first_byte (P_Disconnect d2)).
    { rewrite encode_split in E. cbn [app] in E. injection E as E _. symmetry. exact E. }
    apply kinds_alike in K. destruct p1; try contradiction K.
    apply (disconnect_not_one d (disconnect_code (di_reason_code d2)) more [] He1). symmetry. exact E.
  - exfalso. destruct (C13_success_means_encoding p2 [] n2 out2 E2) as (He2 & _ & ->); [auto|exact B2|].
    rewrite bad_disconnect_none in E1 by assumption. injection E1 as _ <-. cbn [app] in E.
    assert (K : first_byte p2 = first_byte (P_Disconnect d1)).
    { rewrite encode_split in E. cbn [app] in E. injection E as E _. exact E. }
    apply kinds_alike in K. destruct p2; try contradiction K.
    apply (disconnect_not_one d (disconnect_code (di_reason_code d1)) [] more He2). rewrite app_nil_r. exact E.
  - rewrite bad_disconnect_none in E1, E2 by assumption. injection E1 as _ <-. injection E2 as _ <-. cbn [app] in E.
    injection E as Ec <-. split; [reflexivity|]. apply disconnect_code_inj in Ec. cbn [normalize]. rewrite P1, P2, Ec. reflexivity.
Qed.
(** What the exception is about: written as a normal disconnection. *)
Theorem C35_empty_props_disconnect_refuted r :
  Packet_write (P_Disconnect (mkDisconnect r (Some (mkDisconnectProperties None None [] None)))) []
  = Packet_write (P_Disconnect (mkDisconnect DRC_NormalDisconnection None)) [].
Proof. destruct r; reflexivity. Qed.

(** Streams: written packet by packet. *)
Definition written (p : Packet) (out : bytes) : Prop := exists n, Packet_write p [] = (Ok n, out).
Lemma write_all_pieces_after ps : Forall (fun p => is_connect p = false) ps -> forall buf s,
  write_all ps buf = (Ok tt, s) <-> exists outs, Forall2 written ps outs /\ s = buf ++ concat outs.
Proof.
  induction 1 as [|p ps Hp Hps IH]; intros buf s; cbn [write_all].
  - unfold wret. split.
    + intros E. injection E as <-. exists []. split; [constructor|]. cbn [concat]. rewrite app_nil_r. reflexivity.
    + intros (outs & F & ->). inversion F. cbn [concat]. rewrite app_nil_r. reflexivity.
  - destruct (C12_write_only_appends p Hp) as (r & out & W). unfold wbind. rewrite (W buf).
    pose proof (W []) as W0. cbn [app] in W0. split.
    + destruct r as [n|e| |]; try discriminate. intros E. apply IH in E. destruct E as (outs & F & ->).
      exists (out :: outs). split; [constructor; [exists n; exact W0|exact F]|]. cbn [concat]. rewrite app_assoc. reflexivity.
    + intros (outs & F & ->). inversion F as [|? o ? os [n En] F' E1 E2]; subst. rewrite W0 in En. injection En as -> <-.
      apply IH. exists os. split; [exact F'|]. cbn [concat]. rewrite app_assoc. reflexivity.
Qed.
Lemma write_all_pieces ps s : Forall (fun p => is_connect p = false) (tl ps) ->
  write_all ps [] = (Ok tt, s) <-> exists outs, Forall2 written ps outs /\ s = concat outs.
Proof.
  intros H. destruct ps as [|p ps]; [apply (write_all_pieces_after [] (Forall_nil _) [] s)|]. cbn [tl] in H. cbn [write_all]. unfold wbind. split.
  - destruct (Packet_write p []) as [[n|e| |] out] eqn:W; try discriminate. intros E. apply write_all_pieces_after in E; [|exact H].
    destruct E as (outs & F & ->). exists (out :: outs). split; [constructor; [exists n; exact W|exact F]|reflexivity].
  - intros (outs & F & ->). inversion F as [|? o ? os [n En] F' E1 E2]; subst. rewrite En. apply write_all_pieces_after; [exact H|].
    exists os. auto.
Qed.
Lemma written_prefix ft p q a b x y : rust_packet ft p -> rust_packet ft q ->
  empty_props_disconnect p = false -> empty_props_disconnect q = false -> written p a -> written q b ->
  a ++ x = b ++ y -> normalize p = normalize q /\ x = y.
Proof.
  intros Hp Hq Dp Dq [n Wp] [m Wq] E. apply app_eq_app in E. destruct E as (l & [[-> ->]|[-> ->]]).
  - destruct (C35_written_bytes_tell_the_packet ft q p m n b (b ++ l) l) as [-> Hn]; auto.
  - destruct (C35_written_bytes_tell_the_packet ft p q n m a (a ++ l) l) as [-> Hn]; auto.
Qed.
Lemma written_not_nil p : ~ written p [].
Proof.
  intros [n W]. assert (L : legacy_connack p = false).
  { destruct (legacy_connack p) eqn:L; [|reflexivity]. destruct p; try discriminate. cbn [legacy_connack] in L.
    rewrite (legacy_write _ _ L) in W. cbv zeta in W. destruct (_ <=? _); discriminate. }
  destruct (bad_disconnect p) eqn:B.
  - apply bad_disconnect_cases in B. destruct B as (d & -> & Hd & [Hp|(q & Hq & Hi)]).
    + rewrite bad_disconnect_none in W by assumption. discriminate W.
    + rewrite (bad_disconnect_empty _ _ _ Hq Hi) in W. discriminate W.
  - destruct (C13_success_means_encoding p [] n [] W) as (_ & _ & E); [auto|exact B|]. destruct p; discriminate E.
Qed.

(** If what one sender has written is the beginning of what another has written, its packets are, in normal form, the first
    packets of the other, and what follows is what the other has written for the rest.  For all packets, those that cannot be
    read back included, but for the DISCONNECT above; a CONNECT only as the first packet (C12). *)
Theorem C35_all_streams_are_unambiguous ft ps qs s more :
  Forall (fun p => rust_packet ft p /\ empty_props_disconnect p = false) ps -> Forall (fun p => is_connect p = false) (tl ps) ->
  Forall (fun p => rust_packet ft p /\ empty_props_disconnect p = false) qs -> Forall (fun p => is_connect p = false) (tl qs) ->
  write_all ps [] = (Ok tt, s) -> write_all qs [] = (Ok tt, s ++ more) ->
  exists firsts others, qs = firsts ++ others /\ map normalize firsts = map normalize ps
    /\ (ps <> [] -> write_all others [] = (Ok tt, more)) /\ (more = [] -> others = []).
Proof.
  intros Hp Cp Hq Cq Ep Eq. apply write_all_pieces in Ep; [|exact Cp]. apply write_all_pieces in Eq; [|exact Cq].
  destruct Ep as (a & Fa & ->). destruct Eq as (b & Fb & E).
  assert (X : exists firsts others bs, qs = firsts ++ others /\ map normalize firsts = map normalize ps /\ length firsts = length ps
              /\ Forall2 written others bs /\ concat bs = more).
  { clear Cp Cq. revert qs b Hq Fb E. induction Fa as [|p o ps os Wp Fa IH]; intros qs b Hq Fb E.
    - exists [], qs, b. repeat split; auto.
    - apply Forall_cons_iff in Hp. destruct Hp as [[Rp Dp] Hp]. cbn [concat] in E. rewrite <- app_assoc in E.
      destruct Fb as [|q o' qs os' Wq Fb].
      + exfalso. apply app_eq_nil in E. destruct E as [E _]. subst o. destruct (written_not_nil p Wp).
      + apply Forall_cons_iff in Hq. destruct Hq as [[Rq Dq] Hq]. cbn [concat] in E.
        destruct (written_prefix ft p q o o' _ _ Rp Rq Dp Dq Wp Wq E) as [En E'].
        destruct (IH Hp qs os' Hq Fb E') as (fs & others & bs & -> & Ef & El & F & Ec).
        exists (q :: fs), others, bs. cbn [app map length]. repeat split; auto; congruence. }
  destruct X as (firsts & others & bs & -> & Ef & El & F & <-). exists firsts, others. split; [reflexivity|]. split; [exact Ef|]. split.
  - intros Hne. apply write_all_pieces.
    + destruct firsts as [|f firsts]; [destruct ps; [congruence|discriminate El]|]. cbn [app tl] in Cq. apply Forall_app in Cq.
      destruct others; [constructor|]. destruct Cq as [_ Cq]. apply Forall_cons_iff in Cq. apply Cq.
    + exists bs. auto.
  - intros Z. destruct F as [|o b0 others bs W F]; [reflexivity|]. cbn [concat] in Z. apply app_eq_nil in Z. destruct Z as [-> _].
    destruct (written_not_nil o W).
Qed.
(** A PUBLISH whose identifiers are not all read back and a DISCONNECT that cannot be read. *)
Example C35_all_streams_instance :=
  let d := P_Disconnect (mkDisconnect DRC_ServerBusy None) in
  let p := P_Publish (mkPublish false AtMostOnce false [97] 0 [] (Some (mkPublishProperties None None None None None [] [1; 2; 3; 4] None))) in
  C35_all_streams_are_unambiguous F_binary [p; d] [p; d; P_PingResp]
    [48; 12; 0; 1; 97; 8; 11; 1; 11; 2; 11; 3; 11; 4; 224; 1; 137; 0] [208; 0]
    ltac:(repeat constructor) ltac:(repeat constructor) ltac:(repeat constructor) ltac:(repeat constructor) eq_refl eq_refl.
