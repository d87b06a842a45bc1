(** Every reader returns Ok or one of the expected errors: no panic, no divergence. *)
From Verif Require Import Types MLib MConnect Model Spec Wire PBase PVarint PUtf8 PRead PFrame PWire.
Ltac Zify.zify_post_hook ::= Z.div_mod_to_equations.

(** The errors a reader may report about the contents of a frame. *)
Definition body_error (e : error) : Prop :=
  match e with
  | InvalidConnectReturnCode _ | InvalidProtocol | InvalidProtocolLevel _ | IncorrectPacketFormat
  | InvalidPacketType _ | InvalidRetainForwardRule _ | InvalidQoS _ | InvalidSubscribeReasonCode _
  | PacketIdZero | EmptySubscription | PayloadRequired | TopicNotUtf8 | BoundaryCrossed _
  | MalformedPacket | MalformedRemainingLength | InvalidPropertyType _ => True
  | InsufficientBytes n => n = 1
  | _ => False
  end.

Definition tame {A} (Q : A -> Prop) (r : res A) : Prop :=
  match r with Ok a => Q a | Err e => body_error e | Panic => False | Diverge => False end.

Lemma tame_bind {A B} (Q : A -> Prop) (Q' : B -> Prop) r k :
  tame Q r -> (forall a, Q a -> tame Q' (k a)) -> tame Q' (rbind r k).
Proof. destruct r; cbn; auto; intros []. Qed.
Lemma tame_weaken {A} (Q Q' : A -> Prop) r : tame Q r -> (forall a, Q a -> Q' a) -> tame Q' r.
Proof. destruct r; cbn; auto. Qed.

(** What remains of the input: bytes, strictly fewer. *)
Definition shrinks {A} (b : bytes) (x : A * bytes) : Prop :=
  bytes_ok (snd x) /\ (length (snd x) < length b)%nat.
Definition noninc {A} (b : bytes) (x : A * bytes) : Prop :=
  bytes_ok (snd x) /\ (length (snd x) <= length b)%nat.

Lemma read_u8_tame b : bytes_ok b -> tame (fun x => shrinks b x /\ fst x < 256) (read_u8 b).
Proof.
  intros H. destruct b; cbn; [exact I|]. bok. repeat split; auto.
Qed.
Lemma read_u16_tame b : bytes_ok b -> tame (fun x => shrinks b x) (read_u16 b).
Proof.
  intros H. unfold read_u16, get_u16. destruct b as [|x [|y b]]; try exact I.
  rewrite !blen_cons. destruct (N.ltb_spec (1 + (1 + blen b)) 2); [exact I|].
  bok. split; cbn [snd length]; [assumption|lia].
Qed.
Lemma read_u32_tame b : bytes_ok b -> tame (fun x => shrinks b x) (read_u32 b).
Proof.
  intros H. unfold read_u32, get_u32. destruct b as [|x [|y [|z [|w b]]]]; try exact I.
  rewrite !blen_cons. destruct (N.ltb_spec (1 + (1 + (1 + (1 + blen b)))) 4); [exact I|].
  bok. split; cbn [snd length]; [assumption|lia].
Qed.
Lemma skipn_ok n b : bytes_ok b -> bytes_ok (skipn n b).
Proof. intros H. rewrite <- (firstn_skipn n b) in H. bok. Qed.
Lemma split_to_tame b n : bytes_ok b -> n <= blen b ->
  tame (fun x => bytes_ok (snd x) /\ (length (snd x) <= length b)%nat /\ blen (fst x) = n) (split_to b n).
Proof.
  intros H Hn. unfold split_to. rewrite (proj2 (N.leb_le _ _) Hn). cbn [tame fst snd].
  repeat split.
  - apply skipn_ok. exact H.
  - rewrite skipn_length. lia.
  - unfold blen in *. rewrite firstn_length. lia.
Qed.
Lemma read_mqtt_bytes_tame b : bytes_ok b -> tame (fun x => shrinks b x /\ blen (fst x) < 65536) (read_mqtt_bytes b).
Proof.
  intros H. unfold read_mqtt_bytes.
  destruct (read_u16 b) as [[n r]| | |] eqn:E; pose proof (read_u16_tame b H) as T; rewrite E in T; try exact T.
  cbn [rbind]. destruct T as [T1 T2]. cbn [snd] in *.
  destruct (read_u16_inv _ _ _ H E) as (l & -> & Hn & _).
  destruct (N.ltb_spec (blen r) n); [exact I|].
  eapply tame_weaken; [apply split_to_tame; assumption|].
  intros [s r'] (A & B & C). cbn [fst snd] in *. split; [split; [exact A|cbn [snd]; lia]|]. rewrite C. exact Hn.
Qed.
Lemma read_mqtt_string_tame ft b : bytes_ok b -> tame (fun x => shrinks b x /\ blen (fst x) < 65536) (read_mqtt_string ft b).
Proof.
  intros H. unfold read_mqtt_string. destruct ft; try (apply read_mqtt_bytes_tame; exact H);
    (eapply tame_bind; [apply read_mqtt_bytes_tame; exact H|]; intros [s r] [A B];
     destruct (from_utf8 s); [exact (conj A B)|exact I]).
Qed.
Lemma length_tame b : bytes_ok b ->
  tame (fun x => 1 <= fst x <= 4 /\ fst x <= blen b /\ snd x <= 268435455) (length_ b).
Proof.
  intros H. destruct (length_total b H) as [(l & rest & v & -> & Hw & E)|[(_ & _ & E)|(l & rest & _ & _ & _ & E)]];
    rewrite E; cbn; auto.
  apply varint_wire_bound in Hw. rewrite blen_app. lia.
Qed.
Lemma advance_tame b n : bytes_ok b -> n <= blen b ->
  tame (fun r => bytes_ok r /\ length r = (length b - N.to_nat n)%nat) (advance b n).
Proof.
  intros H Hn. unfold advance. rewrite (proj2 (N.leb_le _ _) Hn). cbn. split.
  - apply skipn_ok. exact H.
  - apply skipn_length.
Qed.

Lemma read_value_tame ft k b : bytes_ok b ->
  tame (fun x => shrinks b x /\ snd (fst x) <= 131074) (read_value ft k b).
Proof.
  intros H. destruct k; cbn [read_value].
  - eapply tame_bind; [apply read_u8_tame; exact H|]. intros [v r] [[A B] _]. cbn. repeat split; auto. lia.
  - eapply tame_bind; [apply read_u16_tame; exact H|]. intros [v r] [A B]. cbn. repeat split; auto. lia.
  - eapply tame_bind; [apply read_u32_tame; exact H|]. intros [v r] [A B]. cbn. repeat split; auto. lia.
  - eapply tame_bind; [apply length_tame; exact H|]. intros [n v] (A & B & C). cbn [fst snd] in *.
    eapply tame_bind; [apply advance_tame; [exact H|exact B]|]. intros r [D E]. cbn. split; [split|].
    + exact D.
    + cbn [snd]. unfold blen in B. lia.
    + lia.
  - eapply tame_bind; [apply read_mqtt_string_tame; exact H|]. intros [v r] [[A B] C]. cbn [fst snd] in *.
    cbn. repeat split; auto. lia.
  - eapply tame_bind; [apply read_mqtt_bytes_tame; exact H|]. intros [v r] [[A B] C]. cbn [fst snd] in *.
    cbn. repeat split; auto. lia.
  - eapply tame_bind; [apply read_mqtt_string_tame; exact H|]. intros [k r] [[A B] C]. cbn [fst snd] in *.
    eapply tame_bind; [apply read_mqtt_string_tame; exact A|]. intros [v r'] [[A' B'] C']. cbn [fst snd] in *.
    cbn. split; [split; [exact A'|cbn [snd]; lia]|]. lia.
Qed.

Lemma gstep_tame ft allowed prop seen b : bytes_ok b ->
  tame (fun x => shrinks b x /\ snd (fst x) <= 131074) (gstep ft allowed prop seen b).
Proof.
  intros H. unfold gstep. destruct (property_kind prop); [|exact I].
  destruct (mem prop allowed); [|exact I].
  eapply tame_bind; [apply read_value_tame; exact H|]. intros [[v n] r] [A B]. cbn. auto.
Qed.

Lemma gloop_tame ft allowed : forall fuel cursor plen seen b,
  bytes_ok b -> (length b < fuel)%nat -> plen <= 268435455 ->
  tame (fun x => noninc b x) (props_loop (gstep ft allowed) fuel cursor plen seen b).
Proof.
  induction fuel as [|fuel IH]; intros cursor plen seen b Hb Hf Hp; [lia|].
  cbn [props_loop]. destruct (N.ltb_spec cursor plen) as [L|L]; [|split; [exact Hb|cbn; lia]].
  eapply tame_bind; [apply read_u8_tame; exact Hb|]. intros [prop r] [[A B] C]. cbn [fst snd] in *.
  unfold usize_add at 1. rewrite (proj2 (N.ltb_lt (cursor + 1) usize_limit)) by (unfold usize_limit; lia).
  cbn [rbind]. eapply tame_bind; [apply gstep_tame; exact A|]. intros [[st n] r'] [[A' B'] C']. cbn [fst snd] in *.
  unfold usize_add at 1. rewrite (proj2 (N.ltb_lt (cursor + 1 + n) usize_limit)) by (unfold usize_limit; lia).
  cbn [rbind]. eapply tame_weaken; [apply IH; [exact A'|lia|exact Hp]|].
  intros x [D E]. split; [exact D|lia].
Qed.

Lemma gread_tame ft allowed b : bytes_ok b -> tame (fun x => shrinks b x) (gread ft allowed b).
Proof.
  intros H. unfold gread, props_read.
  eapply tame_bind; [apply length_tame; exact H|]. intros [n v] (A & B & C). cbn [fst snd] in *.
  eapply tame_bind; [apply advance_tame; [exact H|exact B]|]. intros r [D E].
  unfold blen in B.
  destruct (v =? 0); [split; [exact D|cbn [snd]; lia]|].
  eapply tame_bind; [apply gloop_tame; [exact D|lia|exact C]|]. intros [st r'] [D' E']. cbn [snd] in *.
  split; [exact D'|cbn [snd]; lia].
Qed.

Lemma section_tame {A} ft (rd : bytes -> res (option A * bytes)) allowed of b :
  reads_section ft rd allowed of -> bytes_ok b -> tame (fun x => shrinks b x) (rd b).
Proof.
  intros Hrd H. rewrite Hrd. eapply tame_bind; [apply gread_tame; exact H|]. intros [o r] X. exact X.
Qed.

Lemma total_tame {A} (r : res A) e : body_error e -> (exists a, r = Ok a) \/ r = Err e -> tame (fun _ => True) r.
Proof. intros He [[a ->]| ->]; [exact I|exact He]. Qed.

(** Extends the tactic database: one step of a reader. *)
Ltac rstep :=
  match goal with
  | |- tame _ (rbind (read_u8 ?b) _) => eapply tame_bind; [apply read_u8_tame; assumption|]; intros [? ?] [[? ?] ?]; cbn [fst snd] in *
  | |- tame _ (rbind (read_u16 ?b) _) => eapply tame_bind; [apply read_u16_tame; assumption|]; intros [? ?] [? ?]; cbn [fst snd] in *
  | |- tame _ (rbind (read_mqtt_bytes ?b) _) => eapply tame_bind; [apply read_mqtt_bytes_tame; assumption|]; intros [? ?] [[? ?] ?]; cbn [fst snd] in *
  | |- tame _ (rbind (read_mqtt_string ?f ?b) _) => eapply tame_bind; [apply read_mqtt_string_tame; assumption|]; intros [? ?] [[? ?] ?]; cbn [fst snd] in *
  end.
Ltac secr sec := eapply tame_bind; [eapply section_tame; [apply sec|assumption]|]; intros [? ?] [? ?]; cbn [fst snd] in *.
Ltac codr tot := eapply tame_bind; [eapply total_tame; [|apply tot]; exact I|]; intros ? _.

Lemma tame_true {A} (Q : A -> Prop) r : tame Q r -> tame (fun _ => True) r.
Proof. intros H. eapply tame_weaken; [exact H|auto]. Qed.

Lemma skip_tame {A} b n (k : bytes -> res A) : bytes_ok b -> n <= blen b ->
  (forall r, bytes_ok r -> tame (fun _ => True) (k r)) -> tame (fun _ => True) (rbind (advance b n) k).
Proof.
  intros Hb Hn Hk. eapply tame_bind; [apply advance_tame; assumption|]. intros r [Hr _]. auto.
Qed.

Section Readers.
Context (ft : feature) (h : FixedHeader) (b : bytes) (Hb : bytes_ok b) (Hh : fh_fixed_header_len h <= blen b).

Lemma PubAck_tame : tame (fun _ => True) (PubAck_read ft h b).
Proof.
  apply skip_tame; try assumption. intros r Hr. rstep. destruct (fh_remaining_len h =? 2); [exact I|]. rstep.
  destruct (fh_remaining_len h <? 4); [codr PubAck_reason_total; exact I|].
  secr (PubAckProperties_read_section ft). codr PubAck_reason_total. exact I.
Qed.
Lemma PubRec_tame : tame (fun _ => True) (PubRec_read ft h b).
Proof.
  apply skip_tame; try assumption. intros r Hr. rstep. destruct (fh_remaining_len h =? 2); [exact I|]. rstep.
  destruct (fh_remaining_len h <? 4); [codr PubRec_reason_total; exact I|].
  secr (PubRecProperties_read_section ft). codr PubRec_reason_total. exact I.
Qed.
Lemma PubRel_tame : tame (fun _ => True) (PubRel_read ft h b).
Proof.
  apply skip_tame; try assumption. intros r Hr. rstep. destruct (fh_remaining_len h =? 2); [exact I|]. rstep.
  destruct (fh_remaining_len h <? 4); [codr PubRel_reason_total; exact I|].
  secr (PubRelProperties_read_section ft). codr PubRel_reason_total. exact I.
Qed.
Lemma PubComp_tame : tame (fun _ => True) (PubComp_read ft h b).
Proof.
  apply skip_tame; try assumption. intros r Hr. rstep. destruct (fh_remaining_len h =? 2); [exact I|]. rstep.
  destruct (fh_remaining_len h <? 4); [codr PubComp_reason_total; exact I|].
  secr (PubCompProperties_read_section ft). codr PubComp_reason_total. exact I.
Qed.
Lemma ConnAck_tame : tame (fun _ => True) (ConnAck_read ft h b).
Proof.
  apply skip_tame; try assumption. intros r Hr. rstep. rstep.
  secr (ConnAckProperties_read_section ft). codr connect_return_total. exact I.
Qed.
Lemma Publish_tame : tame (fun _ => True) (Publish_read ft h b).
Proof.
  unfold Publish_read. destruct (qos _); [|exact I].
  apply skip_tame; try assumption. intros r Hr. rstep.
  eapply (tame_bind (fun x => bytes_ok (snd x))).
  { destruct q; [assumption| |]; (eapply tame_weaken; [apply read_u16_tame; assumption|]; intros x [? ?]; assumption). }
  intros [pk r'] Hr'. destruct (_ && _); [exact I|].
  secr (PublishProperties_read_section ft). exact I.
Qed.

Lemma Filter_loop_tame fuel : forall fs l, bytes_ok l -> (length l < fuel)%nat ->
  tame (fun _ => True) (Filter_read_loop ft fuel fs l).
Proof.
  induction fuel as [|fuel IH]; intros fs l Hl Hf; [lia|]. cbn [Filter_read_loop].
  destruct l as [|x l]; [exact I|]. rstep. rstep.
  eapply (tame_bind (fun _ => True)).
  { destruct (N.land _ 3) as [|p]; [exact I|]. destruct p as [[]|[]|]; exact I. }
  intros rule _. destruct (qos _); [|exact I]. apply IH; [assumption|lia].
Qed.
Lemma Subscribe_tame : tame (fun _ => True) (Subscribe_read ft h b).
Proof.
  apply skip_tame; try assumption. intros r Hr. rstep. secr (SubscribeProperties_read_section ft).
  eapply tame_bind; [apply Filter_loop_tame; [assumption|lia]|]. intros fs _. destruct fs; exact I.
Qed.
Lemma SubAck_loop_tame fuel : forall fs l, bytes_ok l -> (length l < fuel)%nat ->
  tame (fun _ => True) (SubAck_read_loop fuel fs l).
Proof.
  induction fuel as [|fuel IH]; intros fs l Hl Hf; [lia|]. cbn [SubAck_read_loop].
  destruct l as [|x l]; [exact I|]. rstep. codr SubAck_reason_total. apply IH; [assumption|lia].
Qed.
Lemma SubAck_tame : tame (fun _ => True) (SubAck_read ft h b).
Proof.
  apply skip_tame; try assumption. intros r Hr. rstep. secr (SubAckProperties_read_section ft).
  match goal with |- tame _ (match ?l with _ => _ end) => destruct l eqn:E; [exact I|] end. rewrite <- E in *.
  eapply tame_bind; [apply SubAck_loop_tame; [assumption|lia]|]. intros fs _. exact I.
Qed.
Lemma UnsubAck_loop_tame fuel : forall fs l, bytes_ok l -> (length l < fuel)%nat ->
  tame (fun _ => True) (UnsubAck_read_loop fuel fs l).
Proof.
  induction fuel as [|fuel IH]; intros fs l Hl Hf; [lia|]. cbn [UnsubAck_read_loop].
  destruct l as [|x l]; [exact I|]. rstep. codr UnsubAck_reason_total. apply IH; [assumption|lia].
Qed.
Lemma UnsubAck_tame : tame (fun _ => True) (UnsubAck_read ft h b).
Proof.
  apply skip_tame; try assumption. intros r Hr. rstep. secr (UnsubAckProperties_read_section ft).
  match goal with |- tame _ (match ?l with _ => _ end) => destruct l eqn:E; [exact I|] end. rewrite <- E in *.
  eapply tame_bind; [apply UnsubAck_loop_tame; [assumption|lia]|]. intros fs _. exact I.
Qed.
Lemma Unsubscribe_loop_tame fuel : forall fs l, bytes_ok l -> (length l < fuel)%nat ->
  tame (fun _ => True) (Unsubscribe_read_loop ft fuel fs l).
Proof.
  induction fuel as [|fuel IH]; intros fs l Hl Hf; [lia|]. cbn [Unsubscribe_read_loop].
  destruct l as [|x l]; [exact I|]. rstep. apply IH; [assumption|lia].
Qed.
Lemma Unsubscribe_tame : tame (fun _ => True) (Unsubscribe_read ft h b).
Proof.
  apply skip_tame; try assumption. intros r Hr. rstep. secr (UnsubscribeProperties_read_section ft).
  eapply tame_bind; [apply Unsubscribe_loop_tame; [assumption|lia]|]. intros fs _. exact I.
Qed.
Lemma Disconnect_tame : tame (fun _ => True) (Disconnect_read ft h b).
Proof.
  apply skip_tame; try assumption. intros r Hr. destruct (negb _); [exact I|]. destruct (negb _); [exact I|].
  destruct (fh_remaining_len h =? 0); [exact I|]. rstep. codr DisconnectReasonCode_try_from_total.
  secr (DisconnectProperties_extract_section ft). exact I.
Qed.
Lemma LastWill_tame flags l : bytes_ok l -> tame (fun x => bytes_ok (snd x)) (LastWill_read ft flags l).
Proof.
  intros Hl. unfold LastWill_read. destruct (N.land flags 4 =? 0); [destruct (negb _); [exact I|exact Hl]|].
  secr (LastWillProperties_read_section ft). rstep. rstep. destruct (qos _); [assumption|exact I].
Qed.
Lemma opt_str_tame (c : bool) l : bytes_ok l ->
  tame (fun x => bytes_ok (snd x)) (if c then Ok ([], l) else read_mqtt_string ft l).
Proof.
  intros Hl. destruct c; [exact Hl|]. eapply tame_weaken; [apply read_mqtt_string_tame; exact Hl|].
  intros x [[? ?] ?]. assumption.
Qed.
Lemma Login_tame flags l : bytes_ok l -> tame (fun x => bytes_ok (snd x)) (Login_read ft flags l).
Proof.
  intros Hl. unfold Login_read. eapply tame_bind; [apply opt_str_tame; exact Hl|]. intros [u r] Hr. cbn [snd] in Hr.
  eapply tame_bind; [apply opt_str_tame; exact Hr|]. intros [p r'] Hr'. destruct (_ && _); exact Hr'.
Qed.
Lemma Connect_tame : tame (fun _ => True) (Connect_read ft h b).
Proof.
  apply skip_tame; try assumption. intros r Hr. rstep. rstep.
  destruct (negb _); [exact I|]. destruct (negb _); [exact I|]. rstep. rstep.
  secr (ConnectProperties_read_section ft). rstep.
  eapply tame_bind; [apply LastWill_tame; assumption|]. intros [w r'] Hr'. cbn [snd] in Hr'.
  eapply tame_bind; [apply Login_tame; assumption|]. intros [u r''] _. exact I.
Qed.

End Readers.

Lemma frame_tame ft h b : bytes_ok b -> fh_fixed_header_len h <= blen b ->
  fh_byte1 h < 256 -> tame (fun _ => True) (Packet_read_frame ft h b).
Proof.
  intros Hb Hh H1. destruct h as [byte1 hl n]. cbn [fh_byte1 fh_fixed_header_len] in *.
  unfold Packet_read_frame. rewrite packet_type_cases. cbn [fh_remaining_len].
  assert (X : forall A (r : res A) f, tame (fun _ => True) r -> tame (fun _ : Packet => True) (rbind r (fun x => Ok (f x)))).
  { intros A r f T. eapply tame_bind; [exact T|]. intros; exact I. }
  pose proof (nibble_cases byte1 H1) as Hn. cbn [In] in Hn.
  repeat (destruct Hn as [<-|Hn]; [cbn [ptype rbind]; try exact I; destruct ((n =? 0) && _); try exact I|]); try contradiction.
  - eapply tame_bind; [apply Connect_tame; assumption|]. intros [[c w] l] _. exact I.
  - apply X, ConnAck_tame; assumption.
  - apply X, Publish_tame; assumption.
  - apply X, PubAck_tame; assumption.
  - apply X, PubRec_tame; assumption.
  - apply X, PubRel_tame; assumption.
  - apply X, PubComp_tame; assumption.
  - apply X, Subscribe_tame; assumption.
  - apply X, SubAck_tame; assumption.
  - apply X, Unsubscribe_tame; assumption.
  - apply X, UnsubAck_tame; assumption.
  - apply X, Disconnect_tame; assumption.
Qed.

Lemma body_read_tame ft byte1 body : byte1 < 256 -> bytes_ok body -> tame (fun _ => True) (body_read ft byte1 body).
Proof.
  intros H1 H2. apply frame_tame; [exact H2|cbn; lia|exact H1].
Qed.
