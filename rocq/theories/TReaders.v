(** The public per-packet readers used on their own (C53). *)
From Verif Require Import Types Model Spec Wire Sites Faults PBase PVarint PUtf8 PRead PItems PProps PFrame PWire PTotal
  PWrite PRound PBack PFaults TFraming TFields Samples.
Import Faults.
Ltac Zify.zify_post_hook ::= Z.div_mod_to_equations.

(** ** C53 *)

(** A reader that is given a header [h] and a buffer skips as many bytes as the header says the
    fixed header has, whatever they are, and decodes the rest: it returns [a] exactly when the rest
    spells [a], and an error exactly when the rest has the described defect. *)
Definition decodes {A} (rd : FixedHeader -> bytes -> res A) (applies : FixedHeader -> bytes -> Prop)
    (W : N -> A -> bytes -> Prop) (F : N -> fault) : Prop :=
  forall h head body, blen head = fh_fixed_header_len h -> fh_byte1 h < 256 -> bytes_ok body -> applies h body ->
  (forall a, rd h (head ++ body) = Ok a <-> W (fh_byte1 h) a body)
  /\ (forall e, rd h (head ++ body) = Err e <-> F (fh_byte1 h) body e).
(** Most readers use nothing of the header but its size. *)
Definition any_header (h : FixedHeader) (body : bytes) : Prop := True.
(** The acknowledgements also use the remaining length. *)
Definition right_length (h : FixedHeader) (body : bytes) : Prop := fh_remaining_len h = blen body.

Definition is_code {A} (code : A -> N) (c : N) : Prop := exists r, code r = c.

Lemma decodes_intro {A} (rd : FixedHeader -> bytes -> res A) (applies : FixedHeader -> bytes -> Prop) W F :
  (forall h head body, fh_fixed_header_len h = blen head ->
     rd h (head ++ body) = rd (mkFixedHeader (fh_byte1 h) 0 (fh_remaining_len h)) body) ->
  (forall byte1 n body, byte1 < 256 -> bytes_ok body -> applies (mkFixedHeader byte1 0 n) body ->
     (forall a, rd (mkFixedHeader byte1 0 n) body = Ok a <-> W byte1 a body)
     /\ (forall e, rd (mkFixedHeader byte1 0 n) body = Err e <-> F byte1 body e)) ->
  (forall h body, applies h body -> applies (mkFixedHeader (fh_byte1 h) 0 (fh_remaining_len h)) body) ->
  decodes rd applies W F.
Proof.
  intros H1 H2 H3 h head body Hl Hb Hok Ha.
  destruct (H2 (fh_byte1 h) (fh_remaining_len h) body Hb Hok (H3 _ _ Ha)) as [E1 E2].
  split; intros x; rewrite H1 by congruence; auto.
Qed.

Theorem C53_readers ft :
  decodes (Connect_read ft) any_header (fun _ '(c, w, l) => connect_wire ft c w l) (fun _ => connect_faulty ft)
  /\ decodes (ConnAck_read ft) any_header (fun _ => connack_wire ft) (fun _ => connack_faulty ft)
  /\ decodes (Publish_read ft) any_header (publish_wire ft) (publish_faulty ft)
  /\ decodes (PubAck_read ft) right_length
       (fun _ a => ack_wire ft PubAckProperties_of (pa_pkid a) (puback_code (pa_reason a)) (pa_properties a))
       (fun _ => ack_faulty ft (is_code puback_code))
  /\ decodes (PubRec_read ft) right_length
       (fun _ a => ack_wire ft PubRecProperties_of (pr_pkid a) (pubrec_code (pr_reason a)) (pr_properties a))
       (fun _ => ack_faulty ft (is_code pubrec_code))
  /\ decodes (PubRel_read ft) right_length
       (fun _ a => ack_wire ft PubRelProperties_of (pl_pkid a) (pubrel_code (pl_reason a)) (pl_properties a))
       (fun _ => ack_faulty ft (is_code pubrel_code))
  /\ decodes (PubComp_read ft) right_length
       (fun _ a => ack_wire ft PubCompProperties_of (pc_pkid a) (pubcomp_code (pc_reason a)) (pc_properties a))
       (fun _ => ack_faulty ft (is_code pubcomp_code))
  /\ decodes (Subscribe_read ft) any_header (fun _ => subscribe_wire ft) (fun _ => subscribe_faulty ft)
  /\ decodes (SubAck_read ft) any_header (fun _ => suback_wire ft) (fun _ => codes_faulty ft (is_code suback_code))
  /\ decodes (Unsubscribe_read ft) any_header (fun _ => unsubscribe_wire ft) (fun _ => unsubscribe_faulty ft)
  /\ decodes (UnsubAck_read ft) any_header (fun _ => unsuback_wire ft) (fun _ => codes_faulty ft (is_code unsuback_code))
  /\ decodes (Disconnect_read ft) (fun h body => right_length h body /\ fh_byte1 h / 16 = 14)
       (disconnect_wire ft) (disconnect_faulty ft).
Proof.
  repeat match goal with |- _ /\ _ => split end.
  all: apply decodes_intro;
    [intros [byte1 hl n] head body H; cbn [fh_byte1 fh_remaining_len fh_fixed_header_len] in *; subst hl;
     unfold Connect_read, Publish_read, Subscribe_read, Unsubscribe_read, ConnAck_read, PubAck_read,
       PubRec_read, PubRel_read, PubComp_read, SubAck_read, UnsubAck_read, Disconnect_read;
     cbn [fh_byte1 fh_remaining_len fh_fixed_header_len]; rewrite ?advance_app, ?advance_0; cbn [rbind]; reflexivity
    |
    |intros [byte1 hl n] body H; exact H].
  all: intros byte1 n body Hb Hok Ha; unfold any_header, right_length in Ha; cbn [fh_byte1 fh_remaining_len] in Ha;
    try subst n; split; [intros a|intros e].
  - destruct a as [[c w] l]. apply Connect_wire. exact Hok.
  - apply Connect_err. exact Hok.
  - apply ConnAck_wire. exact Hok.
  - apply ConnAck_err. exact Hok.
  - apply Publish_wire; assumption.
  - apply Publish_err; assumption.
  - apply PubAck_wire. exact Hok.
  - apply PubAck_err. exact Hok.
  - apply PubRec_wire. exact Hok.
  - apply PubRec_err. exact Hok.
  - apply PubRel_wire. exact Hok.
  - apply PubRel_err. exact Hok.
  - apply PubComp_wire. exact Hok.
  - apply PubComp_err. exact Hok.
  - apply Subscribe_wire. exact Hok.
  - apply Subscribe_err. exact Hok.
  - apply SubAck_wire. exact Hok.
  - apply SubAck_err. exact Hok.
  - apply Unsubscribe_wire. exact Hok.
  - apply Unsubscribe_err. exact Hok.
  - apply UnsubAck_wire. exact Hok.
  - apply UnsubAck_err. exact Hok.
  - destruct Ha as [-> Ha]. apply Disconnect_wire; assumption.
  - destruct Ha as [-> Ha]. apply Disconnect_err; assumption.
Qed.
(** The readers do not look at the packet type of the header (only DISCONNECT does): a SUBACK body
    read as UNSUBACK. *)
Example C53_instances ft :
  PubAck_read ft (mkFixedHeader 64 2 3) [1; 1; 0; 10; 16] = Ok (mkPubAck 10 PAR_NoMatchingSubscribers None)
  /\ SubAck_read ft (mkFixedHeader 144 2 4) [144; 4; 0; 7; 0; 128] = Ok (mkSubAck 7 [SRC_Unspecified] None)
  /\ UnsubAck_read ft (mkFixedHeader 144 2 4) [144; 4; 0; 7; 0; 128] = Ok (mkUnsubAck 7 [UAR_UnspecifiedError] None)
  /\ Connect_read ft (mkFixedHeader 0 0 0) [0; 4; 77; 81; 84; 84; 5; 2; 0; 60; 0; 0; 1; 99] = Ok (mkConnect 60 [99] true None, None, None)
  /\ Publish_read ft (mkFixedHeader 50 0 0) [0; 1; 97; 0; 0; 0] = Err PacketIdZero.
Proof. destruct ft; repeat split; reflexivity. Qed.

(** DISCONNECT does check the type and the flags. *)
Theorem C53_disconnect_checks_the_type ft h head body :
  blen head = fh_fixed_header_len h -> fh_byte1 h < 256 ->
  (fh_byte1 h / 16 <> 14 -> Disconnect_read ft h (head ++ body) = Err (InvalidPacketType (fh_byte1 h / 16)))
  /\ (fh_byte1 h / 16 = 14 -> fh_byte1 h <> 224 -> Disconnect_read ft h (head ++ body) = Err MalformedPacket).
Proof.
  intros Hl Hb. unfold Disconnect_read. rewrite <- Hl, advance_app. cbn [rbind]. rewrite mask_15 by exact Hb.
  rewrite N.shiftr_div_pow2. change (2 ^ 4) with 16. split.
  - intros H. destruct (N.eqb_spec (fh_byte1 h / 16) 14); [contradiction|reflexivity].
  - intros H H'. rewrite H. change (14 =? 14) with true. cbn [negb].
    destruct (N.eqb_spec (fh_byte1 h mod 16) 0); [exfalso; lia|reflexivity].
Qed.

(** The acknowledgements believe the remaining length [n] of the header, not the buffer.  With
    [n = 2] they stop after the packet identifier; with another [n] below 4 after the reason code;
    otherwise they read a property section.  What follows in the buffer is not looked at. *)
Definition believed {A} (ft : feature) (of : list item -> A) (n pkid code : N) (o : option A) (body : bytes) : Prop :=
  exists lk, u16_wire pkid lk /\
  (if n =? 2 then exists junk, body = lk ++ junk /\ code = 0 /\ o = None
   else if n <? 4 then exists junk, body = lk ++ [code] ++ junk /\ o = None
   else exists ls junk, body = lk ++ [code] ++ ls ++ junk /\ props_wire ft ack_allowed of o ls).
Definition believed_faulty (ft : feature) (valid : N -> Prop) (n : N) : fault :=
  part u16_wire (fixed_faulty 2) (fun _ =>
  if n =? 2 then fine
  else part byte_wire (fixed_faulty 1) (fun code =>
    if n <? 4 then guard (valid code) (InvalidConnectReturnCode code) fine
    else part (section_wire ft ack_allowed) (section_faulty ft ack_allowed) (fun _ =>
         guard (valid code) (InvalidConnectReturnCode code) fine))).
Definition believes {A P} ft (rd : FixedHeader -> bytes -> res A) (of : list item -> P) (pkid : A -> N) (code : A -> N)
    (props : A -> option P) (valid : N -> Prop) : Prop :=
  forall h head body, blen head = fh_fixed_header_len h -> bytes_ok body ->
  (forall a, rd h (head ++ body) = Ok a <-> believed ft of (fh_remaining_len h) (pkid a) (code a) (props a) body)
  /\ (forall e, rd h (head ++ body) = Err e <-> believed_faulty ft valid (fh_remaining_len h) body e).

Ltac believes_ok rs_inv rs_code section :=
  split;
  [ let H := fresh "H" in let E1 := fresh "E1" in let E2 := fresh "E2" in let E3 := fresh "E3" in let E4 := fresh "E4" in
    intros H; bo H E1; apply read_u16_inv in E1; [|assumption]; destruct E1 as (lk & -> & Hk);
    exists lk; 
    match goal with |- context [?n =? 2] => destruct (N.eqb_spec n 2) as [E|E] end;
    [ ginv H; split; [exact Hk|]; eexists; split; [reflexivity|auto]
    | bo H E2; apply read_u8_inv in E2;
      match goal with |- context [?n <? 4] => destruct (N.ltb_spec n 4) end;
      bo H E3;
      [ apply rs_inv in E3; ginv H; split; [exact Hk|]; subst; eexists; split; [reflexivity|reflexivity]
      | bok; subst; bok; apply (section_read_inv _ _ _ _ _ _ _ section) in E3; [|assumption];
        let ls := fresh "ls" in let Hs := fresh "Hs" in destruct E3 as (ls & -> & Hs);
        bo H E4; apply rs_inv in E4; subst; ginv H; split; [exact Hk|];
        eexists _, _; split; [reflexivity|exact Hs] ] ]
  | intros (lk & Hk & H);
    match goal with |- context [?n =? 2] => destruct (N.eqb_spec n 2) as [E|E] end;
    [ destruct H as (junk & -> & Hc & Ho); rewrite (read_u16_app _ _ _ Hk); cbn [rbind]
    | match goal with |- context [?n <? 4] => destruct (N.ltb_spec n 4) end;
      [ destruct H as (junk & -> & Ho); rewrite (read_u16_app _ _ _ Hk); cbn [rbind app]; rewrite read_u8_cons; cbn [rbind];
        rewrite rs_code; cbn [rbind]
      | destruct H as (ls & junk & -> & Hs); rewrite (read_u16_app _ _ _ Hk); cbn [rbind app]; rewrite read_u8_cons; cbn [rbind];
        bok; rewrite (section_read_app _ _ _ _ _ _ _ section Hs) by assumption; cbn [rbind]; rewrite rs_code; cbn [rbind] ] ] ].
Ltac believes_err rs_total rs_code rs_inv section Hb :=
  unfold believed_faulty; apply (part_err _ _ _ _ _ _ _ u16_reader Hb);
  intros pkid l1 r E Hw _ Hr;
  match goal with |- context [?n =? 2] => destruct (N.eqb_spec n 2) as [E2|E2] end;
  [unfold fine; split; [discriminate|tauto]|];
  apply (part_err _ _ _ _ _ _ _ u8_reader Hr); intros code l2 r2 E3 Hw2 Hl2 Hr2;
  destruct (code_spec _ _ _ code (rs_total code) rs_code (rs_inv code)) as [C1 C2];
  match goal with |- context [?n <? 4] => destruct (N.ltb_spec n 4) end;
  [ apply (code_err _ _ _ _ code _ r2 C1 C2)
  | apply (props_err _ _ _ _ _ _ _ _ section Hr2); intros o l3 r3 _ _ _; apply (code_err _ _ _ _ code _ r3 C1 C2) ].

Theorem C53_acks_believe_the_header ft :
  believes ft (PubAck_read ft) PubAckProperties_of pa_pkid (fun a => puback_code (pa_reason a)) pa_properties (is_code puback_code)
  /\ believes ft (PubRec_read ft) PubRecProperties_of pr_pkid (fun a => pubrec_code (pr_reason a)) pr_properties (is_code pubrec_code)
  /\ believes ft (PubRel_read ft) PubRelProperties_of pl_pkid (fun a => pubrel_code (pl_reason a)) pl_properties (is_code pubrel_code)
  /\ believes ft (PubComp_read ft) PubCompProperties_of pc_pkid (fun a => pubcomp_code (pc_reason a)) pc_properties (is_code pubcomp_code).
Proof.
  repeat match goal with |- _ /\ _ => split end; intros h head body Hl Hb.
  all: unfold PubAck_read, PubRec_read, PubRel_read, PubComp_read; rewrite <- Hl, advance_app; cbn [rbind].
  - split; [intros a; unfold believed|intros e].
    + believes_ok PubAck_reason_inv PubAck_reason_code (PubAckProperties_read_section ft).
      all: destruct a as [k rs o]; cbn in *; subst; try reflexivity. destruct rs; try discriminate; reflexivity.
    + believes_err PubAck_reason_total PubAck_reason_code PubAck_reason_inv (PubAckProperties_read_section ft) Hb.
  - split; [intros a; unfold believed|intros e].
    + believes_ok PubRec_reason_inv PubRec_reason_code (PubRecProperties_read_section ft).
      all: destruct a as [k rs o]; cbn in *; subst; try reflexivity. destruct rs; try discriminate; reflexivity.
    + believes_err PubRec_reason_total PubRec_reason_code PubRec_reason_inv (PubRecProperties_read_section ft) Hb.
  - split; [intros a; unfold believed|intros e].
    + believes_ok PubRel_reason_inv PubRel_reason_code (PubRelProperties_read_section ft).
      all: destruct a as [k rs o]; cbn in *; subst; try reflexivity. destruct rs; try discriminate; reflexivity.
    + believes_err PubRel_reason_total PubRel_reason_code PubRel_reason_inv (PubRelProperties_read_section ft) Hb.
  - split; [intros a; unfold believed|intros e].
    + believes_ok PubComp_reason_inv PubComp_reason_code (PubCompProperties_read_section ft).
      all: destruct a as [k rs o]; cbn in *; subst; try reflexivity. destruct rs; try discriminate; reflexivity.
    + believes_err PubComp_reason_total PubComp_reason_code PubComp_reason_inv (PubCompProperties_read_section ft) Hb.
Qed.
(** A header that announces 3 bytes hides the properties that follow; one that announces 5 reads
    the bytes after the packet as properties. *)
Example C53_acks_believe_the_header_instance ft :
  PubAck_read ft (mkFixedHeader 64 2 3) ([64; 3] ++ [0; 10; 16; 2; 38]) = Ok (mkPubAck 10 PAR_NoMatchingSubscribers None)
  /\ PubAck_read ft (mkFixedHeader 64 2 5) ([64; 2] ++ [0; 10; 0; 7; 38; 0; 1; 97; 0; 1; 98])
     = Ok (mkPubAck 10 PAR_Success (Some (mkPubAckProperties None [([97], [98])])))
  /\ PubAck_read ft (mkFixedHeader 64 2 1) ([64; 1] ++ [0; 10]) = Err MalformedPacket
  /\ believed_faulty ft (is_code puback_code) 1 [0; 10] MalformedPacket.
Proof.
  split; [destruct ft; reflexivity|]. split; [destruct ft; vm_compute; reflexivity|]. split; [destruct ft; reflexivity|].
  apply (C53_acks_believe_the_header ft) with (h := mkFixedHeader 64 2 1) (head := [64; 1]); [reflexivity| |destruct ft; reflexivity].
  repeat constructor; vm_compute; reflexivity.
Qed.

(** So does DISCONNECT: announced as empty it is a normal disconnection whatever follows, otherwise
    a reason code and a property section are read. *)
Theorem C53_disconnect_believes_the_header ft h head body :
  blen head = fh_fixed_header_len h -> fh_byte1 h = 224 -> bytes_ok body ->
  (fh_remaining_len h = 0 -> Disconnect_read ft h (head ++ body) = Ok (mkDisconnect DRC_NormalDisconnection None))
  /\ (fh_remaining_len h <> 0 ->
      (forall d, Disconnect_read ft h (head ++ body) = Ok d <->
         exists ls junk, body = [disconnect_code (di_reason_code d)] ++ ls ++ junk
           /\ props_wire ft disconnect_allowed DisconnectProperties_of (di_properties d) ls)
      /\ (forall e, Disconnect_read ft h (head ++ body) = Err e <->
           part byte_wire (fixed_faulty 1) (fun code =>
           guard (is_code disconnect_code code) (InvalidConnectReturnCode code)
             (section_faulty ft disconnect_allowed)) body e)).
Proof.
  intros Hl H1 Hb. unfold Disconnect_read. rewrite <- Hl, advance_app, H1. cbn [rbind].
  change (N.shiftr 224 4) with 14. change (N.land 224 15) with 0. change (negb (14 =? 14)) with false. change (negb (0 =? 0)) with false. cbv iota.
  split; intros Hn.
  - rewrite Hn. reflexivity.
  - destruct (N.eqb_spec (fh_remaining_len h) 0) as [E|_]; [contradiction|]. split.
    + intros d. split.
      * intros H. bo H E1. apply read_u8_inv in E1. subst body. bok. bo H E2. apply DisconnectReasonCode_try_from_inv in E2. subst a.
        bo H E3. apply (section_read_inv _ _ _ _ _ _ _ (DisconnectProperties_extract_section ft)) in E3; [|assumption].
        destruct E3 as (ls & -> & Hs). ginv H. exists ls, x0. cbn. auto.
      * intros (ls & junk & -> & Hs). cbn [app]. rewrite read_u8_cons. cbn [rbind]. rewrite DisconnectReasonCode_try_from_code. cbn [rbind].
        bok. rewrite (section_read_app _ _ _ _ _ _ _ (DisconnectProperties_extract_section ft) Hs) by assumption. cbn [rbind].
        destruct d; reflexivity.
    + intros e. apply (part_err _ _ _ _ _ _ _ u8_reader Hb). intros code l r _ _ _ Hr.
      destruct (code_spec _ _ _ code (DisconnectReasonCode_try_from_total code) DisconnectReasonCode_try_from_code (DisconnectReasonCode_try_from_inv code)) as [C1 C2].
      unfold guard, is_code. destruct C1 as [E|[x E]]; rewrite E; cbn [rbind].
      * assert (~ exists x, disconnect_code x = code) by (intros C; apply C2 in C; destruct C; congruence).
        split; [intros X; injection X as <-; tauto|]. intros [[_ ->]|[? _]]; [reflexivity|contradiction].
      * assert (exists x, disconnect_code x = code) by (apply C2; exists x; exact E).
        rewrite (props_err_last _ _ _ _ _ _ _ (DisconnectProperties_extract_section ft) Hr) by (intros [? ?]; discriminate). tauto.
Qed.
Example C53_disconnect_believes_the_header_instance ft :
  Disconnect_read ft (mkFixedHeader 224 2 0) ([224; 0] ++ [142; 0]) = Ok (mkDisconnect DRC_NormalDisconnection None)
  /\ Disconnect_read ft (mkFixedHeader 224 2 1) ([224; 1] ++ [142; 0]) = Ok (mkDisconnect DRC_SessionTakenOver None)
  /\ Disconnect_read ft (mkFixedHeader 224 2 9) ([224; 9] ++ [142]) = Err (InsufficientBytes 1).
Proof. destruct ft; repeat split; reflexivity. Qed.
