(** Packet::write as emission of the specification's field list. *)
From Verif Require Import Types MLib MConnect Model Spec Wire PBase PVarint PRead PItems PProps PFrame PWire.
Ltac Zify.zify_post_hook ::= Z.div_mod_to_equations.

(** ---------- Emission ---------- *)

(** The fields before the first one that has no encoding. *)
Fixpoint before_error (l : list field) : list field :=
  match l with
  | [] => []
  | f :: l => match field_error f with Some _ => [] | None => f :: before_error l end
  end.

Lemma emit_eq l buf :
  emit l buf = match first_error l with
               | None => (Ok tt, buf ++ fields_bytes l)
               | Some e => (Err e, buf ++ fields_bytes (before_error l))
               end.
Proof.
  revert buf. induction l as [|f l IH]; intros buf; cbn [emit first_error before_error].
  - cbn. rewrite app_nil_r. reflexivity.
  - destruct (field_error f); [cbn; rewrite app_nil_r; reflexivity|]. rewrite IH.
    unfold fields_bytes. cbn [flat_map]. destruct (first_error l); rewrite app_assoc; reflexivity.
Qed.
Lemma before_error_none l : first_error l = None -> before_error l = l.
Proof.
  induction l as [|f l IH]; cbn; [reflexivity|]. destruct (field_error f); [discriminate|].
  intros H. rewrite IH by exact H. reflexivity.
Qed.
Lemma first_error_forall l : first_error l = None <-> Forall (fun f => field_error f = None) l.
Proof.
  induction l as [|f l IH]; cbn; [split; auto|].
  destruct (field_error f) eqn:E; split; intros H.
  - discriminate.
  - inversion H; congruence.
  - constructor; [exact E|apply IH; exact H].
  - apply IH. inversion H; assumption.
Qed.
Lemma first_error_app a b : first_error (a ++ b)
  = match first_error a with Some e => Some e | None => first_error b end.
Proof.
  induction a as [|f a IH]; cbn; [reflexivity|]. destruct (field_error f); [reflexivity|exact IH].
Qed.
Lemma before_error_prefix l : exists r, fields_bytes l = fields_bytes (before_error l) ++ r.
Proof.
  induction l as [|f l [r IH]]; cbn [before_error]; [exists []; reflexivity|].
  destruct (field_error f); [eexists; reflexivity|].
  exists r. unfold fields_bytes in *. cbn [flat_map]. rewrite IH, app_assoc. reflexivity.
Qed.

(** A writer that emits fields and returns a value. *)
Definition emits {A} (w : W A) (l : list field) (a : A) : Prop :=
  forall buf, w buf = match emit l buf with
                      | (Ok _, b) => (Ok a, b)
                      | (Err e, b) => (Err e, b)
                      | (Panic, b) => (Panic, b)
                      | (Diverge, b) => (Diverge, b)
                      end.
Lemma emits_writes (w : W unit) l : writes w l -> emits w l tt.
Proof. intros H buf. rewrite H. destruct (emit l buf) as [[[]| | |] ?]; reflexivity. Qed.
Lemma emits_ret {A} (a : A) : emits (wret a) [] a.
Proof. intros buf. reflexivity. Qed.
Lemma emits_bind {A B} (w : W A) (k : A -> W B) l1 l2 a b :
  emits w l1 a -> emits (k a) l2 b -> emits (wbind w k) (l1 ++ l2) b.
Proof.
  intros H1 H2 buf. rewrite emit_app. unfold wbind. rewrite H1.
  destruct (emit l1 buf) as [[]?]; try reflexivity. apply H2.
Qed.
Lemma emits_seq {B} (w : W unit) (k : W B) l1 l2 b :
  writes w l1 -> emits k l2 b -> emits (wbind w (fun _ => k)) (l1 ++ l2) b.
Proof. intros H1 H2. eapply emits_bind; [apply emits_writes; exact H1|exact H2]. Qed.
Lemma emits_var {B} n (k : N -> W B) l b :
  emits (k (blen (varint n))) l b -> emits (wbind (write_remaining_length n) k) (FVar n :: l) b.
Proof.
  intros H buf. unfold wbind. rewrite write_remaining_length_eq. cbn [emit field_error].
  destruct (n <=? max_varint); [|reflexivity]. apply H.
Qed.
Lemma emits_eq {A} (w : W A) l a : emits w l a -> forall buf,
  w buf = match first_error l with
          | None => (Ok a, buf ++ fields_bytes l)
          | Some e => (Err e, buf ++ fields_bytes (before_error l))
          end.
Proof. intros H buf. rewrite H, emit_eq. destruct (first_error l); reflexivity. Qed.

(** ---------- Sections ---------- *)

Lemma section_writes {A} (wr : A -> W unit) (items : A -> list item) o :
  (forall p, writes (wr p) (section_fields (items p))) ->
  writes (match o with Some p => wr p | None => do_ write_remaining_length 0; wret tt end)
         (section_fields (opt_items items o)).
Proof.
  intros H. destruct o as [p|]; [apply H|]. cbn [opt_items].
  apply (writes_var 0 _ []). apply writes_ret.
Qed.
Lemma section_size l : blen (fields_bytes (section_fields l)) = len_len (isize l) + isize l.
Proof.
  unfold section_fields, fields_bytes. cbn [flat_map field_bytes]. rewrite blen_app, varint_len. reflexivity.
Qed.
Lemma opt_section_size {A} (len : A -> N) (items : A -> list item) o :
  (forall p, len p = isize (items p)) ->
  (match o with Some p => len_len (len p) + len p | None => 1 end)
  = blen (fields_bytes (section_fields (opt_items items o))).
Proof.
  intros H. rewrite section_size. destruct o as [p|]; cbn [opt_items]; [rewrite H; reflexivity|reflexivity].
Qed.

Lemma fsize_bin s : blen (field_bytes (FBin s)) = 2 + blen s.
Proof. cbn [field_bytes]. rewrite blen_app. reflexivity. Qed.
Lemma fsize_cons f l : blen (fields_bytes (f :: l)) = blen (field_bytes f) + blen (fields_bytes l).
Proof. unfold fields_bytes. cbn [flat_map]. apply blen_app. Qed.
Lemma fsize_app a b : blen (fields_bytes (a ++ b)) = blen (fields_bytes a) + blen (fields_bytes b).
Proof. rewrite fields_bytes_app. apply blen_app. Qed.
Lemma fsize_nil : blen (fields_bytes []) = 0. Proof. reflexivity. Qed.
Lemma frame_size b body :
  blen (fields_bytes (frame_fields b body))
  = 1 + blen (varint (blen (fields_bytes body))) + blen (fields_bytes body).
Proof.
  unfold frame_fields. rewrite !fsize_cons. change (blen (field_bytes (FByte b))) with 1.
  cbn [field_bytes]. lia.
Qed.

(** The common frame of the writers. *)
Lemma frame_emits byte1 len (k : N -> W N) body :
  len = blen (fields_bytes body) ->
  emits (k (blen (varint len))) body (1 + blen (varint len) + len) ->
  emits (wbind (put_u8 byte1) (fun _ => wbind (write_remaining_length len) k))
        (frame_fields byte1 body) (blen (fields_bytes (frame_fields byte1 body))).
Proof.
  intros -> H. rewrite frame_size.
  apply (emits_seq _ _ [_]); [apply writes_u8|]. apply emits_var. exact H.
Qed.

Lemma writes_codes {A} (f : A -> N) l : writes (put_slice (map f l)) (map (fun r => FByte (f r)) l).
Proof.
  intros buf. unfold put_slice. revert buf. induction l as [|x l IH]; intros buf; cbn [map emit field_error field_bytes].
  - rewrite app_nil_r. reflexivity.
  - rewrite <- IH, <- app_assoc. reflexivity.
Qed.
Lemma codes_size {A} (f : A -> N) l : blen (fields_bytes (map (fun r => FByte (f r)) l)) = N.of_nat (length l).
Proof.
  induction l as [|x l IH]; [reflexivity|]. cbn [map]. rewrite fsize_cons, IH.
  change (blen (field_bytes (FByte (f x)))) with 1. cbn [length]. lia.
Qed.

Ltac sizes :=
  repeat first [rewrite fsize_app | rewrite fsize_cons]; rewrite ?fsize_nil, ?fsize_bin, ?codes_size;
  repeat match goal with
  | |- context [blen (field_bytes (FByte ?n))] => change (blen (field_bytes (FByte n))) with 1
  | |- context [blen (field_bytes (FTwo ?n))] => change (blen (field_bytes (FTwo n))) with 2
  end.
Lemma Connect_section_writes o :
  writes (match o with Some p => ConnectProperties_write p | None => do_ write_remaining_length 0; wret tt end)
         (section_fields (opt_items ConnectProperties_items o)).
Proof. apply section_writes. apply ConnectProperties_write_eq. Qed.
Lemma Connect_section_size o :
  (match o with Some p => let properties_len := ConnectProperties_len p in len_len properties_len + properties_len | None => 1 end)
  = blen (fields_bytes (section_fields (opt_items ConnectProperties_items o))).
Proof. apply (opt_section_size ConnectProperties_len). apply ConnectProperties_len_eq. Qed.
Lemma LastWill_section_writes o :
  writes (match o with Some p => LastWillProperties_write p | None => do_ write_remaining_length 0; wret tt end)
         (section_fields (opt_items LastWillProperties_items o)).
Proof. apply section_writes. apply LastWillProperties_write_eq. Qed.
Lemma LastWill_section_size o :
  (match o with Some p => let properties_len := LastWillProperties_len p in len_len properties_len + properties_len | None => 1 end)
  = blen (fields_bytes (section_fields (opt_items LastWillProperties_items o))).
Proof. apply (opt_section_size LastWillProperties_len). apply LastWillProperties_len_eq. Qed.
Lemma ConnAck_section_writes o :
  writes (match o with Some p => ConnAckProperties_write p | None => do_ write_remaining_length 0; wret tt end)
         (section_fields (opt_items ConnAckProperties_items o)).
Proof. apply section_writes. apply ConnAckProperties_write_eq. Qed.
Lemma ConnAck_section_size o :
  (match o with Some p => let properties_len := ConnAckProperties_len p in len_len properties_len + properties_len | None => 1 end)
  = blen (fields_bytes (section_fields (opt_items ConnAckProperties_items o))).
Proof. apply (opt_section_size ConnAckProperties_len). apply ConnAckProperties_len_eq. Qed.
Lemma Publish_section_writes o :
  writes (match o with Some p => PublishProperties_write p | None => do_ write_remaining_length 0; wret tt end)
         (section_fields (opt_items PublishProperties_items o)).
Proof. apply section_writes. apply PublishProperties_write_eq. Qed.
Lemma Publish_section_size o :
  (match o with Some p => let properties_len := PublishProperties_len p in len_len properties_len + properties_len | None => 1 end)
  = blen (fields_bytes (section_fields (opt_items PublishProperties_items o))).
Proof. apply (opt_section_size PublishProperties_len). apply PublishProperties_len_eq. Qed.
Lemma PubAck_section_writes o :
  writes (match o with Some p => PubAckProperties_write p | None => do_ write_remaining_length 0; wret tt end)
         (section_fields (opt_items PubAckProperties_items o)).
Proof. apply section_writes. apply PubAckProperties_write_eq. Qed.
Lemma PubAck_section_size o :
  (match o with Some p => let properties_len := PubAckProperties_len p in len_len properties_len + properties_len | None => 1 end)
  = blen (fields_bytes (section_fields (opt_items PubAckProperties_items o))).
Proof. apply (opt_section_size PubAckProperties_len). apply PubAckProperties_len_eq. Qed.
Lemma PubRec_section_writes o :
  writes (match o with Some p => PubRecProperties_write p | None => do_ write_remaining_length 0; wret tt end)
         (section_fields (opt_items PubRecProperties_items o)).
Proof. apply section_writes. apply PubRecProperties_write_eq. Qed.
Lemma PubRec_section_size o :
  (match o with Some p => let properties_len := PubRecProperties_len p in len_len properties_len + properties_len | None => 1 end)
  = blen (fields_bytes (section_fields (opt_items PubRecProperties_items o))).
Proof. apply (opt_section_size PubRecProperties_len). apply PubRecProperties_len_eq. Qed.
Lemma PubRel_section_writes o :
  writes (match o with Some p => PubRelProperties_write p | None => do_ write_remaining_length 0; wret tt end)
         (section_fields (opt_items PubRelProperties_items o)).
Proof. apply section_writes. apply PubRelProperties_write_eq. Qed.
Lemma PubRel_section_size o :
  (match o with Some p => let properties_len := PubRelProperties_len p in len_len properties_len + properties_len | None => 1 end)
  = blen (fields_bytes (section_fields (opt_items PubRelProperties_items o))).
Proof. apply (opt_section_size PubRelProperties_len). apply PubRelProperties_len_eq. Qed.
Lemma PubComp_section_writes o :
  writes (match o with Some p => PubCompProperties_write p | None => do_ write_remaining_length 0; wret tt end)
         (section_fields (opt_items PubCompProperties_items o)).
Proof. apply section_writes. apply PubCompProperties_write_eq. Qed.
Lemma PubComp_section_size o :
  (match o with Some p => let properties_len := PubCompProperties_len p in len_len properties_len + properties_len | None => 1 end)
  = blen (fields_bytes (section_fields (opt_items PubCompProperties_items o))).
Proof. apply (opt_section_size PubCompProperties_len). apply PubCompProperties_len_eq. Qed.
Lemma SubAck_section_writes o :
  writes (match o with Some p => SubAckProperties_write p | None => do_ write_remaining_length 0; wret tt end)
         (section_fields (opt_items SubAckProperties_items o)).
Proof. apply section_writes. apply SubAckProperties_write_eq. Qed.
Lemma SubAck_section_size o :
  (match o with Some p => let properties_len := SubAckProperties_len p in len_len properties_len + properties_len | None => 1 end)
  = blen (fields_bytes (section_fields (opt_items SubAckProperties_items o))).
Proof. apply (opt_section_size SubAckProperties_len). apply SubAckProperties_len_eq. Qed.
Lemma UnsubAck_section_writes o :
  writes (match o with Some p => UnsubAckProperties_write p | None => do_ write_remaining_length 0; wret tt end)
         (section_fields (opt_items UnsubAckProperties_items o)).
Proof. apply section_writes. apply UnsubAckProperties_write_eq. Qed.
Lemma UnsubAck_section_size o :
  (match o with Some p => let properties_len := UnsubAckProperties_len p in len_len properties_len + properties_len | None => 1 end)
  = blen (fields_bytes (section_fields (opt_items UnsubAckProperties_items o))).
Proof. apply (opt_section_size UnsubAckProperties_len). apply UnsubAckProperties_len_eq. Qed.
Lemma Subscribe_section_writes o :
  writes (match o with Some p => SubscribeProperties_write p | None => do_ write_remaining_length 0; wret tt end)
         (section_fields (opt_items SubscribeProperties_items o)).
Proof. apply section_writes. apply SubscribeProperties_write_eq. Qed.
Lemma Subscribe_section_size o :
  (match o with Some p => let properties_len := SubscribeProperties_len p in len_len properties_len + properties_len | None => 1 end)
  = blen (fields_bytes (section_fields (opt_items SubscribeProperties_items o))).
Proof. apply (opt_section_size SubscribeProperties_len). apply SubscribeProperties_len_eq. Qed.
Lemma Unsubscribe_section_writes o :
  writes (match o with Some p => UnsubscribeProperties_write p | None => do_ write_remaining_length 0; wret tt end)
         (section_fields (opt_items UnsubscribeProperties_items o)).
Proof. apply section_writes. apply UnsubscribeProperties_write_eq. Qed.
Lemma Unsubscribe_section_size o :
  (match o with Some p => let properties_len := UnsubscribeProperties_len p in len_len properties_len + properties_len | None => 1 end)
  = blen (fields_bytes (section_fields (opt_items UnsubscribeProperties_items o))).
Proof. apply (opt_section_size UnsubscribeProperties_len). apply UnsubscribeProperties_len_eq. Qed.
Lemma Disconnect_section_writes o :
  writes (match o with Some p => DisconnectProperties_write p | None => do_ write_remaining_length 0; wret tt end)
         (section_fields (opt_items DisconnectProperties_items o)).
Proof. apply section_writes. apply DisconnectProperties_write_eq. Qed.
Lemma Disconnect_section_size o :
  (match o with Some p => let properties_len := DisconnectProperties_len p in len_len properties_len + properties_len | None => 1 end)
  = blen (fields_bytes (section_fields (opt_items DisconnectProperties_items o))).
Proof. apply (opt_section_size DisconnectProperties_len). apply DisconnectProperties_len_eq. Qed.

(** ---------- Packets ---------- *)

Lemma ConnAck_len_eq a : ConnAck_len a = blen (fields_bytes (body_fields (P_ConnAck a))).
Proof.
  unfold ConnAck_len. cbn [body_fields app]. rewrite ConnAck_section_size. sizes. lia.
Qed.
Lemma connect_code_eq c : legacy_code c = false -> connect_code c = Ok (connack_code c).
Proof. destruct c; intros H; try discriminate H; reflexivity. Qed.
Lemma ConnAck_emits a : legacy_code (ck_code a) = false ->
  emits (ConnAck_write a) (packet_fields (P_ConnAck a)) (blen (encode (P_ConnAck a))).
Proof.
  intros Hl. apply frame_emits; [apply ConnAck_len_eq|].
  rewrite connect_code_eq by exact Hl. cbn [body_fields app].
  apply (emits_seq _ _ [_]).
  - replace (bool_u8 (ck_session_present a)) with (bit (ck_session_present a) 1) by (destruct (ck_session_present a); reflexivity).
    apply writes_u8.
  - apply (emits_bind (wlift (Ok (connack_code (ck_code a)))) _ [] _ (connack_code (ck_code a))); [intros buf; reflexivity|].
    apply (emits_seq _ _ [_]); [apply writes_u8|].
    rewrite <- (app_nil_r (section_fields _)). apply emits_seq; [apply ConnAck_section_writes|apply emits_ret].
Qed.

Lemma Publish_len_eq p : Publish_len p = blen (fields_bytes (body_fields (P_Publish p))).
Proof.
  unfold Publish_len. cbn [body_fields]. rewrite Publish_section_size. sizes. cbn [field_bytes].
  destruct (pu_qos p); cbn [QoS_eqb negb andb]; sizes; cbn [field_bytes]; [lia| |];
    (destruct (pu_pkid p =? 0); cbn [negb]; [rewrite blen_nil; lia|change (blen (u16be (pu_pkid p))) with 2; lia]).
Qed.
Lemma publish_byte p :
  N.lor (N.lor (N.lor 48 (bool_u8 (pu_retain p))) (N.shiftl (qos_u8 (pu_qos p)) 1)) (N.shiftl (bool_u8 (pu_dup p)) 3)
  = first_byte (P_Publish p).
Proof.
  cbn [first_byte]. destruct (pu_retain p), (pu_qos p), (pu_dup p); reflexivity.
Qed.
Lemma Publish_emits p : emits (Publish_write p) (packet_fields (P_Publish p)) (blen (encode (P_Publish p))).
Proof.
  unfold Publish_write. rewrite publish_byte. apply frame_emits; [apply Publish_len_eq|].
  cbn [body_fields]. apply emits_seq; [apply writes_string|].
  apply emits_seq.
  - destruct (pu_qos p); cbn [QoS_eqb negb]; [apply writes_ret| |];
      (intros buf; cbn [emit field_error field_bytes]; destruct (pu_pkid p =? 0); reflexivity).
  - apply emits_seq; [apply Publish_section_writes|].
    rewrite <- (app_nil_r [FRaw _]). apply emits_seq; [apply writes_slice|apply emits_ret].
Qed.

Lemma PubAck_short a : PubAck_is_short a = (puback_code (pa_reason a) =? 0) && is_none (pa_properties a).
Proof. unfold PubAck_is_short. destruct (pa_reason a), (pa_properties a); reflexivity. Qed.
Lemma PubAck_len_eq a : PubAck_len a = blen (fields_bytes (body_fields (P_PubAck a))).
Proof.
  unfold PubAck_len. cbn [body_fields]. unfold ack_fields. rewrite <- PubAck_short.
  destruct (PubAck_is_short a); [reflexivity|]. rewrite PubAck_section_size. cbn [app]. sizes. lia.
Qed.
Lemma PubAck_code_eq r : PubAck_code r = puback_code r.
Proof. destruct r; reflexivity. Qed.
Lemma PubAck_emits a : emits (PubAck_write a) (packet_fields (P_PubAck a)) (blen (encode (P_PubAck a))).
Proof.
  apply (frame_emits 64); [apply PubAck_len_eq|]. cbn [body_fields]. unfold ack_fields.
  unfold PubAck_len. rewrite <- PubAck_short. destruct (PubAck_is_short a) eqn:E.
  - apply (emits_seq _ _ [_] []); [apply writes_u16|]. apply emits_ret.
  - cbn [app]. apply (emits_seq _ _ [_]); [apply writes_u16|]. rewrite PubAck_code_eq.
    apply (emits_seq _ _ [_]); [apply writes_u8|].
    rewrite <- (app_nil_r (section_fields _)). apply emits_seq; [apply PubAck_section_writes|apply emits_ret].
Qed.

Lemma PubRec_short a : PubRec_is_short a = (pubrec_code (pr_reason a) =? 0) && is_none (pr_properties a).
Proof. unfold PubRec_is_short. destruct (pr_reason a), (pr_properties a); reflexivity. Qed.
Lemma PubRec_len_eq a : PubRec_len a = blen (fields_bytes (body_fields (P_PubRec a))).
Proof.
  unfold PubRec_len. cbn [body_fields]. unfold ack_fields. rewrite <- PubRec_short.
  destruct (PubRec_is_short a); [reflexivity|]. rewrite PubRec_section_size. cbn [app]. sizes. lia.
Qed.
Lemma PubRec_code_eq r : PubRec_code r = pubrec_code r.
Proof. destruct r; reflexivity. Qed.
Lemma PubRec_emits a : emits (PubRec_write a) (packet_fields (P_PubRec a)) (blen (encode (P_PubRec a))).
Proof.
  apply (frame_emits 80); [apply PubRec_len_eq|]. cbn [body_fields]. unfold ack_fields.
  unfold PubRec_len. rewrite <- PubRec_short. destruct (PubRec_is_short a) eqn:E.
  - apply (emits_seq _ _ [_] []); [apply writes_u16|]. apply emits_ret.
  - cbn [app]. apply (emits_seq _ _ [_]); [apply writes_u16|]. rewrite PubRec_code_eq.
    apply (emits_seq _ _ [_]); [apply writes_u8|].
    rewrite <- (app_nil_r (section_fields _)). apply emits_seq; [apply PubRec_section_writes|apply emits_ret].
Qed.

Lemma PubRel_short a : PubRel_is_short a = (pubrel_code (pl_reason a) =? 0) && is_none (pl_properties a).
Proof. unfold PubRel_is_short. destruct (pl_reason a), (pl_properties a); reflexivity. Qed.
Lemma PubRel_len_eq a : PubRel_len a = blen (fields_bytes (body_fields (P_PubRel a))).
Proof.
  unfold PubRel_len. cbn [body_fields]. unfold ack_fields. rewrite <- PubRel_short.
  destruct (PubRel_is_short a); [reflexivity|]. rewrite PubRel_section_size. cbn [app]. sizes. lia.
Qed.
Lemma PubRel_code_eq r : PubRel_code r = pubrel_code r.
Proof. destruct r; reflexivity. Qed.
Lemma PubRel_emits a : emits (PubRel_write a) (packet_fields (P_PubRel a)) (blen (encode (P_PubRel a))).
Proof.
  apply (frame_emits 98); [apply PubRel_len_eq|]. cbn [body_fields]. unfold ack_fields.
  unfold PubRel_len. rewrite <- PubRel_short. destruct (PubRel_is_short a) eqn:E.
  - apply (emits_seq _ _ [_] []); [apply writes_u16|]. apply emits_ret.
  - cbn [app]. apply (emits_seq _ _ [_]); [apply writes_u16|]. rewrite PubRel_code_eq.
    apply (emits_seq _ _ [_]); [apply writes_u8|].
    rewrite <- (app_nil_r (section_fields _)). apply emits_seq; [apply PubRel_section_writes|apply emits_ret].
Qed.

Lemma PubComp_short a : PubComp_is_short a = (pubcomp_code (pc_reason a) =? 0) && is_none (pc_properties a).
Proof. unfold PubComp_is_short. destruct (pc_reason a), (pc_properties a); reflexivity. Qed.
Lemma PubComp_len_eq a : PubComp_len a = blen (fields_bytes (body_fields (P_PubComp a))).
Proof.
  unfold PubComp_len. cbn [body_fields]. unfold ack_fields. rewrite <- PubComp_short.
  destruct (PubComp_is_short a); [reflexivity|]. rewrite PubComp_section_size. cbn [app]. sizes. lia.
Qed.
Lemma PubComp_code_eq r : PubComp_code r = pubcomp_code r.
Proof. destruct r; reflexivity. Qed.
Lemma PubComp_emits a : emits (PubComp_write a) (packet_fields (P_PubComp a)) (blen (encode (P_PubComp a))).
Proof.
  apply (frame_emits 112); [apply PubComp_len_eq|]. cbn [body_fields]. unfold ack_fields.
  unfold PubComp_len. rewrite <- PubComp_short. destruct (PubComp_is_short a) eqn:E.
  - apply (emits_seq _ _ [_] []); [apply writes_u16|]. apply emits_ret.
  - cbn [app]. apply (emits_seq _ _ [_]); [apply writes_u16|]. rewrite PubComp_code_eq.
    apply (emits_seq _ _ [_]); [apply writes_u8|].
    rewrite <- (app_nil_r (section_fields _)). apply emits_seq; [apply PubComp_section_writes|apply emits_ret].
Qed.

Lemma SubAck_len_eq a : SubAck_len a = blen (fields_bytes (body_fields (P_SubAck a))).
Proof. unfold SubAck_len. cbn [body_fields]. rewrite SubAck_section_size. sizes. lia. Qed.
Lemma SubAck_code_eq r : SubAck_code r = suback_code r.
Proof. destruct r; reflexivity. Qed.
Lemma SubAck_emits a : emits (SubAck_write a) (packet_fields (P_SubAck a)) (blen (encode (P_SubAck a))).
Proof.
  apply (frame_emits 144); [apply SubAck_len_eq|]. cbn [body_fields].
  apply emits_seq; [apply writes_u16|]. apply emits_seq; [apply SubAck_section_writes|].
  rewrite (map_ext _ _ SubAck_code_eq).
  rewrite <- (app_nil_r (map (fun _ => FByte _) _)). apply emits_seq; [apply writes_codes|apply emits_ret].
Qed.

Lemma UnsubAck_len_eq a : UnsubAck_len a = blen (fields_bytes (body_fields (P_UnsubAck a))).
Proof. unfold UnsubAck_len. cbn [body_fields]. rewrite UnsubAck_section_size. sizes. lia. Qed.
Lemma UnsubAck_code_eq r : UnsubAck_code r = unsuback_code r.
Proof. destruct r; reflexivity. Qed.
Lemma UnsubAck_emits a : emits (UnsubAck_write a) (packet_fields (P_UnsubAck a)) (blen (encode (P_UnsubAck a))).
Proof.
  apply (frame_emits 176); [apply UnsubAck_len_eq|]. cbn [body_fields].
  apply emits_seq; [apply writes_u16|]. apply emits_seq; [apply UnsubAck_section_writes|].
  rewrite (map_ext _ _ UnsubAck_code_eq).
  rewrite <- (app_nil_r (map (fun _ => FByte _) _)). apply emits_seq; [apply writes_codes|apply emits_ret].
Qed.

Lemma filters_size fs acc :
  acc + blen (fields_bytes (flat_map filter_fields fs)) = fold_left (fun a t => a + Filter_len t) fs acc.
Proof.
  revert acc. induction fs as [|f fs IH]; intros acc; cbn [flat_map fold_left].
  - rewrite fsize_nil. lia.
  - rewrite <- IH, fsize_app. unfold filter_fields, Filter_len. sizes. lia.
Qed.
Lemma Subscribe_len_eq s : Subscribe_len s = blen (fields_bytes (body_fields (P_Subscribe s))).
Proof.
  unfold Subscribe_len. cbn [body_fields]. rewrite Subscribe_section_size, <- filters_size. sizes. lia.
Qed.
Lemma Filter_writes f : writes (Filter_write f) (filter_fields f).
Proof.
  unfold Filter_write, filter_fields. apply (writes_bind _ _ [_] [_]); [apply writes_string|].
  match goal with |- writes (put_u8 ?x) _ => replace x with (filter_options f) end; [apply writes_u8|].
  unfold filter_options. destruct (fi_qos f), (fi_nolocal f), (fi_preserve_retain f), (fi_retain_forward_rule f); reflexivity.
Qed.
Lemma Subscribe_emits s : emits (Subscribe_write s) (packet_fields (P_Subscribe s)) (blen (encode (P_Subscribe s))).
Proof.
  apply (frame_emits 130); [apply Subscribe_len_eq|]. cbn [body_fields].
  apply emits_seq; [apply writes_u16|]. apply emits_seq; [apply Subscribe_section_writes|].
  rewrite <- (app_nil_r (flat_map _ _)). apply emits_seq; [apply writes_for; apply Filter_writes|apply emits_ret].
Qed.

Lemma strs_size fs acc :
  acc + blen (fields_bytes (map FBin fs)) = fold_left (fun s t => 2 + s + blen t) fs acc.
Proof.
  revert acc. induction fs as [|f fs IH]; intros acc; cbn [map fold_left].
  - rewrite fsize_nil. lia.
  - rewrite <- IH. sizes. lia.
Qed.
Lemma Unsubscribe_len_eq s : Unsubscribe_len s = blen (fields_bytes (body_fields (P_Unsubscribe s))).
Proof.
  unfold Unsubscribe_len. cbn [body_fields]. rewrite Unsubscribe_section_size, <- strs_size. sizes. lia.
Qed.
Lemma map_flat {A B} (f : A -> B) l : map f l = flat_map (fun x => [f x]) l.
Proof. induction l as [|x l IH]; cbn; [reflexivity|rewrite IH; reflexivity]. Qed.
Lemma Unsubscribe_emits s : emits (Unsubscribe_write s) (packet_fields (P_Unsubscribe s)) (blen (encode (P_Unsubscribe s))).
Proof.
  apply (frame_emits 162); [apply Unsubscribe_len_eq|]. cbn [body_fields].
  apply emits_seq; [apply writes_u16|]. apply emits_seq; [apply Unsubscribe_section_writes|].
  rewrite <- (app_nil_r (map FBin _)), map_flat.
  apply emits_seq; [apply writes_for; apply writes_string|apply emits_ret].
Qed.

Lemma isize_zero l : isize l = 0 <-> l = [].
Proof.
  split; [|intros ->; reflexivity]. destruct l as [|[id v] l]; [reflexivity|].
  rewrite isize_cons, isize_one. unfold item_fields. rewrite fsize_cons.
  change (blen (field_bytes (FByte (fst (id, v))))) with 1. lia.
Qed.
Lemma section_two l : blen (fields_bytes (section_fields l)) = 1 <-> l = [].
Proof.
  rewrite section_size. split; [|intros ->; reflexivity]. intros H. apply isize_zero.
  unfold len_len in H. destruct (2097152 <=? isize l), (16384 <=? isize l), (128 <=? isize l); lia.
Qed.
Lemma Disconnect_len_cases d :
  Disconnect_len d =
  if (disconnect_code (di_reason_code d) =? 0) && is_none (di_properties d) then 2
  else if is_none (di_properties d) then 1
  else 1 + blen (fields_bytes (section_fields (opt_items DisconnectProperties_items (di_properties d)))).
Proof.
  unfold Disconnect_len. rewrite <- Disconnect_section_size.
  destruct (di_reason_code d), (di_properties d); reflexivity.
Qed.
Lemma dcode_eq r : DisconnectReasonCode_u8 r = disconnect_code r.
Proof. destruct r; reflexivity. Qed.

Lemma Disconnect_emits d : bad_disconnect (P_Disconnect d) = false ->
  emits (Disconnect_write d) (packet_fields (P_Disconnect d)) (blen (encode (P_Disconnect d))).
Proof.
  intros Hbad. unfold Disconnect_write, packet_fields, encode. cbn [first_byte body_fields].
  cbn [bad_disconnect] in Hbad. unfold packet_fields. cbn [body_fields first_byte].
  set (items := opt_items DisconnectProperties_items (di_properties d)) in *.
  destruct (nonempty items) eqn:En; cbn [negb andb] in *.
  - rewrite andb_false_r.
    assert (Hlen : Disconnect_len d = blen (fields_bytes ([FByte (disconnect_code (di_reason_code d))] ++ section_fields items))).
    { rewrite Disconnect_len_cases. fold items. assert (is_none (di_properties d) = false) as ->.
      { subst items. destruct (di_properties d); [reflexivity|discriminate En]. }
      rewrite andb_false_r. cbn [app]. sizes. reflexivity. }
    assert (Hne : Disconnect_len d =? 2 = false).
    { rewrite Hlen. cbn [app]. sizes. apply N.eqb_neq. intros E.
      assert (E1 : blen (fields_bytes (section_fields items)) = 1) by lia.
      apply section_two in E1. rewrite E1 in En. discriminate En. }
    rewrite Hne. apply (frame_emits 224); [exact Hlen|]. rewrite dcode_eq.
    apply emits_seq; [apply writes_u8|]. rewrite <- (app_nil_r (section_fields _)).
    apply emits_seq; [apply Disconnect_section_writes|apply emits_ret].
  - rewrite andb_true_r in *. apply negb_false_iff in Hbad. rewrite Hbad.
    assert (Hlen : Disconnect_len d = 2).
    { rewrite Disconnect_len_cases. rewrite Hbad. fold items.
      destruct (is_none (di_properties d)); [reflexivity|]. cbn [andb].
      assert (items = []) as -> by (destruct items; [reflexivity|discriminate En]). reflexivity. }
    rewrite Hlen. change (2 =? 2) with true. cbv iota. unfold frame_fields.
    apply (emits_seq _ _ [_]); [apply writes_u8|].
    intros buf. reflexivity.
Qed.

Theorem packet_emits p :
  is_connect p = false -> bad_disconnect p = false -> legacy_connack p = false ->
  emits (Packet_write p) (packet_fields p) (blen (encode p)).
Proof.
  intros Hc Hd Hl. destruct p; cbn [Packet_write].
  - discriminate Hc.
  - apply ConnAck_emits. exact Hl.
  - apply Publish_emits.
  - apply PubAck_emits.
  - intros buf. rewrite emit_eq. reflexivity.
  - intros buf. rewrite emit_eq. reflexivity.
  - apply Subscribe_emits.
  - apply SubAck_emits.
  - apply PubRec_emits.
  - apply PubRel_emits.
  - apply PubComp_emits.
  - apply Unsubscribe_emits.
  - apply UnsubAck_emits.
  - apply Disconnect_emits. exact Hd.
Qed.

(** ---------- The mishandled shapes ---------- *)

Lemma bad_disconnect_none d buf : di_reason_code d <> DRC_NormalDisconnection -> di_properties d = None ->
  Packet_write (P_Disconnect d) buf = (Ok 3, buf ++ [224; 1; disconnect_code (di_reason_code d); 0]).
Proof.
  intros Hr Hp. cbn [Packet_write]. unfold Disconnect_write.
  assert (E : Disconnect_len d = 1).
  { unfold Disconnect_len. rewrite Hp. destruct (di_reason_code d); try reflexivity. congruence. }
  rewrite E, Hp, dcode_eq. change (1 =? 2) with false. cbv iota.
  unfold wbind, put_u8, put_slice. rewrite write_remaining_length_eq. change (1 <=? max_varint) with true. cbv iota.
  rewrite write_remaining_length_eq. change (0 <=? max_varint) with true. cbv iota.
  unfold wret. rewrite <- !app_assoc. reflexivity.
Qed.
Lemma bad_disconnect_empty d q buf : di_properties d = Some q -> DisconnectProperties_items q = [] ->
  Packet_write (P_Disconnect d) buf = (Ok 2, buf ++ [224; 0]).
Proof.
  intros Hp Hi. cbn [Packet_write]. unfold Disconnect_write.
  assert (E : Disconnect_len d = 2).
  { rewrite Disconnect_len_cases, Hp. cbn [is_none]. rewrite andb_false_r. cbn [opt_items]. rewrite Hi. reflexivity. }
  rewrite E. change (2 =? 2) with true. cbv iota. unfold wbind, put_u8, put_slice, wret.
  rewrite <- app_assoc. reflexivity.
Qed.

Lemma legacy_write a buf : legacy_code (ck_code a) = true ->
  Packet_write (P_ConnAck a) buf =
  let n := blen (fields_bytes (body_fields (P_ConnAck a))) in
  if n <=? max_varint
  then (Panic, buf ++ [32] ++ varint n ++ [bit (ck_session_present a) 1])
  else (Err PayloadTooLong, buf ++ [32]).
Proof.
  intros H. cbn [Packet_write]. unfold ConnAck_write. rewrite ConnAck_len_eq. cbv zeta.
  assert (Ec : connect_code (ck_code a) = Panic) by (destruct (ck_code a); try discriminate H; reflexivity).
  rewrite Ec.
  unfold wbind, put_u8, put_slice. rewrite write_remaining_length_eq.
  destruct (_ <=? max_varint); [|reflexivity].
  unfold wlift. rewrite <- !app_assoc. destruct (ck_session_present a); reflexivity.
Qed.

(** ---------- CONNECT ---------- *)

Lemma LastWill_len_eq w : LastWill_len w = blen (fields_bytes (will_fields (Some w))).
Proof. unfold LastWill_len. cbn [will_fields]. rewrite LastWill_section_size. sizes. lia. Qed.
Lemma nonempty_is_empty (s : bytes) : negb (is_empty s) = nonempty s.
Proof. destruct s; reflexivity. Qed.
Lemma Login_len_eq l : Login_len l = blen (fields_bytes (login_fields (Some l))).
Proof.
  unfold Login_len. cbn [login_fields]. rewrite !nonempty_is_empty.
  destruct (nonempty (lo_username l)), (nonempty (lo_password l)); cbn [app]; sizes; lia.
Qed.
Lemma Connect_len_eq flags c w l : Connect_len c w l = blen (fields_bytes (connect_fields flags c w l)).
Proof.
  unfold Connect_len, connect_fields. rewrite Connect_section_size.
  assert (Ew : match w with Some w => LastWill_len w | None => 0 end = blen (fields_bytes (will_fields w)))
    by (destruct w; [apply LastWill_len_eq|reflexivity]).
  assert (El : match l with Some l => Login_len l | None => 0 end = blen (fields_bytes (login_fields l)))
    by (destruct l; [apply Login_len_eq|reflexivity]).
  rewrite Ew, El. cbn [app]. sizes. change (blen str_MQTT) with 4. change (blen mqtt) with 4. lia.
Qed.

Definition will_flags (w : LastWill) : N := 4 + 8 * qos_num (lw_qos w) + bit (lw_retain w) 32.
Definition login_flags (l : Login) : N :=
  bit (nonempty (lo_password l)) 64 + bit (nonempty (lo_username l)) 128.
Lemma LastWill_emits w : emits (LastWill_write w) (will_fields (Some w)) (will_flags w).
Proof.
  unfold LastWill_write. cbn [will_fields]. apply emits_seq; [apply LastWill_section_writes|].
  apply (emits_seq _ _ [_]); [apply writes_bytes|].
  apply (emits_seq _ _ [_] []); [apply writes_bytes|].
  unfold will_flags. destruct (lw_qos w), (lw_retain w); apply emits_ret.
Qed.
Lemma Login_emits l : emits (Login_write l) (login_fields (Some l)) (login_flags l).
Proof.
  unfold Login_write. cbn [login_fields]. rewrite !nonempty_is_empty. unfold login_flags.
  apply (emits_bind _ _ _ _ (bit (nonempty (lo_username l)) 128)).
  - destruct (nonempty (lo_username l)); [|apply emits_ret].
    apply (emits_seq _ _ [_] []); [apply writes_string|]. apply emits_ret.
  - destruct (nonempty (lo_password l)).
    + apply (emits_seq _ _ [_] []); [apply writes_string|]. destruct (nonempty (lo_username l)); apply emits_ret.
    + destruct (nonempty (lo_username l)); apply emits_ret.
Qed.

(** [patch i v b]: b with its i-th byte replaced. *)
Definition patch (i v : N) (b : bytes) : bytes :=
  firstn (N.to_nat i) b ++ v :: skipn (S (N.to_nat i)) b.
Definition flags_index (n : N) : N := 8 + blen (varint n).

(** The frame CONNECT emits before its flags are patched: only the clean-start bit is set. *)
Definition connect_raw (c : Connect) (w : option LastWill) (l : option Login) : list field :=
  frame_fields 16 (connect_fields (bit (co_clean_start c) 2) c w l).

Definition connect_count (c : Connect) (w : option LastWill) (l : option Login) : N :=
  blen (varint (Connect_len c w l)).
Lemma emits_final {A B} (w : W A) (k : A -> W B) l a : emits w l a -> forall buf,
  wbind w k buf = match first_error l with
                  | None => k a (buf ++ fields_bytes l)
                  | Some e => (Err e, buf ++ fields_bytes (before_error l))
                  end.
Proof.
  intros H buf. unfold wbind. rewrite (emits_eq _ _ _ H). destruct (first_error l); reflexivity.
Qed.
Lemma wbind_assoc {A B C} (w : W A) (f : A -> W B) (g : B -> W C) buf :
  wbind w (fun a => wbind (f a) g) buf = wbind (wbind w f) g buf.
Proof. unfold wbind. destruct (w buf) as [[]?]; reflexivity. Qed.
Lemma wbind_ext {A B} (w : W A) (f g : A -> W B) buf : (forall a b, f a b = g a b) -> wbind w f buf = wbind w g buf.
Proof. intros H. unfold wbind. destruct (w buf) as [[]?]; auto. Qed.

Lemma Connect_prefix_emits c w l :
  emits (do_ put_u8 16;
         do count <- write_remaining_length (Connect_len c w l);
         do_ write_mqtt_string str_MQTT;
         do_ put_u8 5;
         let connect_flags := if co_clean_start c then N.lor 0 2 else 0 in
         do_ put_u8 connect_flags;
         do_ put_u16 (co_keep_alive c);
         do_ (match co_properties c with
              | Some p => ConnectProperties_write p
              | None => do_ write_remaining_length 0; wret tt
              end);
         do_ write_mqtt_string (co_client_id c);
         do connect_flags <- (match w with
                              | Some w => do f <- LastWill_write w; wret (N.lor connect_flags f)
                              | None => wret connect_flags
                              end);
         do connect_flags <- (match l with
                              | Some l => do f <- Login_write l; wret (N.lor connect_flags f)
                              | None => wret connect_flags
                              end);
         wret (count, connect_flags))
    (connect_raw c w l) (connect_count c w l, connect_flags (co_clean_start c) w l).
Proof.
  unfold connect_raw, frame_fields. rewrite <- Connect_len_eq.
  apply (emits_seq _ _ [_]); [apply writes_u8|]. apply emits_var. fold (connect_count c w l).
  unfold connect_fields. cbn [app].
  apply (emits_seq _ _ [_]); [apply writes_string|].
  apply (emits_seq _ _ [_]); [apply writes_u8|]. cbv zeta.
  apply (emits_seq _ _ [_]).
  { replace (bit (co_clean_start c) 2) with (if co_clean_start c then N.lor 0 2 else 0) by (destruct (co_clean_start c); reflexivity).
    apply writes_u8. }
  apply (emits_seq _ _ [_]); [apply writes_u16|].
  apply emits_seq; [apply Connect_section_writes|].
  apply (emits_seq _ _ [_]); [apply writes_string|].
  apply (emits_bind _ _ _ _ (bit (co_clean_start c) 2 + match w with Some w => will_flags w | None => 0 end)).
  { destruct w as [w|].
    - rewrite <- (app_nil_r (will_fields _)). eapply emits_bind; [apply LastWill_emits|].
      unfold will_flags. destruct (co_clean_start c), (lw_qos w), (lw_retain w); apply emits_ret.
    - destruct (co_clean_start c); apply emits_ret. }
  rewrite <- (app_nil_r (login_fields l)).
  apply (emits_bind _ _ _ _ (connect_flags (co_clean_start c) w l)); [|apply emits_ret].
  unfold connect_flags. destruct l as [l|].
  - rewrite <- (app_nil_r (login_fields _)). eapply emits_bind; [apply Login_emits|].
    unfold will_flags, login_flags.
    destruct w as [w|];
      [destruct (co_clean_start c), (lw_qos w), (lw_retain w), (nonempty (lo_username l)), (nonempty (lo_password l)); apply emits_ret
      |destruct (co_clean_start c), (nonempty (lo_username l)), (nonempty (lo_password l)); apply emits_ret].
  - cbn [login_fields]. unfold will_flags. rewrite N.add_0_r. apply emits_ret.
Qed.

Lemma len_len_pos n : 1 <= len_len n.
Proof. unfold len_len. destruct (2097152 <=? n), (16384 <=? n), (128 <=? n); lia. Qed.

Lemma connect_eq c w l buf :
  Packet_write (P_Connect c w l) buf =
  match first_error (connect_raw c w l) with
  | Some e => (Err e, buf ++ fields_bytes (before_error (connect_raw c w l)))
  | None => (Ok (blen (encode (P_Connect c w l))),
             patch (8 + connect_count c w l) (connect_flags (co_clean_start c) w l)
               (buf ++ fields_bytes (connect_raw c w l)))
  end.
Proof.
  cbn [Packet_write].
  assert (E : Connect_write c w l buf
    = wbind (do_ put_u8 16;
         do count <- write_remaining_length (Connect_len c w l);
         do_ write_mqtt_string str_MQTT;
         do_ put_u8 5;
         let connect_flags := if co_clean_start c then N.lor 0 2 else 0 in
         do_ put_u8 connect_flags;
         do_ put_u16 (co_keep_alive c);
         do_ (match co_properties c with
              | Some p => ConnectProperties_write p
              | None => do_ write_remaining_length 0; wret tt
              end);
         do_ write_mqtt_string (co_client_id c);
         do connect_flags <- (match w with
                              | Some w => do f <- LastWill_write w; wret (N.lor connect_flags f)
                              | None => wret connect_flags
                              end);
         do connect_flags <- (match l with
                              | Some l => do f <- Login_write l; wret (N.lor connect_flags f)
                              | None => wret connect_flags
                              end);
         wret (count, connect_flags))
       (fun '(count, flags) => do_ set_index (1 + count + 2 + 4 + 1) flags; wret (1 + count + Connect_len c w l)) buf).
  { unfold Connect_write. cbv zeta.
    repeat (rewrite <- wbind_assoc; apply wbind_ext; intros ? ?). reflexivity. }
  rewrite E. rewrite (emits_final _ _ _ _ (Connect_prefix_emits c w l)).
  destruct (first_error (connect_raw c w l)); [reflexivity|].
  unfold wbind, set_index.
  replace (1 + connect_count c w l + 2 + 4 + 1) with (8 + connect_count c w l) by lia.
  destruct (N.ltb_spec (8 + connect_count c w l) (blen (buf ++ fields_bytes (connect_raw c w l)))) as [H|H].
  - unfold wret, patch. f_equal. f_equal. unfold encode, packet_fields. rewrite frame_size.
    cbn [body_fields]. rewrite <- Connect_len_eq. reflexivity.
  - exfalso. rewrite blen_app in H. unfold connect_raw in H. rewrite frame_size, <- Connect_len_eq in H.
    fold (connect_count c w l) in H. unfold Connect_len in H. change (blen str_MQTT) with 4 in H.
    pose proof (opt_section_size ConnectProperties_len ConnectProperties_items (co_properties c) ConnectProperties_len_eq) as Hs.
    rewrite section_size in Hs. cbv zeta in H. rewrite Hs in H.
    pose proof (len_len_pos (isize (opt_items ConnectProperties_items (co_properties c)))).
    lia.
Qed.

Lemma patch_at a x v b : patch (blen a) v (a ++ x :: b) = a ++ v :: b.
Proof.
  unfold patch. rewrite firstn_blen_app. f_equal. f_equal. rewrite blen_length.
  replace (S (length a)) with (length (a ++ [x])) by (rewrite app_length; cbn; lia).
  replace (a ++ x :: b) with ((a ++ [x]) ++ b) by (rewrite <- app_assoc; reflexivity).
  rewrite skipn_app, skipn_all, Nat.sub_diag. reflexivity.
Qed.

(** The raw frame around its flags byte. *)
Lemma connect_raw_split f c w l :
  exists post, fields_bytes (frame_fields 16 (connect_fields f c w l))
    = (16 :: varint (Connect_len c w l) ++ (u16be 4 ++ mqtt) ++ [5]) ++ f :: post
  /\ forall f', fields_bytes (frame_fields 16 (connect_fields f' c w l))
    = (16 :: varint (Connect_len c w l) ++ (u16be 4 ++ mqtt) ++ [5]) ++ f' :: post.
Proof.
  eexists. split; [|intros f'];
    unfold frame_fields; rewrite <- Connect_len_eq; unfold connect_fields;
    unfold fields_bytes; cbn [flat_map field_bytes app]; rewrite <- !app_assoc; cbn [app]; reflexivity.
Qed.
Lemma connect_prefix_len c w l :
  blen (16 :: varint (Connect_len c w l) ++ (u16be 4 ++ mqtt) ++ [5]) = 8 + connect_count c w l.
Proof.
  unfold connect_count. rewrite blen_cons, !blen_app. change (blen (u16be 4)) with 2. change (blen mqtt) with 4.
  change (blen [5]) with 1. lia.
Qed.

Lemma first_error_flags f f' c w l :
  first_error (frame_fields 16 (connect_fields f c w l)) = first_error (frame_fields 16 (connect_fields f' c w l)).
Proof. unfold frame_fields. rewrite <- !Connect_len_eq. reflexivity. Qed.

Lemma connect_empty c w l :
  Packet_write (P_Connect c w l) [] =
  match first_error (packet_fields (P_Connect c w l)) with
  | Some e => (Err e, fields_bytes (before_error (connect_raw c w l)))
  | None => (Ok (blen (encode (P_Connect c w l))), encode (P_Connect c w l))
  end.
Proof.
  rewrite connect_eq. unfold connect_raw at 1.
  rewrite (first_error_flags _ (connect_flags (co_clean_start c) w l)). fold (packet_fields (P_Connect c w l)).
  change (frame_fields 16 (connect_fields (connect_flags (co_clean_start c) w l) c w l)) with (packet_fields (P_Connect c w l)).
  destruct (first_error (packet_fields (P_Connect c w l))); [reflexivity|]. f_equal.
  cbn [app]. unfold connect_raw.
  destruct (connect_raw_split (bit (co_clean_start c) 2) c w l) as (post & E1 & E2).
  rewrite E1, <- (connect_prefix_len c w l), patch_at.
  unfold encode, packet_fields. cbn [first_byte body_fields]. rewrite (E2 _). reflexivity.
Qed.
