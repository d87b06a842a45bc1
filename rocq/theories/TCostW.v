(** C63: writing takes a number of steps linear in the size of the packet. *)
From Verif Require Import Types MLib MConnect MDisconnect Model MCostW Driver Spec Wire Samples PBase PVarint PProps PWrite TWrite TRound PCostW.

(** What is counted is Packet::write: dropping the count leaves its outcome and the buffer. *)
Theorem C63_same_outcome p buf : snd (c_Packet_write p buf) = Packet_write p buf.
Proof. apply Packet_same. Qed.

Lemma Disconnect_len_le d : Disconnect_len d <= body_size (P_Disconnect d) + 2.
Proof.
  unfold body_size. cbn [body_fields]. unfold Disconnect_len. destruct (di_properties d) as [q|] eqn:Q.
  - replace (match di_reason_code d with DRC_NormalDisconnection => _ | _ => _ end)
      with (1 + (len_len (DisconnectProperties_len q) + DisconnectProperties_len q)) by (destruct (di_reason_code d); reflexivity).
    rewrite DisconnectProperties_len_eq. cbn [opt_items]. destruct (DisconnectProperties_items q) as [|i l] eqn:I.
    + cbn [nonempty negb]. destruct (_ && _); vm_compute; discriminate.
    + cbn [nonempty negb]. rewrite Bool.andb_false_r. unfold fields_bytes at 1. cbn [app flat_map]. fold (fields_bytes (section_fields (i :: l))).
      rewrite blen_app, section_size. change (blen (field_bytes (FByte (disconnect_code (di_reason_code d))))) with 1. lia.
  - destruct (di_reason_code d); lia.
Qed.

(** Three steps for every byte of the packet's body as the standard lays it out, and 45 more; for
    every packet (also one that cannot be encoded), whatever the buffer holds and whatever the outcome. *)
Theorem C63_linear p buf : fst (c_Packet_write p buf) <= 3 * body_size p + 45.
Proof.
  unfold body_size. destruct p as [c w l|a|p|a| | |s|a|a|a|a|u|a|d]; cbn [c_Packet_write].
  - cbn [body_fields]. rewrite <- Connect_len_eq. apply Connect_steps.
  - rewrite <- ConnAck_len_eq. pose proof (ConnAck_steps a buf). lia.
  - rewrite <- Publish_len_eq. pose proof (Publish_steps p buf). lia.
  - rewrite <- PubAck_len_eq. pose proof (PubAck_steps a buf). lia.
  - vm_compute. discriminate.
  - vm_compute. discriminate.
  - rewrite <- Subscribe_len_eq. pose proof (Subscribe_steps s buf). lia.
  - rewrite <- SubAck_len_eq. pose proof (SubAck_steps a buf). lia.
  - rewrite <- PubRec_len_eq. pose proof (PubRec_steps a buf). lia.
  - rewrite <- PubRel_len_eq. pose proof (PubRel_steps a buf). lia.
  - rewrite <- PubComp_len_eq. pose proof (PubComp_steps a buf). lia.
  - rewrite <- Unsubscribe_len_eq. pose proof (Unsubscribe_steps u buf). lia.
  - rewrite <- UnsubAck_len_eq. pose proof (UnsubAck_steps a buf). lia.
  - pose proof (Disconnect_steps d buf). pose proof (Disconnect_len_le d) as L. unfold body_size in L. lia.
Qed.
Lemma success_size p buf n buf' : Packet_write p buf = (Ok n, buf') -> body_size p <= n.
Proof.
  intros E. destruct (bad_disconnect p) eqn:B.
  { apply bad_disconnect_cases in B. destruct B as (d & -> & Hr & [Hp|(q & Hq & Hi)]).
    - rewrite bad_disconnect_none in E by assumption. apply pair_ok_inj in E. destruct E as [-> _].
      unfold body_size. cbn [body_fields]. rewrite Hp. cbn [opt_items nonempty negb]. rewrite Bool.andb_true_r.
      destruct (_ =? 0); vm_compute; discriminate.
    - rewrite (bad_disconnect_empty _ _ _ Hq Hi) in E. apply pair_ok_inj in E. destruct E as [-> _].
      unfold body_size. cbn [body_fields]. rewrite Hq. cbn [opt_items]. rewrite Hi. cbn [nonempty negb]. rewrite Bool.andb_true_r.
      destruct (_ =? 0); vm_compute; discriminate. }
  assert (n = blen (encode p)) as ->.
  { destruct (is_connect p) eqn:C.
    - destruct p as [c w l| | | | | | | | | | | | | ]; try discriminate. rewrite connect_eq in E.
      destruct (first_error _); [discriminate|]. apply pair_ok_inj in E. apply E.
    - destruct (C13_success_means_encoding p buf n buf' E) as (_ & -> & _); [congruence|exact B|reflexivity]. }
  unfold encode, packet_fields. rewrite frame_size. unfold body_size. lia.
Qed.
(** After a success: three steps for every byte that the result reports (the bytes appended, C10). *)
Theorem C63_linear_in_output p buf n buf' :
  Packet_write p buf = (Ok n, buf') -> fst (c_Packet_write p buf) <= 3 * n + 45.
Proof. intros E. pose proof (C63_linear p buf). pose proof (success_size _ _ _ _ E). lia. Qed.

(** A sender: the steps of writing packets one after the other, up to the first failure. *)
Fixpoint write_steps (ps : list Packet) (buf : bytes) : N :=
  match ps with
  | [] => 0
  | p :: ps =>
      fst (c_Packet_write p buf)
      + match Packet_write p buf with (Ok _, buf') => write_steps ps buf' | _ => 0 end
  end.
(** Sending any packets into any buffer takes at most three steps for each byte of their bodies and
    45 for each packet: no packet is visited again when a later one is written. *)
Theorem C63_sender_linear ps : forall buf,
  write_steps ps buf <= fold_right (fun p s => 3 * body_size p + 45 + s) 0 ps.
Proof.
  induction ps as [|p ps IH]; intros buf; cbn [write_steps fold_right]; [lia|].
  pose proof (C63_linear p buf) as L. destruct (Packet_write p buf) as [[n|e| |] buf']; try lia.
  specialize (IH buf'). lia.
Qed.

Lemma bind_more {A B} (c : CW A) (f : A -> CW B) b a b' :
  snd (c b) = (Ok a, b') -> fst (f a b') <= fst (cwbind c f b).
Proof. intros E. unfold cwbind. rewrite E. cbn [fst snd]. lia. Qed.
(** The factor three is reached: a SUBACK with k codes. *)
Theorem C63_three_needed k buf : k <= 268435452 ->
  let p := P_SubAck (mkSubAck 1 (repeat (SRC_Success AtMostOnce) (N.to_nat k)) None) in
  body_size p = k + 3 /\ 3 * k <= fst (c_Packet_write p buf) /\
  exists n buf', Packet_write p buf = (Ok n, buf').
Proof.
  intros K. cbv zeta. set (a := mkSubAck 1 (repeat (SRC_Success AtMostOnce) (N.to_nat k)) None).
  assert (Hl : SubAck_len a = k + 3).
  { unfold a, SubAck_len. cbn [sa_properties sa_return_codes]. rewrite repeat_length. lia. }
  assert (Hb : body_size (P_SubAck a) = k + 3) by (unfold body_size; rewrite <- SubAck_len_eq; exact Hl).
  assert (Hv : forall n b, n <= 268435455 -> exists b', snd (c_write_remaining_length n b) = (Ok (len_len n), b')).
  { intros n b L. rewrite same_length. rewrite write_remaining_length_eq. destruct (N.leb_spec n max_varint) as [_|X]; [|unfold max_varint in X; lia]. rewrite varint_len by (unfold max_varint; lia). eexists; reflexivity. }
  split; [exact Hb|]. split.
  - cbn [c_Packet_write]. unfold c_SubAck_write. cbv zeta. rewrite Hl.
    etransitivity; [|eapply bind_more; reflexivity].
    etransitivity; [|eapply bind_more; reflexivity].
    destruct (Hv (k + 3) (buf ++ [144])) as [b1 E1]; [lia|].
    etransitivity; [|eapply bind_more; exact E1].
    etransitivity; [|eapply bind_more; reflexivity].
    change (sa_properties a) with (@None SubAckProperties). cbv iota.
    assert (Z : forall b, exists b2, snd ((do! c_write_remaining_length 0; c_wret tt) b) = (Ok tt, b2)).
    { intros b. destruct (Hv 0 b) as [b2 E2]; [lia|]. exists b2. unfold cwbind. rewrite E2. reflexivity. }
    edestruct Z as [b2 E2]. etransitivity; [|eapply bind_more; exact E2].
    unfold c_put_codes, cwbind, tick, c_put_slice, taking, c_wret, put_slice, wret. cbn [fst snd].
    unfold blen. rewrite map_length. cbn [a sa_return_codes]. rewrite repeat_length. lia.
  - exists (blen (encode (P_SubAck a))), (buf ++ encode (P_SubAck a)).
    apply C13_write_is_the_encoding; try reflexivity; [|discriminate].
    unfold encodable, packet_fields, frame_fields. constructor; [reflexivity|]. constructor.
    + unfold body_size in Hb. cbn [field_error]. rewrite Hb. unfold max_varint. destruct (N.leb_spec (k + 3) 268435455); [reflexivity|lia].
    + cbn [body_fields]. repeat (apply Forall_app; split).
      * constructor; [reflexivity|constructor].
      * cbn. repeat constructor.
      * cbn [a sa_return_codes]. apply Forall_forall. intros f F. apply in_map_iff in F. destruct F as (r & <- & _). reflexivity.
Qed.

Example C63_instance : c_Packet_write s_publish0 [1; 2]
  = (17, (Ok 10, [1; 2; 48; 8; 0; 3; 97; 47; 98; 0; 104; 105])) /\ body_size s_publish0 = 8.
Proof. split; vm_compute; reflexivity. Qed.
(** A failing write: no packet identifier. *)
Example C63_instance_failure :
  c_Packet_write (P_Publish (mkPublish false AtLeastOnce false t_topic 0 [1; 2; 3; 4] None)) []
  = (12, (Err PacketIdZero, [50; 10; 0; 3; 97; 47; 98])).
Proof. vm_compute. reflexivity. Qed.
Example C63_instance_sender : write_steps [s_publish0; P_PingReq; s_pubrel; s_disconnect_normal] [] = 33.
Proof. vm_compute. reflexivity. Qed.
