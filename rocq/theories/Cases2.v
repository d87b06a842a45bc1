(** The theorems about properties, packets and rules at concrete cases (see Cases.v). *)
From Coq Require Import Lia PeanoNat.
From Verif Require Import Types MLib Model Spec Wire Sites Faults Content Driver Samples PVarint Cases.
From Verif Require Import TFraming TWrite TRound TBack TFaults TProps TPackets TRules.
Import Faults.

(** ---------- Sections ---------- *)

Lemma ascii_str ft s : forallb (fun b => b <? 128) s = true -> blen s < 65536 -> str_wire ft s (u16be (blen s) ++ s).
Proof. intros H L. pose proof (ascii_text ft s H) as T. split; [exact T|]. split; [exact (proj1 T)|]. split; [exact L|reflexivity]. Qed.

(** Two properties of PUBLISH: message expiry interval and topic alias. *)
Definition sp_expiry : spelled := ((2, VFour 60), [2; 0; 0; 0; 60]).
Definition sp_alias : spelled := ((35, VTwo 4), [35; 0; 4]).
Lemma sp_expiry_ok ft : spelled_wire ft publish_allowed sp_expiry.
Proof. split; [cbn; tauto|]. split; [reflexivity|]. exists [0; 0; 0; 60]. split; [reflexivity|]. split; reflexivity. Qed.
Lemma sp_alias_ok ft : spelled_wire ft publish_allowed sp_alias.
Proof. split; [cbn; tauto|]. split; [reflexivity|]. exists [0; 4]. split; [reflexivity|]. split; reflexivity. Qed.
Definition two_ls : bytes := [8; 2; 0; 0; 0; 60; 35; 0; 4].
Definition two_ls' : bytes := [8; 35; 0; 4; 2; 0; 0; 0; 60].
Lemma two_spelled ft : Forall (spelled_wire ft publish_allowed) [sp_expiry; sp_alias].
Proof. constructor; [apply sp_expiry_ok|]. constructor; [apply sp_alias_ok|constructor]. Qed.
Lemma two_spelled' ft : Forall (spelled_wire ft publish_allowed) [sp_alias; sp_expiry].
Proof. constructor; [apply sp_alias_ok|]. constructor; [apply sp_expiry_ok|constructor]. Qed.
Lemma two_section ft : section_wire ft publish_allowed (Some [(2, VFour 60); (35, VTwo 4)]) two_ls.
Proof.
  exists 8, [8]. split; [apply one_byte; reflexivity|]. split; [reflexivity|]. exists [sp_expiry; sp_alias].
  split; [reflexivity|]. split; [reflexivity|]. split; [apply two_spelled|]. split; [reflexivity|]. vm_compute. discriminate.
Qed.
Lemma two_section' ft : section_wire ft publish_allowed (Some [(35, VTwo 4); (2, VFour 60)]) two_ls'.
Proof.
  exists 8, [8]. split; [apply one_byte; reflexivity|]. split; [reflexivity|]. exists [sp_alias; sp_expiry].
  split; [reflexivity|]. split; [reflexivity|]. split; [apply two_spelled'|]. split; [reflexivity|]. vm_compute. discriminate.
Qed.
Lemma two_same : same_up_to_order [(2, VFour 60); (35, VTwo 4)] [(35, VTwo 4); (2, VFour 60)].
Proof.
  intros id. unfold with_id. cbn [filter fst]. destruct (N.eqb_spec 2 id) as [<-|]; [reflexivity|].
  destruct (N.eqb_spec 35 id); reflexivity.
Qed.
Lemma two_exact : exact_section [sp_expiry; sp_alias] two_ls.
Proof. exists [8]. split; [apply one_byte; reflexivity|reflexivity]. Qed.
Lemma two_exact' : exact_section [sp_alias; sp_expiry] two_ls'.
Proof. exists [8]. split; [apply one_byte; reflexivity|reflexivity]. Qed.
(** PUBLISH, QoS 1, topic "a/b", packet identifier 10. *)
Definition pre50 : bytes := [0; 3; 97; 47; 98; 0; 10].
Lemma pre50_ok ft : before_section ft 50 Main pre50.
Proof.
  exists t_topic, [0; 3; 97; 47; 98], [0; 10]. split; [reflexivity|]. split; [apply (ascii_str ft t_topic); reflexivity|].
  right. split; [left; reflexivity|]. exists 10. split; [discriminate|]. split; reflexivity.
Qed.
Definition fr (byte1 : N) (body : bytes) : bytes := byte1 :: blen body :: body.
Ltac fit2 := intros before s E; destruct before as [|? [|? [|? ?]]]; try discriminate E; injection E as <- <-; reflexivity.

Example C24_order_does_not_matter_case :=
  C24_order_does_not_matter F_default (Some 30) 50 Main pre50 _ _ two_ls two_ls' [1; 2]
    (fr 50 (pre50 ++ two_ls ++ [1; 2])) (fr 50 (pre50 ++ two_ls' ++ [1; 2])) [192]
    (pre50_ok _) (two_section _) (two_section' _) two_same met met met met met.
Lemma fits_two : identifiers_fit [sp_expiry; sp_alias].
Proof. fit2. Qed.
Lemma fits_two' : identifiers_fit [sp_alias; sp_expiry].
Proof. fit2. Qed.
Example C24_exact_sections_case :=
  C24_exact_sections F_default None 50 Main pre50 [sp_expiry; sp_alias] [sp_alias; sp_expiry] two_ls two_ls' [1; 2]
    (fr 50 (pre50 ++ two_ls ++ [1; 2])) (fr 50 (pre50 ++ two_ls' ++ [1; 2])) [192]
    (pre50_ok _) (two_spelled _) (two_spelled' _) fits_two fits_two' two_exact two_exact' two_same met met met met met.
(** One subscription identifier, of two bytes. *)
Definition sp_id : spelled := ((11, VVar 300), [11; 172; 2]).
Lemma sp_id_ok ft : spelled_wire ft publish_allowed sp_id.
Proof.
  split; [cbn; tauto|]. split; [reflexivity|]. exists [172; 2]. split; [reflexivity|].
  split; [apply Nat.leb_le; reflexivity|]. split; [|reflexivity]. split; [discriminate|split; reflexivity].
Qed.
Example C24_one_identifier_fits_case :=
  C24_one_identifier_fits F_default publish_allowed [sp_id; sp_alias]
    ltac:(constructor; [apply sp_id_ok|constructor; [apply sp_alias_ok|constructor]]) met.
Example C06_when_more_bytes_are_asked_for_case :=
  C06_when_more_bytes_are_asked_for F_default None [48; 6; 0; 1; 97; 4; 11; 200] [] met.
Example C06_amount_after_consuming_case :=
  C06_amount_after_consuming F_default None [48; 6; 0; 1; 97; 4; 11; 200; 5] 1 [5] met met met.
Example C06_complete_frame_refuted_case := C06_complete_frame_refuted F_default [192; 0] met.
Example C25_undefined_property_rejected_case :=
  C25_undefined_property_rejected F_default None [48; 8; 0; 0; 5; 24; 0; 0; 0; 1] 24 [] met.
Example C25_allowed_properties_accepted_case :=
  C25_allowed_properties_accepted F_default (Some 30) 50 Main pre50 _ two_ls [1; 2]
    (fr 50 (pre50 ++ [0] ++ [1; 2])) (fr 50 (pre50 ++ two_ls ++ [1; 2])) [192]
    (pre50_ok _) (two_section _) met met met met met.
Example C25_each_allowed_property_has_a_section_case :=
  C25_each_allowed_property_has_a_section F_default 50 Main 35 (VTwo 4) [0; 4] [3]
    ltac:(vm_compute; tauto) met ltac:(split; reflexivity) ltac:(apply (one_byte 3); reflexivity).
Definition pub_two : Publish :=
  mkPublish false AtLeastOnce false t_topic 10 [1; 2] (Some (mkPublishProperties None (Some 60) (Some 4) None None [] [] None)).
Example C26_last_value_wins_case :=
  C26_last_value_wins F_default None 50 Main pre50 _ two_ls [1; 2] (fr 50 (pre50 ++ two_ls ++ [1; 2])) [192]
    (P_Publish pub_two) (pre50_ok _) (two_section _) met met met.
Example C27_exact_section_is_consumed_exactly_case :=
  C27_exact_section_is_consumed_exactly F_default (Some 30) 50 Main pre50 [sp_expiry; sp_alias] two_ls [1; 2]
    (fr 50 (pre50 ++ [0] ++ [1; 2])) (fr 50 (pre50 ++ two_ls ++ [1; 2])) [192]
    (pre50_ok _) (two_spelled _) fits_two two_exact met met met met met.
(** Three identifiers and then another: the last one does not fit and goes to the payload. *)
Definition sp_small (n : N) : spelled := ((11, VVar n), [11; n]).
Lemma sp_small_ok ft n : n < 128 -> spelled_wire ft publish_allowed (sp_small n).
Proof.
  intros H. split; [cbn; tauto|]. split; [reflexivity|]. exists [n]. split; [reflexivity|]. apply one_byte. exact H.
Qed.
Example C27_exact_section_in_general_case :=
  C27_exact_section_in_general F_default None 50 Main pre50 [sp_small 1; sp_small 2; sp_small 3; sp_small 4]
    [8; 11; 1; 11; 2; 11; 3; 11; 4] [1; 2]
    (fr 50 (pre50 ++ [8; 11; 1; 11; 2; 11; 3; 11; 4] ++ [1; 2])) [192] (pre50_ok _)
    ltac:(repeat (constructor; [apply sp_small_ok; reflexivity|]); constructor) met
    ltac:(exists [8]; split; [apply one_byte; reflexivity|reflexivity]) met met met.
Example C27_consumption_rule_case :=
  C27_consumption_rule F_default None (w_publish ++ [1]) s_publish [1] met met.
Definition will_of (p : Packet) : LastWill :=
  match p with P_Connect _ (Some w) _ => w | _ => mkLastWill [] [] AtMostOnce false None end.
Example C27_consumption_rule_will_case :=
  C27_consumption_rule_will F_default None (w_connect ++ [1])
    (match s_connect with P_Connect c _ _ => c | _ => mkConnect 0 [] false None end) (will_of s_connect)
    (match s_connect with P_Connect _ _ l => l | _ => None end) [1] met met.
Example C27_overrun_bound_case :=
  C27_overrun_bound F_default publish_allowed 6 [sp_expiry; sp_alias] (two_spelled _) met met.
Example C27_overrun_refuted_case := C27_overrun_refuted F_default 100000 [1; 2; 3] met met met.

(** ---------- C19, C20, C34, C39, C43 ---------- *)

Example C43_error_vocabulary_case :=
  C43_error_vocabulary F_default None [64; 3; 0; 1; 7; 5] (InvalidConnectReturnCode 7) [5] met met.
Example C34_binary_never_complains_case := C34_binary_never_complains None [48; 4; 0; 1; 255; 0] met.
Example C34_binary_against_the_others_case :=
  C34_binary_against_the_others F_cow None [48; 4; 0; 1; 255; 0; 9] (Err TopicNotUtf8) [9] met met met.
Example C19_header_bits_case :=
  C19_header_bits F_default None (fr 50 (pre50 ++ two_ls ++ [1; 2])) pub_two [] met met.
Example C19_qos_3_rejected_case :=
  C19_qos_3_rejected F_default None 55 [0; 1; 97; 0; 1; 0] [55; 6; 0; 1; 97; 0; 1; 0] [9] met met met met 3.
Example C19_zero_id_rejected_case :=
  C19_zero_id_rejected F_default None 50 [0; 1; 97; 0; 0; 0] [50; 6; 0; 1; 97; 0; 0; 0] [9] met met met met.
Example C20_payload_is_the_rest_case :=
  C20_payload_is_the_rest F_default None 50 pre50 _ two_ls [1; 2] (fr 50 (pre50 ++ two_ls ++ [1; 2])) [192]
    met (pre50_ok _) (two_section _) met met met.
Example C20_payload_untouched_case :=
  C20_payload_untouched F_default None 50 pre50 [sp_expiry; sp_alias] two_ls [1; 2]
    (fr 50 (pre50 ++ two_ls ++ [1; 2])) [192] met (pre50_ok _) (two_spelled _) fits_two two_exact met met met.
Example C39_two_bytes_case := C39_two_bytes F_default (Some 2) 64 300 [64; 2; 1; 44] [9] met met met met.
Example C39_three_bytes_case := C39_three_bytes F_default (Some 3) 98 300 146 [98; 3; 1; 44; 146] [9] met met met met.
Example C39_unknown_reason_case :=
  C39_unknown_reason F_default (Some 3) 98 300 16 [98; 3; 1; 44; 16] [9] met met met met
    ltac:(right; right; left; split; [reflexivity|intros []; discriminate]).

(** ---------- C28, C32, C36, C41: rules ---------- *)

Example C28_flags_written_case :=
  C28_flags_written (mkConnect 60 [99] true None) None (Some (mkLogin [117] [])) 19
    [16; 17; 0; 4; 77; 81; 84; 84; 5; 130; 0; 60; 0; 0; 1; 99; 0; 1; 117] met.
Example C28_protocol_name_case :=
  C28_protocol_name F_default None 16 [0; 3; 77; 81; 73; 5; 2] [16; 7; 0; 3; 77; 81; 73; 5; 2] [9] met met met met.
Example C28_protocol_level_case :=
  C28_protocol_level F_default None 16 [0; 4; 77; 81; 84; 84; 4; 2] [16; 8; 0; 4; 77; 81; 84; 84; 4; 2] [9] 4 met met met met.
Definition strange (flags : N) : bytes := [0; 4; 77; 81; 84; 84; 5; flags; 0; 60; 0; 0; 1; 99; 0; 0; 0; 0; 0].
Example C28_stray_will_bits_case :=
  C28_stray_will_bits F_default None 16 (strange 8) (fr 16 (strange 8)) [9] met met met met.
Example C28_will_qos_3_case :=
  C28_will_qos_3 F_default None 16 (strange 28) (fr 16 (strange 28)) [9] 3 met met met met.
Example C28_flags_read_case :=
  C28_flags_read F_default None (w_connect ++ [1])
    (match s_connect with P_Connect c _ _ => c | _ => mkConnect 0 [] false None end)
    (match s_connect with P_Connect _ w _ => w | _ => None end)
    (match s_connect with P_Connect _ _ l => l | _ => None end) [1] met met.
Example C32_payload_required_case := C32_payload_required F_default None 162 [] [162; 0] [9] met met met.
Example C32_empty_subscription_case :=
  C32_empty_subscription F_default None 130 [0; 1; 0] [130; 3; 0; 1; 0] [9] met met met met.
(** Packet identifier 1 and a user property. *)
Definition id_user : bytes := [0; 1; 8; 38; 0; 1; 107; 0; 2; 118; 49].
Lemma id_user_ok ft allowed : In 38 allowed -> id_and_section ft allowed id_user.
Proof.
  intros H. exists 1, [0; 1], (Some [(38, VPair [107] [118; 49])]), [8; 38; 0; 1; 107; 0; 2; 118; 49].
  split; [reflexivity|]. split; [split; reflexivity|]. exists 8, [8]. split; [apply one_byte; reflexivity|].
  split; [reflexivity|]. exists [((38, VPair [107] [118; 49]), [38; 0; 1; 107; 0; 2; 118; 49])].
  split; [reflexivity|]. split; [reflexivity|]. split.
  - constructor; [|constructor]. split; [exact H|]. split; [reflexivity|]. eexists. split; [reflexivity|].
    exists [0; 1; 107], [0; 2; 118; 49]. split; [reflexivity|].
    split; [apply (ascii_str ft [107])|apply (ascii_str ft [118; 49])]; reflexivity.
  - split; [reflexivity|]. vm_compute. discriminate.
Qed.
Ltac has38 := vm_compute; tauto.
Example C32_no_codes_case :=
  C32_no_codes F_default None 144 id_user (fr 144 id_user) [9] met met met met (id_user_ok _ ack_allowed ltac:(has38)).
Example C32_decoded_not_empty_case :=
  C32_decoded_not_empty F_default None (w_suback ++ [1]) s_suback [1] met met.
Example C32_unsubscribe_refuted_case :=
  C32_unsubscribe_refuted F_default None 162 id_user (fr 162 id_user) [9] met met met met (id_user_ok _ unsubscribe_allowed ltac:(has38)).
Example C36_options_written_case :=
  C36_options_written (match s_subscribe with P_Subscribe s => s | _ => mkSubscribe 0 [] None end) [1] (blen w_subscribe)
    (1 :: w_subscribe) met.
Lemma fit_topic ft : fit ft t_topic.
Proof. split; [apply ascii_text; reflexivity|reflexivity]. Qed.
Lemma fit_hash ft : fit ft [35].
Proof. split; [apply ascii_text; reflexivity|reflexivity]. Qed.
(** "a/b" with QoS 2, no local, retain handling 1 and a reserved bit; "#" with options 0. *)
Definition two_filters : list (bytes * N) := [(t_topic, 150); ([35], 0)].
Lemma two_filters_ok ft :
  Forall (fun po => fit ft (fst po) /\ snd po < 256 /\ snd po mod 4 <> 3 /\ (snd po / 16) mod 4 <> 3) two_filters.
Proof.
  constructor; [|constructor; [|constructor]]; (split; [first [apply fit_topic | apply fit_hash]|]);
    (split; [reflexivity|]); split; vm_compute; discriminate.
Qed.
Definition two_filters_body : bytes := id_user ++ concat (map (fun po => filter_at (fst po) (snd po)) two_filters).
Example C36_options_read_case :=
  C36_options_read F_default None 130 id_user two_filters (fr 130 two_filters_body) [9]
    met (id_user_ok _ subscribe_allowed ltac:(has38)) met (two_filters_ok _) met met met.
Definition bad_options_body : bytes :=
  id_user ++ concat (map (fun po => filter_at (fst po) (snd po)) two_filters) ++ filter_at t_topic 51 ++ [0; 1].
Example C36_options_rejected_case :=
  C36_options_rejected F_default None 130 id_user two_filters t_topic 51 [0; 1] (fr 130 bad_options_body) [9]
    met (id_user_ok _ subscribe_allowed ltac:(has38)) (two_filters_ok _) (fit_topic _) met met met.

Definition expiry60 : PublishProperties := mkPublishProperties None (Some 60) None None None [] [] None.
Example C41_publish_qos0_case :=
  C41_publish_qos0 F_default [97; 47; 98] [1; 2] (Some expiry60) met met met.
Example C41_publish_needs_id_case := C41_publish_needs_id [97; 47; 98] ExactlyOnce [1; 2] (Some expiry60) [9] met.
Example C41_publish_with_id_case :=
  C41_publish_with_id F_default [97; 47; 98] ExactlyOnce [1; 2] (Some expiry60) 300 met met met met met
    ltac:(repeat constructor) met.
Example C41_acks_case :=
  proj1 (C41_acks F_default 300 met) (Some (mkPubAckProperties (Some [114]) [])) met met.
Example C41_subscribe_case :=
  proj1 (C41_subscribe F_default) (mkFilter [35] ExactlyOnce true false Never) None met met.
Example C41_subscribe_many_case :=
  proj1 (proj2 (C41_subscribe F_default)) [mkFilter [35] ExactlyOnce true false Never; mkFilter [97] AtMostOnce false false Never] None met met met.
Example C41_unsubscribe_case :=
  proj2 (proj2 (proj2 (C41_subscribe F_default))) [97; 47; 98] None met met.
Example C41_disconnect_case := proj2 (C41_disconnect F_default) DRC_ServerBusy met.
Example C41_login_case :=
  C41_login F_default (mkConnect 60 [99] true None) [117] [] met met met.

(** ---------- C42 ---------- *)

Example C42_errors_are_the_described_faults_case :=
  C42_errors_are_the_described_faults F_default [64; 3; 0; 1; 7; 5] None (InvalidConnectReturnCode 7) [5] met.
Example C42_faults_complement_the_wire_language_case :=
  C42_faults_complement_the_wire_language F_default 64 [0; 1; 7] met met.
