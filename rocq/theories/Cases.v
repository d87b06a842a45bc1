(** The theorems of the T files at concrete cases: every entry applies a theorem to values written
    out below and discharges all its hypotheses, so none of them is vacuous.  (The entries named
    [.._instance] beside the theorems do the same for others.)  Nothing here is used elsewhere. *)
From Coq Require Import Lia PeanoNat.
From Verif Require Import Types MLib Model MUsize MDebug Spec Wire Content Driver Sites Samples.
From Verif Require Import PUtf8 PUsize.
From Verif Require Import TFraming TWrite TRound TDriver TBack TStream TUsize TDebug TRelay TParts TFields TReaders.

(** ---------- How hypotheses are met ---------- *)

Lemma bytes_check l : forallb (fun b => b <? 256) l = true -> bytes_ok l.
Proof. intros H. apply Forall_forall. intros x Hx. rewrite forallb_forall in H. apply N.ltb_lt, (H x Hx). Qed.
Lemma chunks_check l : forallb (forallb (fun b => b <? 256)) l = true -> Forall bytes_ok l.
Proof. intros H. apply Forall_forall. intros x Hx. rewrite forallb_forall in H. apply bytes_check, (H x Hx). Qed.

(** A frame whose remaining length is the first byte after the packet type. *)
Lemma short_frame byte1 body : blen body < 128 -> framed byte1 body (byte1 :: blen body :: body).
Proof.
  intros H. exists [blen body]. split; [reflexivity|]. split; [cbn; lia|]. split; [exact H|].
  cbn [varint_value]. rewrite N.mod_small by exact H. lia.
Qed.
Lemma one_byte n : n < 128 -> varint_wire n [n].
Proof. intros H. split; [cbn; lia|]. split; [exact H|]. cbn [varint_value]. rewrite N.mod_small by exact H. lia. Qed.

(** What stands on the wire for some of the sample packets. *)
Definition w_publish : bytes := Eval vm_compute in snd (Packet_write s_publish []).
Definition w_connect : bytes := Eval vm_compute in snd (Packet_write s_connect []).
Definition w_connack : bytes := Eval vm_compute in snd (Packet_write s_connack []).
Definition w_subscribe : bytes := Eval vm_compute in snd (Packet_write s_subscribe []).
Definition w_suback : bytes := Eval vm_compute in snd (Packet_write s_suback []).
Definition w_unsubscribe : bytes := Eval vm_compute in snd (Packet_write s_unsubscribe []).
Definition w_disconnect : bytes := Eval vm_compute in snd (Packet_write s_disconnect []).
Definition w_puback : bytes := Eval vm_compute in snd (Packet_write s_puback []).

Ltac in_samples := unfold samples; repeat (first [left; reflexivity | right]).
Ltac of_samples L := apply (proj1 (Forall_forall _ _) L); in_samples.
Ltac meet :=
  lazymatch goal with
  | |- _ \/ _ => first [left; meet | right; meet]
  | |- _ /\ _ => split; meet
  | |- bytes_ok _ => apply bytes_check; vm_compute; reflexivity
  | |- Forall bytes_ok _ => apply chunks_check; vm_compute; reflexivity
  | |- rust_packet ?ft _ => first [solve [sample] | solve [of_samples (samples_rust ft)]]
  | |- items_ok _ _ => solve [sample]
  | |- encodable _ => apply encodable_check; vm_compute; reflexivity
  | |- within None _ => exact I
  | |- within (Some _) _ => vm_compute; discriminate
  | |- framed _ _ _ => apply short_frame; vm_compute; reflexivity
  | |- text _ _ => apply ascii_text; vm_compute; reflexivity
  | |- _ <= _ => vm_compute; discriminate
  | |- _ < _ => vm_compute; reflexivity
  | |- (_ <= _)%nat => apply Nat.leb_le; vm_compute; reflexivity
  | |- _ = _ => vm_compute; reflexivity
  | |- _ <> _ => vm_compute; discriminate
  end.
Notation "'met'" := (ltac:(meet)) (only parsing).

(** ---------- C04, C05, C09, C33, C03: framing ---------- *)

Example C03_read_total_case := C03_read_total F_default (Some 1) [32; 255; 255; 255; 255; 7] met.
Example C03_read_never_panics_or_diverges_case :=
  C03_read_never_panics_or_diverges F_default None [130; 5; 0; 1; 200; 9; 9] met.
Example C04_nothing_or_one_frame_case :=
  C04_nothing_or_one_frame F_default None (w_publish ++ [192; 0]) (Ok s_publish) [192; 0] met met.
Example C04_ok_one_frame_case :=
  C04_ok_one_frame F_default (Some 120) (w_connect ++ [1; 2; 3]) s_connect [1; 2; 3] met met.
Example C05_incomplete_asks_for_more_case :=
  C05_incomplete_asks_for_more F_default (Some 20) 48 [0; 1; 97; 0; 5] [48; 5; 0] [1; 97; 0; 5]
    met met met (fun _ => met).
Example C06_more_without_consuming_iff_incomplete_case :=
  C06_more_without_consuming_iff_incomplete F_default (Some 20) [48; 5; 0] met.
Lemma announces_300 : announces 300 [48; 172; 2; 0; 1; 97].
Proof. exists 48, [172; 2], [0; 1; 97]. repeat split; cbn; lia. Qed.
Example C09_limit_enforced_on_header_case :=
  C09_limit_enforced_on_header F_default 299 300 [48; 172; 2; 0; 1; 97] met announces_300 met.
Lemma announces_only_2 n : announces n [192; 2; 7; 7; 9] -> n <= 2.
Proof.
  intros (b & lb & t & E & H). destruct lb as [|x lb]; [destruct H as (_ & [] & _)|].
  injection E as _ Ex E. subst x. destruct H as (_ & Hs & ->). destruct lb as [|y lb]; [vm_compute; discriminate|].
  cbn in Hs. destruct Hs as [Hs _]. exfalso. revert Hs. vm_compute. intros Hs. apply Hs. reflexivity.
Qed.
Example C09_limit_otherwise_ignored_case :=
  C09_limit_otherwise_ignored F_default 2 [192; 2; 7; 7; 9] met announces_only_2.
Example C09_limit_error_iff_case :=
  C09_limit_error_iff F_default (Some 299) [48; 172; 2; 0; 1; 97] 300 299 [48; 172; 2; 0; 1; 97] met.
Example C33_kind_follows_first_byte_case :=
  C33_kind_follows_first_byte F_default None 50 (tl w_publish)
    (P_Publish (mkPublish false AtLeastOnce false t_topic 10 [1; 0; 255]
       (Some (mkPublishProperties (Some 1) (Some 60) (Some 4) (Some t_topic) (Some [7; 255]) t_user
             [300] (Some t_val))))) [] met met.
Example C33_reserved_types_rejected_case :=
  C33_reserved_types_rejected F_default None 240 [0; 0] [240; 2; 0; 0] [48] met met met met met met.
Lemma pingreq_frame (junk : N) : junk < 256 -> frame_wire F_default P_PingReq [192; 1; junk].
Proof.
  intros H. exists 192, [1], [junk]. split; [reflexivity|]. split; [reflexivity|].
  split; [apply (one_byte 1); reflexivity|]. split; [reflexivity|]. constructor; [exact H|constructor].
Qed.
Example C37_wire_language_unambiguous_case :=
  C37_wire_language_unambiguous F_default P_PingReq P_PingReq [192; 1; 9] [192; 1; 9] [3] [3]
    met (pingreq_frame 9 met) (pingreq_frame 9 met) met.

(** ---------- C10-C15: writing ---------- *)

Example C13_success_means_encoding_case :=
  C13_success_means_encoding s_publish [1; 2] (blen w_publish) ([1; 2] ++ w_publish) met ltac:(discriminate) met.
Example C14_write_ok_iff_encodable_case := C14_write_ok_iff_encodable s_suback [5] met met.
Definition no_id : Packet :=
  P_Publish (mkPublish false AtLeastOnce false t_topic 0 [1] None).
Example C14_write_error_is_first_cause_case := C14_write_error_is_first_cause no_id [] met met.
Example C14_write_errors_case := C14_write_errors no_id [7] PacketIdZero met.
Example C14_bad_disconnect_always_ok_case :=
  C14_bad_disconnect_always_ok (P_Disconnect (mkDisconnect DRC_ServerBusy None)) [9] met.
Example C10_write_returns_growth_case :=
  C10_write_returns_growth s_subscribe [1] (blen w_subscribe) (1 :: w_subscribe) met ltac:(intros H; exact H).
Example C11_size_is_write_result_case :=
  C11_size_is_write_result s_disconnect [1] (blen w_disconnect) (1 :: w_disconnect) (blen w_disconnect) met met.
Example C11_size_is_growth_case :=
  C11_size_is_growth s_disconnect [1] (blen w_disconnect) (1 :: w_disconnect) (blen w_disconnect) met met
    ltac:(intros [_ H]; discriminate H).
Example C10_bare_disconnect_refuted_case :=
  C10_bare_disconnect_refuted (P_Disconnect (mkDisconnect DRC_ServerBusy None)) [9] ltac:(split; [discriminate|reflexivity]).
Example C12_write_only_appends_case := C12_write_only_appends s_suback met.
Example C12_connect_patches_absolute_index_case :=
  C12_connect_patches_absolute_index (mkConnect 60 [99] true None) None None [1; 2; 3] met.
Example C12_connect_destroys_earlier_bytes_refuted_case :=
  C12_connect_destroys_earlier_bytes_refuted (mkConnect 60 [99] true None) None None
    [0; 0; 0; 0; 0; 0; 0; 0; 0; 0; 0; 0; 0; 0] met met met.
Example C15_failed_write_leaves_bytes_refuted_case :=
  C15_failed_write_leaves_bytes_refuted no_id [7] PacketIdZero [7; 50; 7; 0; 3; 97; 47; 98] met.
Example C15_leftovers_are_a_prefix_case :=
  C15_leftovers_are_a_prefix no_id [7] PacketIdZero [7; 50; 7; 0; 3; 97; 47; 98] met met.
Example C15_leftovers_exactly_case :=
  C15_leftovers_exactly no_id [7] PacketIdZero [7; 50; 7; 0; 3; 97; 47; 98] met.
Example C12_failing_connect_only_appends_case :=
  C12_failing_connect_only_appends (mkConnect 60 (repeat 97 (N.to_nat 65536)) true None) None None
    BinaryDataTooLong met.

(** ---------- C01, C21, C29, C30, C35: round trips ---------- *)

Example C01_write_then_read_later_case :=
  C01_write_then_read_later F_default s_publish [9; 9] [192; 0] (Some 100) met met met met met met.
Example C01_exact_case := C01_exact F_default s_connect met.
Definition ids6 : PublishProperties := mkPublishProperties None None None None None [] [1; 2; 3; 4; 5; 6] None.
Definition pub6 : Publish := mkPublish false AtMostOnce false [97; 47; 98] 0 [1; 2] (Some ids6).
Example C21_publish_reads_back_as_case :=
  C21_publish_reads_back_as F_default pub6 ids6 [192; 0] None met met met met met met.
Example C21_publish_roundtrips_iff_ids_safe_case := C21_publish_roundtrips_iff_ids_safe F_default pub6 met met.
Example C21_two_identifiers_are_safe_case := C21_two_identifiers_are_safe [1; 268435455] (Some [97]) met.
Example C21_six_identifiers_refuted_case := C21_six_identifiers_refuted [1; 2; 3; 4; 5; 6] met.
Example C29_login_presence_case :=
  C29_login_presence F_default (mkConnect 60 [99] true None) None [] [112; 119] [192; 0] met met met.
Definition moved : Disconnect :=
  mkDisconnect DRC_ServerMoved (Some (mkDisconnectProperties None None [] (Some [115]))).
Example C30_reason_survives_case := C30_reason_survives F_default moved [192; 0] met met met
  ltac:(right; eexists; split; [reflexivity|discriminate]).
Example C30_empty_properties_lose_reason_refuted_case :=
  C30_empty_properties_lose_reason_refuted F_default
    (mkDisconnect DRC_ServerMoved (Some (mkDisconnectProperties None None [] None)))
    (mkDisconnectProperties None None [] None) [192; 0] met met met met.
Example C30_bare_disconnect_unreadable_refuted_case :=
  C30_bare_disconnect_unreadable_refuted F_default (mkDisconnect DRC_ServerMoved None) [192; 0] met met met.
(** Two packets written differently but with the same bytes: properties that are all absent, and no
    properties. *)
Definition ack_empty : Packet := P_PubAck (mkPubAck 10 PAR_NotAuthorized (Some (mkPubAckProperties None []))).
Definition ack_none : Packet := P_PubAck (mkPubAck 10 PAR_NotAuthorized None).
Example C35_encodings_are_unambiguous_case :=
  C35_encodings_are_unambiguous F_default ack_empty ack_none [1] [1] met met met met met met met met.
Example C35_different_packets_different_bytes_case :=
  C35_different_packets_different_bytes F_default s_publish s_puback (blen w_publish) (blen w_puback)
    w_publish w_puback [3] met met met met met met met.

(** ---------- C02, C08, C35: streams of packets ---------- *)

(** ---------- C02, C08, C35: streams of packets ---------- *)

Lemma survivor ft p : In p samples -> survives ft p.
Proof.
  intros H. split; [|split].
  - exact (proj1 (Forall_forall _ _) (samples_rust ft) p H).
  - exact (proj1 (Forall_forall _ _) samples_encodable p H).
  - exact (proj1 (Forall_forall _ _) samples_safe p H).
Qed.
Ltac survive := repeat (constructor; [apply survivor; in_samples|]); constructor.
Ltac draining :=
  first [apply drains_stop; vm_compute; reflexivity
        | eapply drains_packet; [vm_compute; reflexivity | draining]].
Example C02_pipelined_packets_anywhere_case :=
  C02_pipelined_packets_anywhere F_default [s_publish; s_pubrec] [1; 2; 3] (Some 60) [192; 0; 208]
    [P_PingReq] (InsufficientBytes 1) [208]
    ltac:(survive) ltac:(repeat constructor) ltac:(repeat constructor; vm_compute; discriminate) met ltac:(draining).
Example C35_streams_are_unambiguous_case :=
  C35_streams_are_unambiguous F_default [P_PingReq; s_puback] [P_PingReq; s_puback; P_PingResp]
    ([192; 0] ++ w_puback) [208; 0]
    ltac:(survive) ltac:(repeat constructor) ltac:(survive) ltac:(repeat constructor) met met.
(** Two PINGREQs and an unfinished one; no complete frame in it is refused with InsufficientBytes. *)
Lemma ping_frame : is_frame [192; 0].
Proof. exists 192, []. apply short_frame. reflexivity. Qed.
Lemma pings_no_false_alarm : no_false_alarm F_default None [192; 0; 192; 0; 192].
Proof.
  apply (decodable_stream_no_false_alarm F_default None [[192; 0]; [192; 0]] [192]).
  - assert (H : is_frame [192; 0] /\ bytes_ok [192; 0]
                /\ forall n, fst (Packet_read F_default [192; 0] None) <> Err (InsufficientBytes n)).
    { split; [exact ping_frame|]. split; [meet|]. intros n. vm_compute. discriminate. }
    constructor; [exact H|]. constructor; [exact H|constructor].
  - meet.
  - intros f rest (b & body & lb & -> & _ & H & _) E. destruct lb as [|x lb]; [exact H|discriminate E].
Qed.
Example C08_chunks_are_read_as_one_stream_case :=
  C08_chunks_are_read_as_one_stream F_default None [[0; 192]; [0; 192]] [192] met met pings_no_false_alarm
    [P_PingReq; P_PingReq] (InsufficientBytes 1) [192].
Example C08_chunking_does_not_matter_case :=
  C08_chunking_does_not_matter F_default None [[192; 0; 192]; [0; 192]] [[192]; []; [0; 192; 0]; [192]]
    met met met pings_no_false_alarm.

(** ---------- C22, C31, C34, C38: what is read ---------- *)

Example C38_contents_fit_the_frame_case :=
  C38_contents_fit_the_frame F_default None (w_connect ++ [1]) s_connect [1] met met.
Example C22_decoded_strings_are_utf8_case :=
  C22_decoded_strings_are_utf8 F_default None (w_connect ++ [1]) s_connect [1] met met met.
Lemma lone_255 : ~ utf8 [255].
Proof. intros H. apply from_utf8_complete in H. discriminate H. Qed.
Example C22_ill_formed_string_rejected_case :=
  C22_ill_formed_string_rejected F_cow None [48; 4; 0; 1; 255; 0]
    (P_Publish (mkPublish false AtMostOnce false [255] 0 [] None)) [] met met met
    ltac:(intros H; apply lone_255; exact (Forall_inv H)).
Example C34_checking_features_agree_case := C34_checking_features_agree F_default F_boxed None w_connect met met.
Example C34_binary_accepts_the_same_packets_case :=
  C34_binary_accepts_the_same_packets F_cow None w_connect s_connect [] met.
Example C34_features_agree_but_for_utf8_case :=
  C34_features_agree_but_for_utf8 F_cow F_binary (Some 5) w_connect met met.
Example C31_decoded_is_normal_case :=
  C31_decoded_is_normal F_default None (w_subscribe ++ [1]) s_subscribe [1] met met.
Example C31_decoded_can_be_written_case :=
  C31_decoded_can_be_written F_default None (w_subscribe ++ [1]) s_subscribe [1] [8; 8] met met.
Example C31_limited_can_be_written_case :=
  C31_limited_can_be_written F_default 1000 (w_subscribe ++ [1]) s_subscribe [1] [8; 8] met met met.
Example C31_reread_returns_the_same_case :=
  C31_reread_returns_the_same F_default None (w_subscribe ++ [1]) s_subscribe [1] met met met.
(** A PUBACK with bytes after its properties, a PUBLISH with an overlong length: neither is what the
    crate would write. *)
Example C31_decoded_can_be_written_odd_case :=
  C31_decoded_can_be_written F_default None [64; 6; 0; 1; 16; 0; 9; 9]
    (P_PubAck (mkPubAck 1 PAR_NoMatchingSubscribers None)) [] [] met met.
Example C31_reread_returns_the_same_odd_case :=
  C31_reread_returns_the_same F_default None [49; 132; 0; 0; 1; 97; 0; 5]
    (P_Publish (mkPublish false AtMostOnce true [97] 0 [] None)) [5] met met met.

(** ---------- C45, C46: parts ---------- *)

Example C45_check_accepts_case := C45_check_accepts [49; 132; 0; 0; 1; 97; 0; 5] None (mkFixedHeader 49 3 4) met.
Example C45_check_rejects_case := C45_check_rejects [48; 9; 0] None (InsufficientBytes 8) met.
Example C45_check_never_panics_case := C45_check_never_panics [48; 255; 255; 255; 255] None met.
Example C45_read_follows_check_case := C45_read_follows_check F_default [64; 2; 0; 1; 7] (Some 2) met.
Example C45_packet_type_case := C45_packet_type (mkFixedHeader 240 2 0) met.
Example C45_read_packet_has_the_type_case :=
  C45_read_packet_has_the_type F_default [69; 2; 0; 1; 7] None (mkFixedHeader 69 2 2)
    (P_PubAck (mkPubAck 1 PAR_Success None)) [7] met met met.
Definition will1 : LastWill :=
  mkLastWill [97; 47; 98] [1; 2; 255] ExactlyOnce true
    (Some (mkLastWillProperties (Some 5) (Some 1) (Some 600) None None (Some [200]) [([107], [])])).
Example C46_will_round_trip_case :=
  C46_will_round_trip F_default will1 [9] [7; 7] 52 194 met met met met met met met.
Example C46_will_read_case := C46_will_read F_default 12 [0; 0; 1; 97; 0; 1; 200; 9] met met.
Example C46_login_round_trip_case :=
  C46_login_round_trip F_default (mkLogin [117; 115; 114] [112; 119]) [9] [7] 192 2 met met met met met.
Example C46_login_read_case := C46_login_read F_default 128 [0; 1; 97; 0; 1] met.
Example C46_filters_read_case :=
  C46_filters_read F_default [0; 1; 35; 44] [mkFilter [35] AtMostOnce true true Never] met.
Example C46_filters_round_trip_case :=
  C46_filters_round_trip F_default [mkFilter [35] AtMostOnce true true Never; mkFilter [97] ExactlyOnce false true OnNewSubscribe]
    ltac:(repeat (constructor; [apply ascii_text; reflexivity|]); constructor) met.
Example C46_filters_total_case := C46_filters_total F_default [0; 1; 35; 255] met.
Example C46_filters_rejected_case := C46_filters_rejected F_default [0; 1; 35; 3] (InvalidQoS 3) met.

(** ---------- C47-C50: bounds over streams ---------- *)

Example C47_only_frames_are_consumed_case :=
  C47_only_frames_are_consumed F_default (Some 3) [192; 0; 64; 3; 0; 1; 7; 192; 0; 99]
    [Ok P_PingReq; Err (InvalidConnectReturnCode 7); Ok P_PingReq] [99] met
    ltac:(repeat (eapply read_times_once; [vm_compute; reflexivity|]); apply read_times_none).
Lemma ack_frame : limited_frame (Some 3) [64; 3; 0; 1; 7].
Proof. exists 64, [0; 1; 7]. split; [apply short_frame; reflexivity|vm_compute; discriminate]. Qed.
Example C48_exactly_one_frame_is_fetched_case :=
  C48_exactly_one_frame_is_fetched F_default (Some 3) [64; 3; 0; 1; 7] [192; 0] ack_frame met.
Example C48_oversized_refused_early_case :=
  C48_oversized_refused_early F_default 100 48 [172; 2] 300 [0; 1; 97] met ltac:(repeat split; cbn; lia) met met.
Lemma puback_fetched : fetches F_default None [] [64; 2; 0; 1; 192; 0] 2 (Ok (P_PubAck (mkPubAck 1 PAR_Success None))) [] [192; 0].
Proof.
  apply (fetches_more F_default None [] 2 [64; 2] [0; 1; 192; 0]); [vm_compute; reflexivity|reflexivity|].
  apply (fetches_more F_default None [64; 2] 2 [0; 1] [192; 0]); [vm_compute; reflexivity|reflexivity|].
  apply fetches_done; [vm_compute; reflexivity|]. intros X. discriminate X.
Qed.
Example C48_fetching_is_deterministic_case :=
  C48_fetching_is_deterministic _ _ _ _ _ _ _ _ _ _ _ puback_fetched puback_fetched.
Example C49_bytes_taken_by_a_call_case :=
  C49_bytes_taken_by_a_call F_default (Some 120) (w_connect ++ [1]) (Ok s_connect) [1] met met.
Example C49_rounds_bounded_case :=
  C49_rounds_bounded F_default None [192; 0; 64; 2; 0; 1; 192]
    [P_PingReq; P_PubAck (mkPubAck 1 PAR_Success None)] (InsufficientBytes 1) [192] met ltac:(draining).
Example C49_wait_is_bounded_case := C49_wait_is_bounded F_default (Some 300) [48; 172; 2; 0; 1; 97] 297 met met.
Example C49_buffer_is_bounded_case :=
  C49_buffer_is_bounded F_default None [[192; 0; 192]; [0; 192]] [P_PingReq; P_PingReq] 1 [192]
    met pings_no_false_alarm
    (proj2 (C08_chunks_are_read_as_one_stream F_default None [[192; 0; 192]; [0; 192]] [] met met
              pings_no_false_alarm [P_PingReq; P_PingReq] (InsufficientBytes 1) [192]) ltac:(cbn [app concat]; draining)).
Example C50_written_packet_fits_a_frame_case :=
  C50_written_packet_fits_a_frame s_connack [] (blen w_connack) w_connack met.
Example C50_size_against_limit_case :=
  C50_size_against_limit F_default s_connack (blen w_connack) w_connack [1] 20 met met met.

(** ---------- C54, C65: machine arithmetic ---------- *)

Lemma wraps : right_below (2 ^ 32) (wrapping (2 ^ 32)).
Proof. apply C54_both_are_right_below. reflexivity. Qed.
Lemma saturates : right_below (2 ^ 32) (saturating (2 ^ 32)).
Proof. apply C54_both_are_right_below. reflexivity. Qed.
Example C54_small_packets_case := C54_small_packets (2 ^ 32) _ s_connect [1] met wraps met.
Example C54_small_sizes_case := C54_small_sizes (2 ^ 32) _ met saturates.
Example C54_packets_read_are_small_case :=
  C54_packets_read_are_small F_default None w_connect s_connect [] (2 ^ 32) met met met.
Example C54_successful_writes_case :=
  C54_successful_writes (2 ^ 32) _ s_publish [] (blen w_publish) w_publish met wraps ltac:(intros d; discriminate) met.
Example C54_disconnect_case :=
  C54_disconnect (2 ^ 32) _ (mkDisconnect DRC_ServerMoved None) [] 2 [224; 0] met saturates met.
Example C54_framing_case := C54_framing (2 ^ 32) _ F_default w_connect (Some 120) met wraps met.
Example C54_header_of_the_caller_refuted_case := C54_header_of_the_caller_refuted (2 ^ 64) 48 met.
Example C65_writes_or_panics_case := C65_writes_or_panics (2 ^ 32) s_connect [] met.
Example C65_successful_writes_case := C65_successful_writes (2 ^ 32) s_suback [] (blen w_suback) w_suback met.
Example C65_packets_read_case := C65_packets_read F_default None w_connect s_connect [] (2 ^ 32) [7] met met met.
Example C65_framing_case := C65_framing (2 ^ 32) F_default w_connect (Some 120) met met.

(** ---------- C55, C59: relaying ---------- *)

Example C55_relay_runs_to_the_end_case :=
  C55_relay_runs_to_the_end F_default None (w_suback ++ w_publish ++ [1]) met met.
(** One byte more: a PUBACK of three bytes is written with an empty property list. *)
Example C59_reencoding_hardly_grows_case :=
  C59_reencoding_hardly_grows F_default None [64; 3; 0; 1; 16; 1] (P_PubAck (mkPubAck 1 PAR_NoMatchingSubscribers None)) [1]
    [7] 6 [7; 64; 4; 0; 1; 16; 0] met met met.

(** ---------- C16, C17, C18, C23, C40, C53: single readers ---------- *)

Example C16_varint_roundtrip_case := C16_varint_roundtrip 268435455 [1] [2] met met.
Example C16_too_large_refused_case := C16_too_large_refused 268435456 [1] met.
Example C17_decoding_case := C17_decoding [128; 128; 0; 5] met.
Example C17_bounds_case := C17_bounds [128; 128; 0; 5] 3 0 met met.
Example C23_length_prefixed_field_case := C23_length_prefixed_field [0; 5; 97; 98] met.
Example C23_text_field_case := C23_text_field F_default [0; 2; 195; 40; 1] met.
Example C40_publish_reader_panics_case := C40_publish_reader_panics F_default (mkFixedHeader 48 2 4) [48] met.
Example C53_disconnect_checks_the_type_case :=
  C53_disconnect_checks_the_type F_default (mkFixedHeader 225 2 1) [225; 1] [0] met met.
Example C53_disconnect_believes_the_header_case :=
  C53_disconnect_believes_the_header F_default (mkFixedHeader 224 2 2) [224; 2] [4; 0; 9] met met met.
