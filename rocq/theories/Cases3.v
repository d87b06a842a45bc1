(** The theorems about standard frames, peers, links, costs and what failed readers leave, at concrete
    cases (see Cases.v). *)
From Coq Require Import Lia PeanoNat.
From Verif Require Import Types MLib Model MCost MCostW Spec Wire Sites Faults Content Driver Link Left Standard Samples PVarint PUtf8 Cases.
From Verif Require Import TFraming TWrite TRound TDriver TStandard TPeer TLink TCost TCostW TLeft.
Import Faults.

(** ---------- C51, C52, C58 ---------- *)

Example C51_standard_frames_are_understood_case :=
  C51_standard_frames_are_understood F_default example_publish example_frame [9] (Some 100)
    (proj1 C51_example) (proj2 C51_example) met met.
Example C51_auth_is_refused_case :=
  C51_auth_is_refused F_default 24 _ _ [9] None C51_example_auth met met.
Example C51_short_disconnect_is_refused_case :=
  C51_short_disconnect_is_refused F_default 4 [] [224; 1; 4] [9] None (proj1 C51_example_disconnect) met met met.
Example C51_binary_password_is_refused_case :=
  C51_binary_password_is_refused F_default _ _ _ _ _ _ _ example_connect_frame [9] None
    (proj1 C51_example_connect) met (proj2 C51_example_connect) met met.
Example C51_many_identifiers_are_misread_case :=
  C51_many_identifiers_are_misread F_default _ _ _ _ _ _ _ example_many_frame [7] None
    (proj1 C51_example_many) (proj1 (proj2 C51_example_many)) met met.
Example C51_exactly_the_supported_frames_case :=
  C51_exactly_the_supported_frames F_default example_many example_many_frame [7] None (proj1 C51_example_many) met met.

Definition sub5 : Packet :=
  P_Subscribe (mkSubscribe 5 [mkFilter [116] ExactlyOnce true false Never] (Some (mkSubscribeProperties (Some 300) [([107], [118])]))).
Definition sub_empty : Packet := P_Subscribe (mkSubscribe 5 [] None).
Example C52_written_frames_are_standard_case :=
  C52_written_frames_are_standard sub5 met met met met ltac:(discriminate).
Example C52_inexpressible_packets_have_no_standard_frame_case :=
  C52_inexpressible_packets_have_no_standard_frame sub_empty (MSubscribe 5 [] [])
    met met met met ltac:(intros H; apply H; reflexivity).
Example C52_disconnect_without_properties_refuted_case :=
  C52_disconnect_without_properties_refuted (mkDisconnect DRC_ServerBusy None) (MDisconnect 137 []) met met.
Example C52_disconnect_with_empty_properties_refuted_case :=
  C52_disconnect_with_empty_properties_refuted
    (mkDisconnect DRC_ServerBusy (Some (mkDisconnectProperties None None [] None))) _ met eq_refl met.
Example C58_conforming_stream_case :=
  let H := C58_instance in
  C58_conforming_stream F_default (Some 100) [example_publish; MPingReq] [example_frame; [192; 0]] (firstn 10 example_frame)
    [firstn 3 example_frame; skipn 3 example_frame ++ [192]; [0] ++ firstn 10 example_frame]
    (proj1 H) (proj1 (proj2 H)) (proj1 (proj2 (proj2 H))) (proj1 (proj2 (proj2 (proj2 H)))) (proj2 (proj2 (proj2 (proj2 H)))).
Example C58_written_stream_is_standard_case :=
  C58_written_stream_is_standard _ (proj1 C58_written_instance) (proj2 C58_written_instance).

(** ---------- C64, C66 ---------- *)

Example C64_received_is_a_beginning_of_sent_case := C64_received_is_a_beginning_of_sent _ _ _ C64_instance.
Example C64_read_gives_the_next_packet_or_waits_case := C64_read_gives_the_next_packet_or_waits _ _ _ C64_instance.
Example C64_never_stuck_case := C64_never_stuck _ _ _ C64_instance.
Example C64_everything_arrives_case :=
  C64_everything_arrives _ _ _ (InsufficientBytes 2) [] (run_trans _ _ _ _ _ C64_instance (C64_never_stuck _ _ _ C64_instance)) eq_refl eq_refl eq_refl.
Example C66_each_connection_delivers_a_beginning_case :=
  C66_each_connection_delivers_a_beginning _ _ _ _ (mkLink [P_PingReq] [0] [] [192] []) C66_instance (or_introl eq_refl).
Example C66_received_are_some_of_sent_case := C66_received_are_some_of_sent _ _ _ _ C66_instance.
Example C66_a_cut_does_no_later_harm_case := C66_a_cut_does_no_later_harm _ _ _ _ C66_instance.

(** ---------- C60, C63 ---------- *)

Example C60_linear_case := C60_linear _ _ _ _ _ _ C60_instance.
Example C60_receive_loop_linear_case := C60_receive_loop_linear _ _ _ _ _ _ _ _ C60_instance_pieces.
Example C60_receive_loop_case :=
  C60_receive_loop _ _ _ _ _ _ _ (proj1 (C60_receive_loop_linear _ _ _ _ _ _ _ _ C60_instance_pieces)).
Example C60_five_needed_case := C60_five_needed F_default 1000 met met.
Example C63_linear_in_output_case :=
  C63_linear_in_output s_connect [] (blen w_connect) w_connect met.
Example C63_three_needed_case := C63_three_needed 1000 [7] met.

(** ---------- C57 ---------- *)

Example C57_where_sections_stop_case :=
  C57_where_sections_stop F_default ack_allowed [10; 38; 0; 1; 97; 0; 1; 98; 19; 0; 60; 1] _ _ met (proj1 C57_where_sections_stop_instance).
