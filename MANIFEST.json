{
 "claims": [
  {
   "property": "C01",
   "status": "proved",
   "theorems": [
    "C01_write_then_read",
    "C01_write_then_read_later",
    "C01_normal_form_is_normal",
    "C01_exact"
   ],
   "note": "exact gives the converse: only encodable, safe packets round trip. Normal form is Spec.normalize."
  },
  {
   "property": "C02",
   "status": "proved",
   "theorems": [
    "C02_pipelined_packets_in_order",
    "C02_pipelined_packets_anywhere",
    "C02_connect_in_second_place_refuted"
   ],
   "note": "Packets other than CONNECT may be pipelined anywhere; connect_in_second_place_refuted shows why CONNECT must come first."
  },
  {
   "property": "C03",
   "status": "proved",
   "theorems": [
    "C03_read_total",
    "C03_read_never_panics_or_diverges"
   ],
   "note": "All byte streams, all limits, all features. Cursor additions are checked at 2^32."
  },
  {
   "property": "C04",
   "status": "proved",
   "theorems": [
    "C04_nothing_or_one_frame",
    "C04_ok_one_frame"
   ],
   "note": ""
  },
  {
   "property": "C05",
   "status": "proved",
   "theorems": [
    "C05_incomplete_asks_for_more"
   ],
   "note": ""
  },
  {
   "property": "C06",
   "status": "proved",
   "theorems": [
    "C06_more_without_consuming_iff_incomplete",
    "C06_when_more_bytes_are_asked_for",
    "C06_amount_after_consuming",
    "C06_complete_frame_refuted"
   ],
   "note": "complete_frame_refuted: the unqualified claim 'InsufficientBytes only for incomplete frames' is false; when_more_bytes_are_asked_for characterises it exactly."
  },
  {
   "property": "C07",
   "status": "proved",
   "theorems": [
    "C07_later_bytes_do_not_matter"
   ],
   "note": ""
  },
  {
   "property": "C08",
   "status": "proved",
   "theorems": [
    "C08_chunks_are_read_as_one_stream",
    "C08_chunking_does_not_matter",
    "C08_any_chunking_delivers_the_packets",
    "C08_chunking_matters_refuted"
   ],
   "note": "Holds for streams without the false alarm of C06; chunking_matters_refuted shows the proviso is needed."
  },
  {
   "property": "C09",
   "status": "proved",
   "theorems": [
    "C09_limit_enforced_on_header",
    "C09_limit_otherwise_ignored",
    "C09_limit_error_iff"
   ],
   "note": ""
  },
  {
   "property": "C10",
   "status": "proved",
   "theorems": [
    "C10_write_returns_growth",
    "C10_bare_disconnect_refuted"
   ],
   "note": "bare_disconnect_refuted: DISCONNECT(reason, None) returns 3 and appends 4."
  },
  {
   "property": "C11",
   "status": "proved",
   "theorems": [
    "C11_size_is_write_result",
    "C11_size_is_growth"
   ],
   "note": ""
  },
  {
   "property": "C12",
   "status": "proved",
   "theorems": [
    "C12_write_only_appends",
    "C12_failing_connect_only_appends",
    "C12_connect_patches_absolute_index",
    "C12_connect_destroys_earlier_bytes_refuted"
   ],
   "note": "connect_patches_absolute_index describes CONNECT into any buffer; the unqualified claim is refuted."
  },
  {
   "property": "C13",
   "status": "proved",
   "theorems": [
    "C13_write_is_the_encoding",
    "C13_success_means_encoding"
   ],
   "note": ""
  },
  {
   "property": "C14",
   "status": "proved",
   "theorems": [
    "C14_write_ok_iff_encodable",
    "C14_write_error_is_first_cause",
    "C14_write_errors",
    "C14_bad_disconnect_always_ok",
    "C14_write_panics_iff_legacy",
    "C14_write_never_diverges"
   ],
   "note": ""
  },
  {
   "property": "C15",
   "status": "proved",
   "theorems": [
    "C15_failed_write_leaves_bytes_refuted",
    "C15_leftovers_are_a_prefix",
    "C15_leftovers_exactly"
   ],
   "note": "'A failed write leaves nothing behind' is false; what is left is characterised."
  },
  {
   "property": "C16",
   "status": "proved",
   "theorems": [
    "C16_varint_roundtrip",
    "C16_size_classes",
    "C16_too_large_refused"
   ],
   "note": ""
  },
  {
   "property": "C17",
   "status": "proved",
   "theorems": [
    "C17_decoding",
    "C17_bounds"
   ],
   "note": ""
  },
  {
   "property": "C18",
   "status": "proved",
   "theorems": [
    "C18_acknowledgement_codes",
    "C18_codes_of_the_standard",
    "C18_connack_codes"
   ],
   "note": ""
  },
  {
   "property": "C19",
   "status": "proved",
   "theorems": [
    "C19_header_bits",
    "C19_qos_3_rejected",
    "C19_zero_id_rejected"
   ],
   "note": ""
  },
  {
   "property": "C20",
   "status": "proved",
   "theorems": [
    "C20_payload_is_the_rest",
    "C20_payload_untouched"
   ],
   "note": ""
  },
  {
   "property": "C21",
   "status": "proved",
   "theorems": [
    "C21_publish_reads_back_as",
    "C21_publish_roundtrips_iff_ids_safe",
    "C21_two_identifiers_are_safe",
    "C21_six_identifiers_refuted"
   ],
   "note": "iff, with the positive bound (two) and the negative bound (six)."
  },
  {
   "property": "C22",
   "status": "proved",
   "theorems": [
    "C22_decoded_strings_are_utf8",
    "C22_check_only_adds_rejections",
    "C22_ill_formed_string_rejected"
   ],
   "note": ""
  },
  {
   "property": "C23",
   "status": "proved",
   "theorems": [
    "C23_length_prefixed_field",
    "C23_text_field"
   ],
   "note": ""
  },
  {
   "property": "C24",
   "status": "proved",
   "theorems": [
    "C24_one_identifier_fits",
    "C24_order_does_not_matter",
    "C24_exact_sections"
   ],
   "note": ""
  },
  {
   "property": "C25",
   "status": "proved",
   "theorems": [
    "C25_undefined_property_rejected",
    "C25_allowed_as_in_the_standard",
    "C25_allowed_properties_accepted",
    "C25_each_allowed_property_has_a_section"
   ],
   "note": ""
  },
  {
   "property": "C26",
   "status": "proved",
   "theorems": [
    "C26_last_value_wins"
   ],
   "note": ""
  },
  {
   "property": "C27",
   "status": "proved",
   "theorems": [
    "C27_exact_section_is_consumed_exactly",
    "C27_exact_section_in_general",
    "C27_consumption_rule",
    "C27_consumption_rule_will",
    "C27_overrun_bound",
    "C27_overrun_refuted"
   ],
   "note": "consumption_rule is exact for every decoded packet with a section, consumption_rule_will for the Will's section; overrun_refuted is the counterexample to 'never past the declared length'."
  },
  {
   "property": "C28",
   "status": "proved",
   "theorems": [
    "C28_flags_written",
    "C28_protocol_name",
    "C28_protocol_level",
    "C28_stray_will_bits",
    "C28_will_qos_3",
    "C28_flags_read"
   ],
   "note": ""
  },
  {
   "property": "C29",
   "status": "proved",
   "theorems": [
    "C29_login_presence"
   ],
   "note": ""
  },
  {
   "property": "C30",
   "status": "proved",
   "theorems": [
    "C30_reason_survives",
    "C30_empty_properties_lose_reason_refuted",
    "C30_bare_disconnect_unreadable_refuted"
   ],
   "note": "Both failing shapes are proved for every reason."
  },
  {
   "property": "C31",
   "status": "proved",
   "theorems": [
    "C31_decoded_is_normal",
    "C31_decoded_can_be_written",
    "C31_limited_can_be_written",
    "C31_too_long_to_write",
    "C31_reread_returns_the_same",
    "C31_disconnect_refuted",
    "C31_publish_refuted"
   ],
   "note": "reread_returns_the_same is an iff; the two _refuted theorems are instances of its right side. The size bounds are the best possible (C31_too_long_to_write)."
  },
  {
   "property": "C32",
   "status": "proved",
   "theorems": [
    "C32_payload_required",
    "C32_empty_subscription",
    "C32_no_codes",
    "C32_decoded_not_empty",
    "C32_unsubscribe_refuted"
   ],
   "note": "UNSUBSCRIBE is the exception (unsubscribe_refuted)."
  },
  {
   "property": "C33",
   "status": "proved",
   "theorems": [
    "C33_kind_follows_first_byte",
    "C33_reserved_types_rejected"
   ],
   "note": ""
  },
  {
   "property": "C34",
   "status": "proved",
   "theorems": [
    "C34_checking_features_agree",
    "C34_binary_accepts_the_same_packets",
    "C34_features_agree_but_for_utf8",
    "C34_binary_never_complains",
    "C34_binary_against_the_others"
   ],
   "note": ""
  },
  {
   "property": "C35",
   "status": "proved",
   "theorems": [
    "C35_written_bytes_tell_the_packet",
    "C35_empty_props_disconnect_refuted",
    "C35_all_streams_are_unambiguous",
    "C35_streams_are_unambiguous",
    "C35_encodings_are_unambiguous",
    "C35_different_packets_different_bytes"
   ],
   "note": "C35_written_bytes_tell_the_packet covers every packet that is written without error; C35_empty_props_disconnect_refuted is its one exception."
  },
  {
   "property": "C36",
   "status": "proved",
   "theorems": [
    "C36_options_written",
    "C36_options_read",
    "C36_options_rejected"
   ],
   "note": ""
  },
  {
   "property": "C37",
   "status": "proved",
   "theorems": [
    "C37_read_is_the_wire_language",
    "C37_wire_language_unambiguous"
   ],
   "note": "Wire.v is the specification; both directions, with the bytes consumed."
  },
  {
   "property": "C38",
   "status": "proved",
   "theorems": [
    "C38_contents_fit_the_frame"
   ],
   "note": ""
  },
  {
   "property": "C39",
   "status": "proved",
   "theorems": [
    "C39_two_bytes",
    "C39_three_bytes",
    "C39_unknown_reason"
   ],
   "note": ""
  },
  {
   "property": "C40",
   "status": "proved",
   "theorems": [
    "C40_readers_panic_iff_header_too_long",
    "C40_publish_reader_panics"
   ],
   "note": ""
  },
  {
   "property": "C41",
   "status": "proved",
   "theorems": [
    "C41_defaults",
    "C41_default_levels",
    "C41_publish_qos0",
    "C41_publish_needs_id",
    "C41_publish_with_id",
    "C41_acks",
    "C41_plain_acks",
    "C41_subscribe",
    "C41_disconnect",
    "C41_login",
    "C41_empty_properties"
   ],
   "note": ""
  },
  {
   "property": "C42",
   "status": "proved",
   "theorems": [
    "C42_errors_are_the_described_faults",
    "C42_faults_complement_the_wire_language"
   ],
   "note": "Faults.v is the specification; iff for every stream, error and remainder. With C37 it determines Packet::read completely."
  },
  {
   "property": "C43",
   "status": "proved",
   "theorems": [
    "C43_error_vocabulary"
   ],
   "note": ""
  },
  {
   "property": "C44",
   "status": "proved",
   "theorems": [
    "C44_readers",
    "C44_writers",
    "C44_round_trip",
    "C44_publish_round_trip"
   ],
   "note": ""
  },
  {
   "property": "C45",
   "status": "proved",
   "theorems": [
    "C45_check_accepts",
    "C45_check_rejects",
    "C45_check_never_panics",
    "C45_read_follows_check",
    "C45_packet_type",
    "C45_read_packet_has_the_type"
   ],
   "note": ""
  },
  {
   "property": "C46",
   "status": "proved",
   "theorems": [
    "C46_will_written",
    "C46_will_round_trip",
    "C46_will_read",
    "C46_login_written",
    "C46_login_round_trip",
    "C46_login_read",
    "C46_filter_written",
    "C46_filters_read",
    "C46_filters_round_trip",
    "C46_filters_total",
    "C46_filters_rejected"
   ],
   "note": ""
  },
  {
   "property": "C47",
   "status": "proved",
   "theorems": [
    "C47_frames_are_independent",
    "C47_only_frames_are_consumed"
   ],
   "note": ""
  },
  {
   "property": "C48",
   "status": "proved",
   "theorems": [
    "C48_exactly_one_frame_is_fetched",
    "C48_oversized_refused_early",
    "C48_fetching_is_deterministic"
   ],
   "note": ""
  },
  {
   "property": "C49",
   "status": "proved",
   "theorems": [
    "C49_bytes_taken_by_a_call",
    "C49_rounds_bounded",
    "C49_wait_is_bounded",
    "C49_buffer_is_bounded",
    "C49_buffer_unbounded_refuted"
   ],
   "note": "buffer_unbounded_refuted: a peer can make the receive loop buffer grow without bound (false alarm of C06)."
  },
  {
   "property": "C50",
   "status": "proved",
   "theorems": [
    "C50_written_packet_fits_a_frame",
    "C50_size_against_limit",
    "C50_limit_is_not_packet_size_refuted"
   ],
   "note": "limit_is_not_packet_size_refuted: the limit is compared with the remaining length, not the packet size."
  },
  {
   "property": "C51",
   "status": "proved",
   "theorems": [
    "C51_one_frame_one_message",
    "C51_standard_frames_are_understood",
    "C51_auth_is_refused",
    "C51_short_disconnect_is_refused",
    "C51_binary_password_is_refused",
    "C51_many_identifiers_are_misread",
    "C51_exactly_the_supported_frames",
    "C51_absent_or_empty_user_refuted"
   ],
   "note": "Standard.v is the specification, independent of the crate's types. exactly_the_supported_frames is an iff; the four kinds of unsupported frames have their own theorems. one_frame_one_message shows that the specification itself is unambiguous."
  },
  {
   "property": "C52",
   "status": "proved",
   "theorems": [
    "C52_written_frames_are_standard",
    "C52_inexpressible_packets_have_no_standard_frame",
    "C52_disconnect_without_properties_refuted",
    "C52_disconnect_with_empty_properties_refuted"
   ],
   "note": "For UTF-8 strings; the inexpressible packets are proved to have no conforming frame. The two DISCONNECT shapes are refuted separately."
  },
  {
   "property": "C53",
   "status": "proved",
   "theorems": [
    "C53_readers",
    "C53_disconnect_checks_the_type",
    "C53_acks_believe_the_header",
    "C53_disconnect_believes_the_header"
   ],
   "note": "readers is for a header whose remaining length is that of the rest (only the acknowledgements and DISCONNECT look at it); acks_believe_the_header and disconnect_believes_the_header are exact for every other remaining length."
  },
  {
   "property": "C54",
   "status": "proved",
   "theorems": [
    "C54_machine_is_model",
    "C54_small_packets",
    "C54_small_sizes",
    "C54_packets_read_are_small",
    "C54_successful_writes",
    "C54_disconnect",
    "C54_huge_disconnect_refuted",
    "C54_huge_size_refuted",
    "C54_framing",
    "C54_header_of_the_caller_refuted"
   ],
   "note": "MUsize.v is the writing side with usize addition as a parameter; C54_machine_is_model checks that it is the same program. The two _refuted theorems exhibit the overflows that remain."
  },
  {
   "property": "C55",
   "status": "proved",
   "theorems": [
    "C55_own_bytes_unchanged",
    "C55_wordy_ack_shrinks",
    "C55_next_hop_sees_the_same",
    "C55_relay_runs_to_the_end",
    "C55_disconnect_refuted"
   ],
   "note": "C55_relay_runs_to_the_end asks for a size limit of at most 268435453 or an input of at most 268435458 bytes (C31: near the maximal length a respelled packet may not fit a frame). The DISCONNECT exception is shown to be needed."
  },
  {
   "property": "C56",
   "status": "proved",
   "theorems": [
    "C56_message_tells_the_error",
    "C56_numbers_are_decimal",
    "C56_level_refuted",
    "C56_numbers_read_off"
   ],
   "note": "The Display of the wrapped Utf8Error is a parameter; no function of the crate returns that variant."
  },
  {
   "property": "C57",
   "status": "proved",
   "theorems": [
    "C57_property_sections",
    "C57_will",
    "C57_login",
    "C57_filters",
    "C57_nothing_invented",
    "C57_where_sections_stop"
   ],
   "note": "MLeft.v repeats the component readers with the buffer as state; each theorem includes that the results agree with the readers of the model. Left.v is the specification."
  },
  {
   "property": "C58",
   "status": "proved",
   "theorems": [
    "C58_conforming_stream",
    "C58_written_stream_is_standard"
   ],
   "note": "Combines the independent description of the standard (Standard.v) with the receive loop (Driver.v)."
  },
  {
   "property": "C59",
   "status": "proved",
   "theorems": [
    "C59_reencoding_hardly_grows"
   ],
   "note": "All three bounds are reached by concrete frames (C59_reached)."
  },
  {
   "property": "C60",
   "status": "proved",
   "theorems": [
    "C60_same_outcome",
    "C60_linear",
    "C60_receive_loop",
    "C60_receive_loop_linear",
    "C60_five_needed"
   ],
   "note": "Counted copies of all readers (MCost), proved to have the outcomes of the model (same_outcome). What is counted is said at the head of MCost.v; constant-time work between counted steps is not."
  },
  {
   "property": "C61",
   "status": "proved",
   "theorems": [
    "C61_levels_unique",
    "C61_ascii_search",
    "C61_filter_valid",
    "C61_filter_never_panics",
    "C61_topic_valid",
    "C61_empty_topic_refuted",
    "C61_topics_are_filters",
    "C61_qos"
   ],
   "note": "About /repo/mod.rs, which is not part of the crate. Strings are their UTF-8 bytes; C61_ascii_search justifies searching bytes for ASCII characters."
  },
  {
   "property": "C62",
   "status": "proved",
   "theorems": [
    "C62_outcome",
    "C62_matches",
    "C62_never_too_much",
    "C62_exact_for_ascii",
    "C62_dollar_refuted",
    "C62_non_ascii_refuted",
    "C62_two_filters"
   ],
   "note": "About /repo/mod.rs, which is not part of the crate. The panic and the '$' behaviour are findings (the two _refuted theorems)."
  },
  {
   "property": "C63",
   "status": "proved",
   "theorems": [
    "C63_same_outcome",
    "C63_linear",
    "C63_linear_in_output",
    "C63_sender_linear",
    "C63_three_needed"
   ],
   "note": "Counted copies of all writers and of the size computations they call (MCostW), proved to have the outcomes of the model (same_outcome). Growth of the output buffer is taken as amortised: one step per byte appended. Sizes are stated with the specification body_size, not with len()."
  },
  {
   "property": "C64",
   "status": "proved",
   "theorems": [
    "C64_received_is_a_beginning_of_sent",
    "C64_read_gives_the_next_packet_or_waits",
    "C64_everything_arrives",
    "C64_never_stuck",
    "C64_without_truncating_refuted"
   ],
   "note": "Link.v is the transition system (caller code, not in the crate). A crash is a run that stops, so safety holds at every crash point. without_truncating_refuted shows why the sender must undo failed writes; C12 why CONNECT needs an empty buffer."
  },
  {
   "property": "C65",
   "status": "proved",
   "theorems": [
    "C65_writes_or_panics",
    "C65_successful_writes",
    "C65_packets_read",
    "C65_sizes",
    "C65_framing",
    "C65_header_of_the_caller"
   ],
   "note": "MDebug.v is the writing side and the framing with additions that panic on overflow; PDebug shows each sum exact or Panic. C65_huge_disconnect and C65_huge_size are the inputs on which the build without checks goes wrong (C54)."
  },
  {
   "property": "C66",
   "status": "proved",
   "theorems": [
    "C66_each_connection_delivers_a_beginning",
    "C66_received_are_some_of_sent",
    "C66_a_cut_does_no_later_harm",
    "C66_keeping_the_input_refuted",
    "C66_keeping_the_output_refuted"
   ],
   "note": "The connections relation of Link.v (caller code, not in the crate); the two _refuted theorems are concrete runs without the emptying."
  },
  {
   "property": "C67",
   "status": "proved",
   "theorems": [
    "C67_packets_equal",
    "C67_errors_equal",
    "C67_headers_equal",
    "C67_parts_equal",
    "C67_read_back_compares_equal",
    "C67_decoded_equal_iff_same_bytes",
    "C67_qos_order",
    "C67_header_order",
    "C67_written_headers_order",
    "C67_string_new"
   ],
   "note": "Derived PartialEq/PartialOrd modelled in MEq (discriminants, then fields in order); clones and Debug output are not modelled."
  },
  {
   "property": "C68",
   "status": "proved",
   "theorems": [
    "C68_cut_anywhere",
    "C68_damage_is_confined",
    "C68_length_field_refuted"
   ],
   "note": "C68_cut_anywhere for crash points, C68_damage_is_confined for damage (the result list pairs each packet with its frame before and after); C68_length_field_refuted is the limit."
  },
  {
   "property": "C69",
   "status": "proved",
   "theorems": [
    "C69_values_of_the_builds",
    "C69_builds_interoperate",
    "C69_texts_reach_every_build",
    "C69_streams_across_builds"
   ],
   "note": "packet_texts (Content.v) lists the text fields; C69_values_of_the_builds ties it to rust_packet."
  },
  {
   "property": "C70",
   "status": "proved",
   "theorems": [
    "C70_identifier_in_place",
    "C70_flags_in_place",
    "C70_payload_in_place",
    "C70_keep_alive_in_place",
    "C70_identifier_when_written",
    "C70_flags_when_written",
    "C70_payload_when_written"
   ],
   "note": "set_identifier, set_flags, set_payload (TPatch.v) are the changes on packets; the positions are stated next to the theorems."
  },
  {
   "property": "C71",
   "status": "proved",
   "theorems": [
    "C71_accepted_is_standard_or_listed",
    "C71_listed_is_not_standard",
    "C71_the_list_is_exact",
    "C71_misread_frames_are_listed",
    "C71_streams_are_standard_or_listed",
    "C71_rewritten_frames_are_standard",
    "C71_rewritten_without_filters_refuted"
   ],
   "note": "The list is Lenient.v (a relation between accepted frame and packet, over the pieces of Wire.v, without Standard.v). C71_the_list_is_exact combines both directions; one instance per kind of entry."
  },
  {
   "property": "C72",
   "status": "proved",
   "theorems": [
    "C72_what_can_be_read",
    "C72_any_topic_and_payload",
    "C72_any_numbers_in_connect",
    "C72_any_numbers_in_connack",
    "C72_any_identifier"
   ],
   "note": "readable (TRange.v) in terms of the specification (encodable, normalize, legacy_connack, list_safe of Spec.v); rust_packet: values of the Rust types. The bound of 128 MB is because a miscounted property section (C21) needs a larger declared length."
  },
  {
   "property": "C73",
   "status": "proved",
   "theorems": [
    "C73_other_protocols_are_refused",
    "C73_older_clients_are_refused",
    "C73_older_connack_looks_unfinished",
    "C73_older_unsuback_looks_unfinished",
    "C73_common_messages_are_understood",
    "C73_common_messages_are_written",
    "C73_nothing_else_is_understood",
    "C73_publish_without_payload_looks_unfinished",
    "C73_publish_loses_a_zero_byte",
    "C73_suback_loses_its_first_code",
    "C73_suback_of_one_code_is_rejected",
    "C73_subscribe_is_out_of_step",
    "C73_unsubscribe_is_out_of_step",
    "C73_single_filters_are_out_of_step",
    "C73_written_means_the_same_only_for_common",
    "C73_foreign_to_older_receivers",
    "C73_written_publish_changes_its_payload",
    "C73_written_suback_gains_a_code"
   ],
   "note": "MQTT 3.1.1 messages and when a packet means the same are specified in Older.v from that standard, without the model. Subscriptions of several filters are covered unless the whole list is over 256 times as long as its first filter. TOlderSent.v: the writing direction."
  },
  {
   "property": "C74",
   "status": "proved",
   "theorems": [
    "C74_frames_are_the_spellings",
    "C74_spelling_does_not_matter",
    "C74_no_frame_is_the_only_one",
    "C74_written_is_the_shortest"
   ],
   "note": "digits k n: n in base 128 in k bytes, defined in TSpell.v without the model. Signatures or caches over the bytes of a packet must not assume that the bytes are determined by the packet."
  }
 ]
}