{
 "claims": [
  {
   "property": "C01",
   "status": "proved",
   "theorems": [
    "C01_udp_roundtrip",
    "C01_udp_layout",
    "C01_version_delta_refuted",
    "C01_empty_with_token_refuted"
   ],
   "note": "Round trip and RFC layout for all well-formed messages; the two malformed outputs named in the statement are shown by witnesses."
  },
  {
   "property": "C02",
   "status": "proved",
   "theorems": [
    "C02_tcp_roundtrip",
    "C02_tcp_layout",
    "C02_frame_delimited",
    "C02_frame_start_never_misread",
    "C02_empty_with_token_refuted"
   ],
   "note": "Framing, layout and round trip for all well-formed messages below 4 GiB; the exception of the statement is shown by a witness."
  },
  {
   "property": "C03",
   "status": "partial",
   "theorems": [
    "C03_short_datagram_refuted",
    "C03_missing_token_refuted",
    "C03_cut_option_refuted",
    "C03_tcp_code_refuted",
    "C03_stale_token_refuted",
    "C03_udp_guarded_partial",
    "C03_udp_reach_partial",
    "C03_tcp_guarded_partial",
    "C03_conformant_in_bounds_partial",
    "C03_validation_agrees"
   ],
   "note": "False as stated (five refuting witnesses); proved: reads stay within four bytes behind a datagram that has header and token and do not influence the result, RFC-conformant datagrams stay in bounds, the validity check agrees with the parser."
  },
  {
   "property": "C04",
   "status": "proved",
   "theorems": [
    "C04_header_layout",
    "C04_header_roundtrip",
    "C04_header_size",
    "C04_size_assert_holds",
    "C04_int_roundtrip"
   ],
   "note": ""
  },
  {
   "property": "C05",
   "status": "proved",
   "theorems": [
    "C05_block2_roundtrip",
    "C05_block1_roundtrip",
    "C05_block_decode",
    "C05_four_byte_value_refuted",
    "C05_odd_size_refuted"
   ],
   "note": "Round trip of both options and the decoder; exceptions shown by witnesses."
  },
  {
   "property": "C06",
   "status": "proved",
   "theorems": [
    "C06_path_roundtrip",
    "C06_query_roundtrip",
    "C06_wire_segments",
    "C06_trailing_slash_refuted",
    "C06_leading_ampersand_refuted",
    "C06_empty_segment_refuted",
    "C06_overread_refuted"
   ],
   "note": "Proved for strings without separator at the ends; exceptions shown by witnesses."
  },
  {
   "property": "C07",
   "status": "partial",
   "theorems": [
    "C07_transmission_limit",
    "C07_backoff_spacing",
    "C07_backoff_exact",
    "C07_retransmission_happens",
    "C07_acknowledged_never_resent",
    "C07_nonconfirmable_once",
    "C07_check_terminates",
    "C07_foreign_message_stops_retransmission_refuted",
    "C07_limit_without_peer_refuted",
    "C07_four_retransmissions_refuted"
   ],
   "note": "Limit, spacing, exact wait, progress, acknowledgement proved for messages whose secured endpoint has a TLS peer; a foreign message with the same id stops retransmission, the limit fails without a peer, and only three of four allowed retransmissions are made (refuted)."
  },
  {
   "property": "C08",
   "status": "partial",
   "theorems": [
    "C08_duplicate_not_executed",
    "C08_no_repetition_in_window",
    "C08_fresh_executed_partial",
    "C08_first_mid_zero_dropped_refuted",
    "C08_other_client_dropped_refuted",
    "C08_confirmable_duplicate_executed_refuted"
   ],
   "note": "Window semantics proved exactly for non-confirmable requests; dropped first message id 0, collisions between clients and executed confirmable duplicates refute the full statement."
  },
  {
   "property": "C09",
   "status": "partial",
   "theorems": [
    "C09_server_delivers_only_the_payload",
    "C09_server_completes",
    "C09_buffer_never_exceeded",
    "C09_client_delivers_the_payload",
    "C09_transfers_mixed_refuted",
    "C09_larger_block_truncated_refuted",
    "C09_mixed_block_sizes_refuted",
    "C09_client_unrequested_block_refuted",
    "C09_client_versions_joined_refuted"
   ],
   "note": "Server and client reassembly proved for transfers of one payload in blocks of one size, with interleaving; mixing of two transfers, truncation by OC_BLOCK_SIZE, changing block size and unrequested blocks are refuting witnesses."
  },
  {
   "property": "C10",
   "status": "proved",
   "theorems": [
    "C10_served_blocks_are_slices",
    "C10_nothing_beyond_the_end",
    "C10_blocks_add_up",
    "C10_client_sends_next_block",
    "C10_dispatch_unaligned_refuted",
    "C10_requests_unanswered_refuted"
   ],
   "note": "Served and sent blocks are the slices asked for and add up to the payload; exceptions shown by witnesses."
  },
  {
   "property": "C11",
   "status": "proved",
   "theorems": [
    "C11_piv_roundtrip",
    "C11_piv_injective",
    "C11_piv_form",
    "C11_piv_read"
   ],
   "note": ""
  },
  {
   "property": "C12",
   "status": "proved",
   "theorems": [
    "C12_nonce_distinct",
    "C12_nonce_injective",
    "C12_nonce_distinct_beyond_40_bits_refuted"
   ],
   "note": "Proved for partial IVs of at most 5 bytes, all that the option can carry; beyond 40 bits nonces repeat (witness)."
  },
  {
   "property": "C13",
   "status": "partial",
   "theorems": [
    "C13_replay_within_window_partial",
    "C13_fresh_delivered_partial",
    "C13_forged_not_delivered",
    "C13_at_most_once_refuted",
    "C13_zero_replay_refuted",
    "C13_forgery_blocks_authentic_refuted",
    "C13_fresh_zero_refuted"
   ],
   "note": "Replays inside the 32-entry window of a non-zero partial IV are refused and fresh non-zero ones delivered; at-most-once, partial IV 0 and forged-first are refuted with witnesses."
  },
  {
   "property": "C14",
   "status": "partial",
   "theorems": [
    "C14_no_reuse_partial",
    "C14_persist_requested_partial",
    "C14_second_crash_refuted",
    "C14_multicast_refuted"
   ],
   "note": "No reuse under timely persists; the stack does not enforce them: second crash before the boot persist and multicast sends are refuting witnesses."
  },
  {
   "property": "C15",
   "status": "partial",
   "theorems": [
    "C15_wellformed_option_partial",
    "C15_out_of_bounds_iff_partial",
    "C15_option_roundtrip",
    "C15_write_in_bounds_refuted",
    "C15_read_in_bounds_refuted"
   ],
   "note": "Exact characterisation of the options on which the decoder leaves its bounds; such options exist (refuted)."
  },
  {
   "property": "C16",
   "status": "proved",
   "theorems": [
    "C16_base64_roundtrip",
    "C16_base64_encode_rfc4648",
    "C16_base64_encoded_size",
    "C16_base64_small_buffer_refused",
    "C16_base64_decode_in_bounds",
    "C16_base64_decode_accepts_only_text",
    "C16_base64_decode_in_place"
   ],
   "note": ""
  },
  {
   "property": "C17",
   "status": "partial",
   "theorems": [
    "C17_uuid_roundtrip",
    "C17_uuid_text_form",
    "C17_uuid_small_buffer_refused",
    "C17_uuid_parse_text",
    "C17_uuid_parse_rejects_garbage_refuted",
    "C17_gen_uuid_version_partial",
    "C17_uuid_accepted",
    "C17_gen_uuid_variant_refuted"
   ],
   "note": "Round trip and text form proved; the reader accepts some non-UUID text and the generated variant bits are wrong (refuted)."
  },
  {
   "property": "C18",
   "status": "proved",
   "theorems": [
    "C18_hex_roundtrip",
    "C18_hex_text",
    "C18_hex_parse",
    "C18_hex_parse_odd",
    "C18_hex_parse_too_small",
    "C18_hex_parse_only_hex",
    "C18_hex_rejects_invalid_refuted"
   ],
   "note": "All texts and buffer sizes; exception shown by a witness."
  },
  {
   "property": "C19",
   "status": "proved",
   "theorems": [
    "C19_query_lookup",
    "C19_query_lookup_total",
    "C19_query_iteration",
    "C19_query_next_position_partial",
    "C19_query_next_position_refuted",
    "C19_query_next_value",
    "C19_query_documented_loop_refuted"
   ],
   "note": "Lookup, iteration and iteration by key for all lists of pairs; exceptions shown by witnesses."
  },
  {
   "property": "C20",
   "status": "proved",
   "theorems": [
    "C20_history_refines_sequences",
    "C20_one_call",
    "C20_walk_yields_sequence",
    "C20_adding_present_item_never_ends",
    "C20_readd_moves_refuted"
   ],
   "note": "Refinement of pointer-level lists to sequences for all histories adding detached elements; for all lists re-adding a member diverges (also shown by a refuting witness of the naive reading). oc_list_copy not modelled."
  },
  {
   "property": "C21",
   "status": "proved",
   "theorems": [
    "C21_every_history",
    "C21_blocks_disjoint",
    "C21_init_inside_iff",
    "C21_init_writes_outside_refuted"
   ],
   "note": "All histories; init writes outside the pool for blocks smaller than a pointer (exact condition proved, witness given). The heap-backed form (num=0) is not modelled."
  },
  {
   "property": "C22",
   "status": "proved",
   "theorems": [
    "C22_every_history",
    "C22_regions_disjoint"
   ],
   "note": "All histories of allocations, writes and frees; static-memory build."
  },
  {
   "property": "C23",
   "status": "proved",
   "theorems": [
    "C23_ring_is_fifo_list",
    "C23_accepted_are_delivered_in_order",
    "C23_dynamic_accepts_all",
    "C23_drop_removes_exactly"
   ],
   "note": "Ring buffer with growth, deliveries and drops; the process layer above it is a separate property."
  },
  {
   "property": "C24",
   "status": "proved",
   "theorems": [
    "C24_poll_posts_exactly_the_due_timers",
    "C24_arming",
    "C24_next_expiration_not_late",
    "C24_next_expiration_idle",
    "C24_next_expiration_exact",
    "C24_stopped_timer_is_silent",
    "C24_next_expiration_after_exit_refuted",
    "C24_set_outside_process_refuted"
   ],
   "note": "All histories with deadlines below 2^64; the two exceptions named in the statement are the refuted theorems."
  },
  {
   "property": "C25",
   "status": "proved",
   "theorems": [
    "C25_behaves_as_specified",
    "C25_ends_and_never_early",
    "C25_removed_never_called",
    "C25_remove_exactly_first",
    "C25_remove_all_from_handler_refuted",
    "C25_on_delete_of_other_refuted"
   ],
   "note": "Refinement for all plain handlers and histories; termination, never-early and silence after removal for arbitrary handlers; the two exceptions of the statement are the refuted theorems."
  },
  {
   "property": "C26",
   "status": "proved",
   "theorems": [
    "C26_decision_is_the_specified_one",
    "C26_more_entries_allow_more",
    "C26_other_entries_have_no_influence",
    "C26_application_resources_need_encryption_and_normal_operation",
    "C26_security_resources_need_encryption_once_owned",
    "C26_only_authenticated_owners_refuted"
   ],
   "note": "Decision equals the specification for all inputs with rooted URIs; monotonicity and no influence of foreign entries; the exception of the statement is the refuted theorem. TLS session and certificate validity are inputs."
  },
  {
   "property": "C27",
   "status": "proved",
   "theorems": [
    "C27_identifiers_are_unique",
    "C27_normal_operation_changes_nothing",
    "C27_updates_touch_only_what_they_name",
    "C27_delete_removes_exactly_one",
    "C27_rejected_update_changes_nothing_refuted",
    "C27_rejected_update_adds_nothing_refuted",
    "C27_accepted_update_keeps_other_permissions_refuted",
    "C27_update_grants_only_its_subject_refuted",
    "C27_subject_is_required_refuted",
    "C27_every_entry_can_be_deleted_refuted"
   ],
   "note": "All histories; the exceptions of the statement are the refuted theorems."
  },
  {
   "property": "C28",
   "status": "proved",
   "theorems": [
    "C28_state_moves_only_as_specified",
    "C28_normal_operation_means_provisioned",
    "C28_reset_makes_the_device_as_new",
    "C28_rejected_update_changes_nothing",
    "C28_update_without_state",
    "C28_target_mode_starts_its_action",
    "C28_no_operation_before_a_pending_reset_refuted",
    "C28_accepted_reset_survives_restart_refuted",
    "C28_property_order_does_not_matter_refuted",
    "C28_rejected_update_has_no_effect_refuted",
    "C28_unknown_property_refused_refuted",
    "C28_failed_key_generation_refuted",
    "C28_application_reset_cut_short_refuted"
   ],
   "note": "Transitions, invariant, reset, rejected updates and updates without state proved over all histories in which key generation works; eight known exceptions are refuted with witnesses."
  },
  {
   "property": "C29",
   "status": "proved",
   "theorems": [
    "C29_ownership_update",
    "C29_ownership_fixed_in_operation",
    "C29_values_are_validated_refuted"
   ],
   "note": "Exact acceptance and effect proved; value validation refuted with witnesses."
  },
  {
   "property": "C30",
   "status": "proved",
   "theorems": [
    "C30_identifiers_are_unique",
    "C30_adding_a_credential",
    "C30_update_keeps_the_other_credentials",
    "C30_presenting_roles_keeps_the_credentials",
    "C30_accepted_update_takes_effect",
    "C30_delete",
    "C30_reserved_roles_are_not_presented",
    "C30_accepted_oscore_credentials",
    "C30_clear",
    "C30_no_update_in_other_states",
    "C30_no_freed_credential_is_used",
    "C30_no_freed_credential_refuted",
    "C30_failed_update_changes_nothing_refuted",
    "C30_accepted_update_has_the_named_credential_refuted",
    "C30_roles_do_not_write_credentials_refuted"
   ],
   "note": "All histories; the exceptions of the statement are the refuted theorems. Certificates, signatures and key derivation are inputs; one client's role credentials."
  },
  {
   "property": "C31",
   "status": "proved",
   "theorems": [
    "C31_reads_do_not_depend_on_private_data"
   ],
   "note": "Equality of answers for states equal up to private data (resource representation; not log output)."
  },
  {
   "property": "C32",
   "status": "proved",
   "theorems": [
    "C32_one_registration_per_client_path_and_interface",
    "C32_count_of_observers",
    "C32_registering_replaces_only_the_same_relation",
    "C32_disconnect_ends_the_registrations_of_that_client",
    "C32_cancel_ends_the_registration_with_the_token",
    "C32_reset_ends_the_registration_with_the_message_id",
    "C32_state_change_ends_and_tells_the_denied",
    "C32_deletion_ends_and_tells_the_observers",
    "C32_no_registration_of_a_deleted_resource",
    "C32_a_notification_goes_once_to_each_observer",
    "C32_with_256_observers_refuted",
    "C32_cancel_ends_another_resource_refuted",
    "C32_reset_of_message_0_refuted",
    "C32_told_registered_without_memory_refuted",
    "C32_error_notification_keeps_registration_refuted"
   ],
   "note": "Five known exceptions are proved as _refuted theorems and named in the statement."
  },
  {
   "property": "C33",
   "status": "proved",
   "theorems": [
    "C33_values_in_range",
    "C33_later_notifications_are_fresher",
    "C33_fresher_across_registrations",
    "C33_only_the_registered_are_notified",
    "C33_first_notification_refuted"
   ],
   "note": "The known exception is proved as a _refuted theorem and named in the statement."
  },
  {
   "property": "C34",
   "status": "proved",
   "theorems": [
    "C34_every_waiting_client_answered_once",
    "C34_waiting_client_gets_response",
    "C34_nobody_else_answered",
    "C34_buffer_never_used_after_free",
    "C34_same_token_two_clients_refuted",
    "C34_bad_code_use_after_free_refuted",
    "C34_refusals_leak_buffers_refuted"
   ],
   "note": "The statement is proved; its known exceptions are the three refuted theorems. Sending the individual response (transactions, blockwise) is taken as one message."
  },
  {
   "property": "C35",
   "status": "proved",
   "theorems": [
    "C35_tag_stands_for_one_content",
    "C35_changed_resource_gets_a_greater_tag_than_any_before",
    "C35_new_resource_gets_a_greater_tag_than_any_before",
    "C35_validated_content_is_current",
    "C35_restart_keeps_tags",
    "C35_after_clock_set_back_refuted",
    "C35_before_normal_operation_refuted"
   ],
   "note": "The two known exceptions are proved as _refuted theorems and named in the statement."
  },
  {
   "property": "C36",
   "status": "proved",
   "theorems": [
    "C36_comparison_decides_same_peer",
    "C36_symmetric",
    "C36_reflexive_on_ip",
    "C36_reflexive_refuted",
    "C36_transitive_with_sessions",
    "C36_transitive_refuted",
    "C36_links_are_told_apart_refuted",
    "C36_equal_endpoints_have_one_address"
   ],
   "note": "All triples of endpoints; the exceptions of the statement are the refuted theorems."
  },
  {
   "property": "C37",
   "status": "proved",
   "theorems": [
    "C37_ipv6_texts_are_read",
    "C37_ipv4_texts_are_read",
    "C37_round_trip",
    "C37_text_fits",
    "C37_all_or_nothing",
    "C37_paths_are_found",
    "C37_round_trip_refuted",
    "C37_malformed_texts_are_rejected_refuted",
    "C37_any_path_is_accepted_refuted"
   ],
   "note": "inet_ntop is modelled after the GNU C library; host names are left to the resolver. The exceptions of the statement are the refuted theorems."
  },
  {
   "property": "C38",
   "status": "proved",
   "theorems": [
    "C38_no_dangling_record",
    "C38_timers_belong_to_live_records",
    "C38_one_shot_at_most_once",
    "C38_cancelled_is_final",
    "C38_every_request_is_released",
    "C38_ends_for_a_reason",
    "C38_close_tells_exactly",
    "C38_nobody_is_passed_over",
    "C38_close_reaches_all",
    "C38_response_reaches_its_request",
    "C38_repeated_observation_is_one",
    "C38_stop_discovery_refuted",
    "C38_stop_multicast_refuted",
    "C38_every_request_answered_refuted",
    "C38_one_shot_any_server_refuted",
    "C38_init_twice_refuted",
    "C38_closed_between_init_and_do_refuted",
    "C38_do_without_init_refuted",
    "C38_lost_ping_closes_session_refuted",
    "C38_stop_observe_inside_handler_refuted",
    "C38_old_notification_refuted",
    "C38_stopped_observation_released_refuted",
    "C38_ping_released_refuted"
   ],
   "note": "The refuted theorems are the known exceptions named in the statement. The pool of records is taken as unbounded (allocation failure is the same as not asking); block-wise buffers only appear as the event Buffered."
  },
  {
   "property": "C39",
   "status": "proved",
   "theorems": [
    "C39_incremental",
    "C39_is_ecma182_remainder",
    "C39_detects_bursts",
    "C39_detects_changed_bytes",
    "C39_state_injective",
    "C39_length_change_refuted"
   ],
   "note": "Remainder characterisation with uniqueness, incremental law, burst detection; the length exception is the refuted theorem."
  },
  {
   "property": "C40",
   "status": "proved",
   "theorems": [
    "C40_never_outside_the_buffer",
    "C40_plain_text",
    "C40_whole_text",
    "C40_measuring",
    "C40_text_is_json",
    "C40_array_text_is_json",
    "C40_truncation_is_noticed",
    "C40_pretty_length_refuted",
    "C40_pretty_prefix_refuted",
    "C40_text_tells_payload_refuted",
    "C40_empty_arrays_refuted"
   ],
   "note": "All trees whose byte strings are bytes and whose object arrays are not empty; names and strings without characters that JSON escapes for the JSON part. The exceptions named in the statement are the _refuted theorems."
  },
  {
   "property": "C41",
   "status": "proved",
   "theorems": [
    "C41_reads_object",
    "C41_reads_array_of_objects",
    "C41_reads_empty_array",
    "C41_decoder_never_traps",
    "C41_accepts_only_json_refuted",
    "C41_bad_input_refused_refuted",
    "C41_encoder_writes_calls",
    "C41_encoder_stays_in_buffer",
    "C41_encodes_payload",
    "C41_reports_payload_too_large",
    "C41_round_trip",
    "C41_empty_object_is_empty_payload",
    "C41_round_trip_everything_refuted",
    "C41_integer_range_refuted"
   ],
   "note": "The properties hold for all inputs; the exceptions named in the statement are the refuted theorems."
  },
  {
   "property": "C42",
   "status": "proved",
   "theorems": [
    "C42_representable_payload_decoded_exactly",
    "C42_every_meaningful_payload_decoded",
    "C42_written_attributes_are_read_back",
    "C42_root_values",
    "C42_decoded_array_is_uniform",
    "C42_uniform_payload_never_crashes",
    "C42_mixed_array_refuted",
    "C42_error_in_root_array_refuted",
    "C42_inexpressible_values_refuted"
   ],
   "note": "Soundness and completeness with respect to an inductive relation between CBOR items and attribute values; the three refuted theorems show the exceptions named in the statement."
  },
  {
   "property": "C43",
   "status": "proved",
   "theorems": [
    "C43_one_selected_iff_not_empty",
    "C43_addresses_distinct_and_valid",
    "C43_every_state_shows_a_ring",
    "C43_add_appends",
    "C43_remove_by_uri_moves_on",
    "C43_remove_moves_on",
    "C43_select_by_uri_moves_the_cursor",
    "C43_select_moves_the_cursor",
    "C43_foreign_address_changes_nothing",
    "C43_next_steps_around",
    "C43_clear_empties",
    "C43_tour_is_one_round",
    "C43_tour_visits_all",
    "C43_callback_exactly_on_change",
    "C43_callback_on_reinit_refuted"
   ],
   "note": "Refinement of a ring with a cursor; C43_callback_on_reinit_refuted shows the exception named in the statement."
  },
  {
   "property": "C44",
   "status": "proved",
   "theorems": [
    "C44_first_match_returned",
    "C44_fails_iff_absent",
    "C44_empty_or_long_key_fails",
    "C44_getters",
    "C44_null",
    "C44_reader_gets_what_was_written"
   ],
   "note": ""
  },
  {
   "property": "C45",
   "status": "proved",
   "theorems": [
    "C45_pieces_form_one_text",
    "C45_stays_inside",
    "C45_measuring"
   ],
   "note": "All buffers and write sequences; vsnprintf encoding errors are not modelled."
  },
  {
   "property": "C46",
   "status": "proved",
   "theorems": [
    "C46_within_buffer",
    "C46_fits_exactly",
    "C46_zero_buffer_refuted"
   ],
   "note": "All messages and non-zero buffer sizes; exception shown by a witness."
  },
  {
   "property": "C47",
   "status": "proved",
   "theorems": [
    "C47_stored_list_is_read_back",
    "C47_access_survives_restart",
    "C47_no_access_gained_by_restart_refuted"
   ],
   "note": "All histories whose entries have storable form; the href-with-wildcard exception is the refuted theorem. Tree level; the byte codec (CBOR library) is not modelled."
  },
  {
   "property": "C48",
   "status": "proved",
   "theorems": [
    "C48_ownership_read_back",
    "C48_provisioning_status_read_back",
    "C48_restart_keeps_an_owned_device",
    "C48_restart_of_an_unowned_device"
   ],
   "note": "Round trips for typed values; restart theorems for histories without an application reset that is only announced (see C28 for that one)."
  },
  {
   "property": "C49",
   "status": "proved",
   "theorems": [
    "C49_credentials_read_back",
    "C49_subject_read_back_refuted",
    "C49_half_context_read_back_refuted",
    "C49_updated_anchor_read_back_refuted"
   ],
   "note": "For complete contexts, verifiable certificates and available memory; the exceptions of the statement are the refuted theorems. Tree level; the byte codec is not modelled."
  },
  {
   "property": "C50",
   "status": "proved",
   "theorems": [
    "C50_one_of_five_notifications_is_confirmable"
   ],
   "note": ""
  },
  {
   "property": "C51",
   "status": "proved",
   "theorems": [
    "C51_incremental_discovery_returns_what_is_new",
    "C51_removed_resource_unnoticed_refuted",
    "C51_newly_accessible_resource_unnoticed_refuted"
   ],
   "note": "The two known exceptions are proved as _refuted theorems and named in the statement."
  },
  {
   "property": "C52",
   "status": "proved",
   "theorems": [
    "C52_frames_in_order",
    "C52_frames_delivered",
    "C52_any_stream",
    "C52_failing_reading",
    "C52_end_of_stream",
    "C52_own_messages",
    "C52_send_prefix",
    "C52_short_first_reading_refuted",
    "C52_short_frames_merged_refuted",
    "C52_interrupted_refuted",
    "C52_partial_send_refuted"
   ],
   "note": "Known exceptions are part of the statement and proved as _refuted theorems with witnesses."
  },
  {
   "property": "C53",
   "status": "proved",
   "theorems": [
    "C53_frames_in_order",
    "C53_frames_delivered",
    "C53_too_large_closes",
    "C53_six_bytes_stuck_refuted",
    "C53_short_frame_overflow_refuted",
    "C53_fixed_buffer_overflow_refuted",
    "C53_second_frame_waits_refuted"
   ],
   "note": "Known exceptions are part of the statement and proved as _refuted theorems with witnesses."
  },
  {
   "property": "C54",
   "status": "proved",
   "theorems": [
    "C54_oscore_recognised_tcp",
    "C54_oscore_recognised_udp",
    "C54_four_bytes",
    "C54_overread_refuted"
   ],
   "note": "Known exception is part of the statement and proved as a _refuted theorem with a witness."
  },
  {
   "property": "C55",
   "status": "proved",
   "theorems": [
    "C55_survives_restart",
    "C55_any_file_gives_a_proper_list",
    "C55_failed_load_gives_defaults",
    "C55_order_refuted",
    "C55_emptied_list_refuted",
    "C55_wildcard_id_refuted",
    "C55_large_number_aborts_refuted"
   ],
   "note": "Round trip proved with the new order stated exactly; the exceptions are proved as C55_*_refuted."
  },
  {
   "property": "C56",
   "status": "proved",
   "theorems": [
    "C56_timeouts_kept",
    "C56_wait_within_timeout",
    "C56_registration_ends",
    "C56_every_server_tried",
    "C56_only_configured_servers",
    "C56_registered_iff_accepted",
    "C56_unsent_stops_refuted",
    "C56_short_timeouts_refuted",
    "C56_no_timeouts_loops_refuted",
    "C56_next_server_after_a_session_refuted"
   ],
   "note": "Proved for all answer sequences; the exceptions are proved as C56_*_refuted."
  },
  {
   "property": "C57",
   "status": "proved",
   "theorems": [
    "C57_redirect_replaces_selected",
    "C57_no_redirect"
   ],
   "note": ""
  },
  {
   "property": "C58",
   "status": "proved",
   "theorems": [
    "C58_register_all_or_nothing",
    "C58_refresh_all_or_nothing",
    "C58_refreshed_in_time",
    "C58_short_lived_token_refuted",
    "C58_lifetime_overflow_refuted"
   ],
   "note": "Proved; the exceptions are proved as C58_*_refuted."
  },
  {
   "property": "C59",
   "status": "proved",
   "theorems": [
    "C59_handler_called_exactly_if_admitted",
    "C59_at_most_one_call",
    "C59_other_devices_requests_are_dropped",
    "C59_well_defined",
    "C59_bare_di_refuted",
    "C59_unknown_interface_refuted"
   ],
   "note": "Proved as stated. The two exceptions are C59_bare_di_refuted and C59_unknown_interface_refuted."
  },
  {
   "property": "C60",
   "status": "proved",
   "theorems": [
    "C60_refused_or_admitted",
    "C60_refusal_is_answered",
    "C60_unreadable_payload",
    "C60_current_etag_is_valid",
    "C60_handler_code_is_sent",
    "C60_separate_answers_later",
    "C60_multicast_draws_no_error",
    "C60_status_roundtrip",
    "C60_unknown_code"
   ],
   "note": ""
  },
  {
   "property": "C61",
   "status": "proved",
   "theorems": [
    "C61_uris_are_unique",
    "C61_core_uris_are_kept",
    "C61_add_exactly_if_free",
    "C61_add_collection_exactly_if_free",
    "C61_lookup_finds_what_serves",
    "C61_delayed_deletion",
    "C61_deletion_frees_the_uri",
    "C61_double_slash_refuted",
    "C61_extra_slashes_refuted"
   ],
   "note": "Proved as stated. The exceptions are C61_double_slash_refuted and C61_extra_slashes_refuted."
  },
  {
   "property": "C62",
   "status": "proved",
   "theorems": [
    "C62_observer_added_exactly_if",
    "C62_observe_option_only_if",
    "C62_observe_option_means_observer",
    "C62_changes_are_notified_exactly_after_success",
    "C62_observe_without_observer_refuted"
   ],
   "note": "Proved as stated. The exception is C62_observe_without_observer_refuted."
  },
  {
   "property": "C63",
   "status": "proved",
   "theorems": [
    "C63_response_type",
    "C63_tcp_own_context",
    "C63_tcp_context_used",
    "C63_tcp_block_option_refuted"
   ],
   "note": "Proved as stated. The exception is C63_tcp_block_option_refuted."
  },
  {
   "property": "C64",
   "status": "proved",
   "theorems": [
    "C64_parse_exactly",
    "C64_valid_iff_representable",
    "C64_parsed_is_valid",
    "C64_format_parse",
    "C64_format_precision",
    "C64_format_only_valid"
   ],
   "note": ""
  },
  {
   "property": "C65",
   "status": "proved",
   "theorems": [
    "C65_compare_instants",
    "C65_calendar_fields",
    "C65_days_are_numbered",
    "C65_one_day_per_number"
   ],
   "note": ""
  },
  {
   "property": "C66",
   "status": "proved",
   "theorems": [
    "C66_encode_parse",
    "C66_parse_whole_ticks",
    "C66_parse_refuses",
    "C66_before_1970_refuted"
   ],
   "note": "The exception for texts before 1970 is in the statement; its witness is C66_before_1970_refuted."
  },
  {
   "property": "C67",
   "status": "proved",
   "theorems": [
    "C67_links_in_order",
    "C67_add_link",
    "C67_add_no_uri",
    "C67_remove_link",
    "C67_remove_absent",
    "C67_link_by_uri",
    "C67_no_dangling_links",
    "C67_delete_unlinks",
    "C67_two_links_refuted",
    "C67_other_device_refuted",
    "C67_same_uri_refuted",
    "C67_deleted_collection_refuted"
   ],
   "note": "Exceptions have witnesses C67_*_refuted."
  },
  {
   "property": "C68",
   "status": "proved",
   "theorems": [
    "C68_created_uri",
    "C68_number_zero_refuted",
    "C68_leading_zero_refuted",
    "C68_number_twice_refuted"
   ],
   "note": "Exceptions have witnesses C68_*_refuted."
  },
  {
   "property": "C69",
   "status": "proved",
   "theorems": [
    "C69_type_filter",
    "C69_links_shown",
    "C69_accepted_update_refuted"
   ],
   "note": "The baseline update answer is witnessed by C69_accepted_update_refuted."
  },
  {
   "property": "C70",
   "status": "proved",
   "theorems": [
    "C70_access",
    "C70_batch_read",
    "C70_batch_update",
    "C70_bad_entry",
    "C70_terminates",
    "C70_mutual_links_refuted",
    "C70_missing_representation_refuted",
    "C70_names_ignored_refuted",
    "C70_refused_entry_hidden_refuted",
    "C70_nested_failure_hidden_refuted"
   ],
   "note": "Exceptions have witnesses C70_*_refuted."
  },
  {
   "property": "C71",
   "status": "proved",
   "theorems": [
    "C71_discovery_lists_the_discoverable_resources",
    "C71_baseline_lists_the_same",
    "C71_etag_interface_lists_without_endpoints",
    "C71_listed_iff_known",
    "C71_secure_resources_only_at_secured_endpoints"
   ],
   "note": ""
  },
  {
   "property": "C72",
   "status": "proved",
   "theorems": [
    "C72_other_domains_get_no_answer",
    "C72_nothing_found",
    "C72_other_interfaces",
    "C72_something_found",
    "C72_baseline_nothing_found_refuted"
   ],
   "note": "Exceptions have witnesses C72_*_refuted."
  },
  {
   "property": "C73",
   "status": "proved",
   "theorems": [
    "C73_client_learns_what_the_server_lists",
    "C73_no_public_interface_refuted",
    "C73_more_without_more_refuted"
   ],
   "note": "Exceptions have witnesses C73_*_refuted."
  },
  {
   "property": "C74",
   "status": "proved",
   "theorems": [
    "C74_complete_links_are_reported",
    "C74_links_of_a_baseline_answer_are_reported",
    "C74_arrays_of_links_are_safe",
    "C74_safety_refuted",
    "C74_link_without_attributes_refuted",
    "C74_texts_after_interfaces_refuted"
   ],
   "note": "Exceptions have witnesses C74_*_refuted."
  },
  {
   "property": "C75",
   "status": "proved",
   "theorems": [
    "C75_each_resource_has_one_link",
    "C75_no_step_goes_wrong",
    "C75_publish_without_memory_refuted"
   ],
   "note": "The _refuted theorem is the witness for the exception named in the statement."
  },
  {
   "property": "C76",
   "status": "proved",
   "theorems": [
    "C76_publish_requests",
    "C76_answer",
    "C76_other_answers"
   ],
   "note": ""
  },
  {
   "property": "C77",
   "status": "proved",
   "theorems": [
    "C77_unpublish_requests",
    "C77_small_buffer_refuted"
   ],
   "note": "The _refuted theorem is the witness for the exception named in the statement."
  },
  {
   "property": "C78",
   "status": "proved",
   "theorems": [
    "C78_covered",
    "C78_requests_end",
    "C78_login_converges",
    "C78_stays_converged",
    "C78_added_again_offline_refuted",
    "C78_deleted_before_answer_refuted",
    "C78_deleted_after_publish_offline_refuted",
    "C78_nothing_to_publish_refuted"
   ],
   "note": "The _refuted theorems are the witnesses for the exceptions named in the statement."
  },
  {
   "property": "C79",
   "status": "proved",
   "theorems": [
    "C79_accounted",
    "C79_add",
    "C79_refuse",
    "C79_history",
    "C79_no_memory_refuted",
    "C79_static_restart_refuted"
   ],
   "note": "the known exceptions named in the statement are the theorems that end in _refuted"
  },
  {
   "property": "C80",
   "status": "proved",
   "theorems": [
    "C80_written",
    "C80_restart",
    "C80_narrowed_filter_refuted",
    "C80_long_item_refuted",
    "C80_many_items_refuted"
   ],
   "note": "the known exceptions named in the statement are the theorems that end in _refuted"
  },
  {
   "property": "C81",
   "status": "proved",
   "theorems": [
    "C81_get",
    "C81_post_refused",
    "C81_post",
    "C81_filter_wraps_refuted",
    "C81_unit_refuted"
   ],
   "note": "the known exceptions named in the statement are the theorems that end in _refuted"
  },
  {
   "property": "C82",
   "status": "proved",
   "theorems": [
    "C82_denied",
    "C82_denied_keeps",
    "C82_message",
    "C82_uri_of_80_refuted",
    "C82_long_uri_refuted"
   ],
   "note": "the known exceptions named in the statement are the theorems that end in _refuted"
  },
  {
   "property": "C83",
   "status": "proved",
   "theorems": [
    "C83_update",
    "C83_refused",
    "C83_restart",
    "C83_forget",
    "C83_self_owned",
    "C83_get",
    "C83_asterisk_refuted",
    "C83_no_identifier_refuted"
   ],
   "note": "The _refuted theorems are the witnesses for the exceptions named in the statement."
  },
  {
   "property": "C84",
   "status": "proved",
   "theorems": [
    "C84_operational",
    "C84_update",
    "C84_refused",
    "C84_get",
    "C84_restart",
    "C84_preset",
    "C84_reset",
    "C84_refused_changes_refuted",
    "C84_unsupported_current_refuted",
    "C84_restart_operational_refuted",
    "C84_first_start_refuted"
   ],
   "note": "The _refuted theorems are the witnesses for the exceptions named in the statement."
  },
  {
   "property": "C85",
   "status": "proved",
   "theorems": [
    "C85_set",
    "C85_post",
    "C85_off",
    "C85_no_clock",
    "C85_restart",
    "C85_restart_post",
    "C85_restart_off",
    "C85_zero_sets_system_refuted"
   ],
   "note": "The _refuted theorems are the witnesses for the exceptions named in the statement."
  },
  {
   "property": "C86",
   "status": "proved",
   "theorems": [
    "C86_get",
    "C86_get_open",
    "C86_get_open_time",
    "C86_get_off",
    "C86_post_refused",
    "C86_fetch",
    "C86_fetch_failed",
    "C86_before_1970_refuted"
   ],
   "note": "The _refuted theorems are the witnesses for the exceptions named in the statement."
  },
  {
   "property": "C87",
   "status": "proved",
   "theorems": [
    "C87_refused",
    "C87_accepted",
    "C87_on_time",
    "C87_rest",
    "C87_restart",
    "C87_keeps_url_refuted",
    "C87_unchecked_url_refuted",
    "C87_past_refuted",
    "C87_clock_refuted"
   ],
   "note": "The _refuted theorems are the witnesses for the exceptions named in the statement."
  },
  {
   "property": "C88",
   "status": "proved",
   "theorems": [
    "C88_told",
    "C88_notified",
    "C88_story",
    "C88_stops",
    "C88_restart"
   ],
   "note": ""
  },
  {
   "property": "C89",
   "status": "proved",
   "theorems": [
    "C89_agrees",
    "C89_reports"
   ],
   "note": ""
  },
  {
   "property": "C90",
   "status": "proved",
   "theorems": [
    "C90_origin",
    "C90_key_refuted",
    "C90_overread_refuted",
    "C90_apart",
    "C90_gone",
    "C90_fresh"
   ],
   "note": "The _refuted theorems are the witnesses for the exceptions named in the statement."
  },
  {
   "property": "C91",
   "status": "proved",
   "theorems": [
    "C91_ids",
    "C91_accepted",
    "C91_told",
    "C91_usage_refuted",
    "C91_delete_one",
    "C91_delete_unknown",
    "C91_delete_plain",
    "C91_negative_refuted",
    "C91_expired",
    "C91_decision"
   ],
   "note": "The _refuted theorems are the witnesses for the exceptions named in the statement."
  },
  {
   "property": "C92",
   "status": "proved",
   "theorems": [
    "C92_received",
    "C92_once",
    "C92_order",
    "C92_wakeup",
    "C92_poll",
    "C92_delivered",
    "C92_finite",
    "C92_exit_refuted"
   ],
   "note": "The _refuted theorems are the witnesses for the exceptions named in the statement."
  },
  {
   "property": "C93",
   "status": "proved",
   "theorems": [
    "C93_exact",
    "C93_bound",
    "C93_waiting",
    "C93_no_stall"
   ],
   "note": ""
  },
  {
   "property": "C94",
   "status": "proved",
   "theorems": [
    "C94_safe",
    "C94_counts",
    "C94_freed",
    "C94_alone",
    "C94_wrap_refuted"
   ],
   "note": "The _refuted theorems are the witnesses for the exceptions named in the statement."
  },
  {
   "property": "C95",
   "status": "proved",
   "theorems": [
    "C95_safe",
    "C95_deleted",
    "C95_observed_refuted",
    "C95_linked_refuted",
    "C95_delayed_refuted",
    "C95_twice_refuted"
   ],
   "note": "The _refuted theorems are the witnesses for the exceptions named in the statement."
  },
  {
   "property": "C96",
   "status": "proved",
   "theorems": [
    "C96_exact",
    "C96_all",
    "C96_only",
    "C96_links",
    "C96_fires",
    "C96_loop_refuted",
    "C96_delayed_refuted",
    "C96_leak_refuted",
    "C96_interface_refuted",
    "C96_large_refuted"
   ],
   "note": "The _refuted theorems are the witnesses for the exceptions named in the statement."
  },
  {
   "property": "C97",
   "status": "proved",
   "theorems": [
    "C97_told",
    "C97_settled",
    "C97_exact",
    "C97_no_stall",
    "C97_allowed",
    "C97_first_refuted",
    "C97_empty_refuted",
    "C97_hidden_refuted"
   ],
   "note": "The _refuted theorems are the witnesses for the exceptions named in the statement."
  },
  {
   "property": "C98",
   "status": "proved",
   "theorems": [
    "C98_once",
    "C98_pending",
    "C98_all",
    "C98_lost_refuted",
    "C98_order_refuted",
    "C98_exit_refuted"
   ],
   "note": "The _refuted theorems are the witnesses for the exceptions named in the statement."
  },
  {
   "property": "C99",
   "status": "proved",
   "theorems": [
    "C99_order",
    "C99_told",
    "C99_ends",
    "C99_removes",
    "C99_self_refuted"
   ],
   "note": "The _refuted theorems are the witnesses for the exceptions named in the statement."
  },
  {
   "property": "C100",
   "status": "proved",
   "theorems": [
    "C100_identity",
    "C100_role",
    "C100_authority",
    "C100_root",
    "C100_names",
    "C100_kinds",
    "C100_dates",
    "C100_apart",
    "C100_common_name",
    "C100_root_refuted",
    "C100_intermediate_refuted"
   ],
   "note": "The _refuted theorems are the witnesses for the exceptions named in the statement."
  },
  {
   "property": "C101",
   "status": "partial",
   "theorems": [
    "C101_only_partial",
    "C101_again_partial",
    "C101_floor",
    "C101_chain",
    "C101_name",
    "C101_admits",
    "C101_safe",
    "C101_manufacturer_refuted",
    "C101_device_refuted",
    "C101_stale_refuted",
    "C101_freed_refuted"
   ],
   "note": "The general statement is false of the code; the _partial theorems name the conditions under which it holds and the _refuted theorems are witnesses without them."
  },
  {
   "property": "C102",
   "status": "proved",
   "theorems": [
    "C102_known",
    "C102_refused",
    "C102_pin",
    "C102_only",
    "C102_agree",
    "C102_agree_pin",
    "C102_longer_refuted",
    "C102_short_refuted"
   ],
   "note": "The _refuted theorems are the witnesses for the exceptions named in the statement."
  },
  {
   "property": "C103",
   "status": "proved",
   "theorems": [
    "C103_single",
    "C103_endpoints",
    "C103_onboarding",
    "C103_normal",
    "C103_method",
    "C103_anonymous",
    "C103_selected",
    "C103_once",
    "C103_verified",
    "C103_certificate",
    "C103_no_certificate",
    "C103_reset",
    "C103_stable",
    "C103_anonymous_refuted",
    "C103_cloud_refuted",
    "C103_certificate_refuted"
   ],
   "note": "The _refuted theorems are the witnesses for the exceptions named in the statement."
  },
  {
   "property": "C104",
   "status": "proved",
   "theorems": [
    "C104_kept",
    "C104_once",
    "C104_destination",
    "C104_order",
    "C104_direct",
    "C104_waits",
    "C104_merged",
    "C104_lossless",
    "C104_memory",
    "C104_settled",
    "C104_delivered",
    "C104_peers",
    "C104_order_refuted",
    "C104_settled_refuted",
    "C104_roles_refuted",
    "C104_server_refuted"
   ],
   "note": "The _refuted theorems are the witnesses for the exceptions named in the statement."
  },
  {
   "property": "C105",
   "status": "proved",
   "theorems": [
    "C105_accepted_is_authentic",
    "C105_one_holder",
    "C105_answer_is_for_the_request",
    "C105_subject_of_the_credential",
    "C105_unicast_needs_pairwise_keys",
    "C105_no_nonce_twice",
    "C105_answer_sent_again_refuted",
    "C105_observe_value_refuted",
    "C105_request_sent_again_refuted"
   ],
   "note": "The _refuted theorems are the witnesses for the exceptions named in the statement."
  },
  {
   "property": "C106",
   "status": "proved",
   "theorems": [
    "C106_request_arrives",
    "C106_answer_arrives",
    "C106_request_is_awaited",
    "C106_awaited_until_the_end",
    "C106_answer_after_request_sent_again_refuted",
    "C106_answer_sent_again_refuted",
    "C106_two_contexts_refuted"
   ],
   "note": "The _refuted theorems are the witnesses for the exceptions named in the statement."
  },
  {
   "property": "C107",
   "status": "proved",
   "theorems": [
    "C107_logged_in_only_while_registered",
    "C107_registered_devices_have_tokens",
    "C107_redirect_meets_reset_refuted"
   ],
   "note": "The _refuted theorems are the witnesses for the exceptions named in the statement."
  },
  {
   "property": "C108",
   "status": "proved",
   "theorems": [
    "C108_registered_devices_keep_trying",
    "C108_stale_session_refuted",
    "C108_session_before_start_refuted",
    "C108_refresh_of_the_application_refuted",
    "C108_failed_deregistration_refuted"
   ],
   "note": "The _refuted theorems are the witnesses for the exceptions named in the statement."
  },
  {
   "property": "C109",
   "status": "proved",
   "theorems": [
    "C109_reset_starts",
    "C109_reset_is_not_lost",
    "C109_deletion_forgets",
    "C109_failed_deregistration_refuted",
    "C109_lost_session_refuted",
    "C109_interface_up_refuted"
   ],
   "note": "The _refuted theorems are the witnesses for the exceptions named in the statement."
  },
  {
   "property": "C110",
   "status": "proved",
   "theorems": [
    "C110_parameters_are_freed_once",
    "C110_nothing_leaks",
    "C110_use_after_free_refuted"
   ],
   "note": "The _refuted theorems are the witnesses for the exceptions named in the statement."
  },
  {
   "property": "C111",
   "status": "proved",
   "theorems": [
    "C111_without_cloud_nothing_is_sent",
    "C111_nothing_is_sent_after_a_forced_reset",
    "C111_a_stopped_manager_sends_nothing",
    "C111_answer_after_reset_refuted",
    "C111_stop_while_registering_refuted"
   ],
   "note": "The _refuted theorems are the witnesses for the exceptions named in the statement."
  },
  {
   "property": "C112",
   "status": "proved",
   "theorems": [
    "C112_steps_in_order",
    "C112_cloud_after_all",
    "C112_no_gaps"
   ],
   "note": ""
  },
  {
   "property": "C113",
   "status": "proved",
   "theorems": [
    "C113_repeat_when_due",
    "C113_attempt_forgets",
    "C113_forgets_only_then",
    "C113_start_forgets"
   ],
   "note": ""
  },
  {
   "property": "C114",
   "status": "proved",
   "theorems": [
    "C114_never_idle",
    "C114_refused_configuration_refuted",
    "C114_moved_refuted",
    "C114_factory_reset_refuted"
   ],
   "note": "The _refuted theorems are the witnesses for the exceptions named in the statement."
  },
  {
   "property": "C115",
   "status": "proved",
   "theorems": [
    "C115_silent_after_stop",
    "C115_answer_after_stop_refuted",
    "C115_interface_after_stop_refuted"
   ],
   "note": "The _refuted theorems are the witnesses for the exceptions named in the statement."
  },
  {
   "property": "C116",
   "status": "proved",
   "theorems": [
    "C116_completes",
    "C116_provisioned_means",
    "C116_endless_refuted"
   ],
   "note": "The _refuted theorems are the witnesses for the exceptions named in the statement."
  },
  {
   "property": "C117",
   "status": "proved",
   "theorems": [
    "C117_observer_acts",
    "C117_observer_content",
    "C117_switched_unobserved_refuted"
   ],
   "note": "The _refuted theorems are the witnesses for the exceptions named in the statement."
  },
  {
   "property": "C118",
   "status": "proved",
   "theorems": [
    "C118_configuration",
    "C118_delays",
    "C118_rotation",
    "C118_own_schedule_refuted"
   ],
   "note": "The _refuted theorems are the witnesses for the exceptions named in the statement."
  },
  {
   "property": "C119",
   "status": "proved",
   "theorems": [
    "C119_states",
    "C119_in_time",
    "C119_found_expiring",
    "C119_one_way",
    "C119_retry_waits",
    "C119_small_limit_refuted"
   ],
   "note": "The _refuted theorems are the witnesses for the exceptions named in the statement."
  },
  {
   "property": "C120",
   "status": "proved",
   "theorems": [
    "C120_documented_forms",
    "C120_reads_what_is_meant",
    "C120_refuses_exactly_others",
    "C120_empty_place_refuted"
   ],
   "note": "The _refuted theorems are the witnesses for the exceptions named in the statement."
  },
  {
   "property": "C121",
   "status": "proved",
   "theorems": [
    "C121_accepts_exactly_options",
    "C121_options_found",
    "C121_left_over_refuted"
   ],
   "note": "The _refuted theorems are the witnesses for the exceptions named in the statement."
  },
  {
   "property": "C122",
   "status": "proved",
   "theorems": [
    "C122_refused_changes_nothing",
    "C122_refused_exactly",
    "C122_not_changed_exactly",
    "C122_reprovision_exactly",
    "C122_in_force",
    "C122_pinned_can_match",
    "C122_address_lost_refuted",
    "C122_long_address_refuted",
    "C122_fingerprint_without_algorithm_refuted"
   ],
   "note": "The _refuted theorems are the witnesses for the exceptions named in the statement."
  },
  {
   "property": "C123",
   "status": "proved",
   "theorems": [
    "C123_pinned_accepts_exactly",
    "C123_unpinned_needs_trust",
    "C123_skipping_accepts_all",
    "C123_application_may_refuse",
    "C123_data_freed_once",
    "C123_untrusted_issuer_refuted"
   ],
   "note": "The _refuted theorems are the witnesses for the exceptions named in the statement."
  },
  {
   "property": "C124",
   "status": "proved",
   "theorems": [
    "C124_reported_once",
    "C124_all_end",
    "C124_closing_ends"
   ],
   "note": ""
  },
  {
   "property": "C125",
   "status": "proved",
   "theorems": [
    "C125_story",
    "C125_success_is_complete",
    "C125_same_key",
    "C125_crossed_ids",
    "C125_forget_only_after_reset"
   ],
   "note": ""
  },
  {
   "property": "C126",
   "status": "proved",
   "theorems": [
    "C126_no_use_after_free",
    "C126_double_reset_refuted",
    "C126_reset_while_provisioning_refuted",
    "C126_reset_of_a_pair_refuted"
   ],
   "note": "The _refuted theorems are the witnesses for the exceptions named in the statement."
  },
  {
   "property": "C127",
   "status": "proved",
   "theorems": [
    "C127_known_until_reset",
    "C127_failure_has_a_cause",
    "C127_failure_leaves_provisioning_refuted",
    "C127_failed_reset_keeps_device_refuted",
    "C127_operations_do_not_disturb_refuted"
   ],
   "note": "The _refuted theorems are the witnesses for the exceptions named in the statement."
  },
  {
   "property": "C128",
   "status": "proved",
   "theorems": [
    "C128_reported_once",
    "C128_all_end",
    "C128_closing_ends",
    "C128_refused_is_reported_refuted"
   ],
   "note": "The _refuted theorems are the witnesses for the exceptions named in the statement."
  },
  {
   "property": "C129",
   "status": "proved",
   "theorems": [
    "C129_story",
    "C129_success_is_complete",
    "C129_owned_after_credential",
    "C129_silent_after_report",
    "C129_one_address_refuted"
   ],
   "note": "The _refuted theorems are the witnesses for the exceptions named in the statement."
  },
  {
   "property": "C130",
   "status": "proved",
   "theorems": [
    "C130_no_use_after_free",
    "C130_two_transfers_refuted",
    "C130_pending_discovery_refuted",
    "C130_no_memory_for_pin_refuted"
   ],
   "note": "The _refuted theorems are the witnesses for the exceptions named in the statement."
  },
  {
   "property": "C131",
   "status": "proved",
   "theorems": [
    "C131_failed_is_freed",
    "C131_success_is_owned",
    "C131_success_has_credential",
    "C131_late_failure_refuted",
    "C131_failed_call_forgets_refuted",
    "C131_success_without_credential_refuted"
   ],
   "note": "The _refuted theorems are the witnesses for the exceptions named in the statement."
  },
  {
   "property": "C132",
   "status": "proved",
   "theorems": [
    "C132_secured_never_clear",
    "C132_out_by_its_way",
    "C132_engine_gets_plain",
    "C132_discovery_refuted"
   ],
   "note": "The _refuted theorems are the witnesses for the exceptions named in the statement."
  },
  {
   "property": "C133",
   "status": "proved",
   "theorems": [
    "C133_references_balance",
    "C133_no_use_after_release",
    "C133_static_queue",
    "C133_nothing_left",
    "C133_no_memory_refuted"
   ],
   "note": "The _refuted theorems are the witnesses for the exceptions named in the statement."
  },
  {
   "property": "C134",
   "status": "proved",
   "theorems": [
    "C134_in_order",
    "C134_all_arrive",
    "C134_drop_is_of_endpoint",
    "C134_queue_drains",
    "C134_across_ways_refuted",
    "C134_static_loss_refuted"
   ],
   "note": "The _refuted theorems are the witnesses for the exceptions named in the statement."
  },
  {
   "property": "C135",
   "status": "proved",
   "theorems": [
    "C135_safe",
    "C135_refines",
    "C135_load_gives",
    "C135_loaded_twice_refuted"
   ],
   "note": "The _refuted theorems are the witnesses for the exceptions named in the statement."
  },
  {
   "property": "C136",
   "status": "proved",
   "theorems": [
    "C136_survives_restart",
    "C136_reset",
    "C136_damaged_file_refuted",
    "C136_any_key_is_kept_refuted",
    "C136_failed_reset_undone_refuted"
   ],
   "note": "The _refuted theorems are the witnesses for the exceptions named in the statement."
  },
  {
   "property": "C137",
   "status": "proved",
   "theorems": [
    "C137_locations_one_to_one",
    "C137_accepted",
    "C137_refused",
    "C137_observers_told",
    "C137_other_devices",
    "C137_refused_changes_name_refuted",
    "C137_read_back",
    "C137_callback_last_set",
    "C137_later_device_without_callback_refuted",
    "C137_untagged_has_no_location",
    "C137_reset"
   ],
   "note": "The _refuted theorems are the witnesses for the exceptions named in the statement."
  },
  {
   "property": "C138",
   "status": "proved",
   "theorems": [
    "C138_other_entries_stay",
    "C138_earlier_grants_are_gone",
    "C138_subject_not_named_is_revoked",
    "C138_answer_is_carried_out",
    "C138_refused_answer_keeps_grants",
    "C138_nothing_left_halfway",
    "C138_owner_in_answer_refused",
    "C138_refused_answer_grants_refuted",
    "C138_untagged_grants_stay_refuted",
    "C138_foreign_stale_tag_refuted",
    "C138_identifier_replaces_refuted"
   ],
   "note": "The _refuted theorems are the witnesses for the exceptions named in the statement."
  },
  {
   "property": "C139",
   "status": "proved",
   "theorems": [
    "C139_other_credentials_stay",
    "C139_earlier_certificates_are_gone",
    "C139_answer_is_carried_out",
    "C139_refused_answer_keeps_certificates",
    "C139_nothing_left_halfway",
    "C139_untagged_certificates_stay_refuted",
    "C139_refused_answer_leaves_certificates_refuted",
    "C139_foreign_stale_tag_refuted",
    "C139_identifier_replaces_refuted"
   ],
   "note": "The _refuted theorems are the witnesses for the exceptions named in the statement."
  },
  {
   "property": "C140",
   "status": "proved",
   "theorems": [
    "C140_accepted_exactly",
    "C140_leaving",
    "C140_configured",
    "C140_server_is_used",
    "C140_further_servers_are_kept",
    "C140_no_secrets",
    "C140_long_address_refuted",
    "C140_invalid_further_server_refuted",
    "C140_refused_but_done_refuted"
   ],
   "note": "The _refuted theorems are the witnesses for the exceptions named in the statement."
  },
  {
   "property": "C141",
   "status": "proved",
   "theorems": [
    "C141_load_restores",
    "C141_load_replaces",
    "C141_any_file",
    "C141_unsaid_is_kept",
    "C141_unknown_is_ignored",
    "C141_removed_owner_refuted",
    "C141_invalid_address_refuted"
   ],
   "note": "The _refuted theorems are the witnesses for the exceptions named in the statement."
  }
 ]
}