{
 "C01": {
  "status": "proved",
  "theorems": [
   "c01_boolean",
   "c01_unsigned",
   "c01_signed",
   "c01_float_double",
   "c01_string_bytestring_xml",
   "c01_byte_slice",
   "c01_little_endian",
   "c01_string_layout"
  ],
  "note": "Round trip for every value and every following stream; lengths below 2^31 (they are written as int32). Floats are IEEE bit patterns."
 },
 "C02": {
  "status": "partial",
  "theorems": [
   "c02_datetime_partial",
   "c02_datetime_refuted"
  ],
  "note": "Proved for all instants whose tick count cannot overflow int64 (+-28000 years around 1970). Refuted beyond: the tick count wraps and another date is written."
 },
 "C03": {
  "status": "proved",
  "theorems": [
   "c03_guid",
   "c03_guid_layout",
   "c03_guid_injective",
   "c03_guid_wire"
  ],
  "note": ""
 },
 "C04": {
  "status": "proved",
  "theorems": [
   "c04_nodeid",
   "c04_numeric_forms",
   "c04_shortest",
   "c04_nodeid_layout"
  ],
  "note": ""
 },
 "C05": {
  "status": "partial",
  "theorems": [
   "c05_expanded_nodeid_partial",
   "c05_null_nodeid_refuted",
   "c05_expanded_nodeid_layout"
  ],
  "note": "Proved except for a null NodeId carrying a URI or server index, where it is refuted (flags not written)."
 },
 "C06": {
  "status": "proved",
  "theorems": [
   "c06_qualified_name",
   "c06_localized_text",
   "c06_status_code",
   "c06_localized_text_layout",
   "c06_qualified_name_layout"
  ],
  "note": ""
 },
 "C07": {
  "status": "proved",
  "theorems": [
   "c07_variant",
   "c07_ragged_refuted",
   "c07_empty_planes_refuted",
   "c07_type_numbers",
   "c07_header",
   "c07_unknown_type_refused"
  ],
  "note": "All legal variants (rectangular matrices). Findings: ragged matrices are accepted and changed; a 3-D array with empty planes loses its outer dimension."
 },
 "C08": {
  "status": "proved",
  "theorems": [
   "c08_data_value",
   "c08_data_value_layout"
  ],
  "note": ""
 },
 "C09": {
  "status": "partial",
  "theorems": [
   "c09_empty_diagnostic_info_partial",
   "c09_diagnostic_info_refuted",
   "c09_diagnostic_info_layout",
   "c09_any_field_refuted"
  ],
  "note": "Refuted: the decoder stores through nil pointers, so only the empty DiagnosticInfo survives."
 },
 "C10": {
  "status": "partial",
  "theorems": [
   "c10_registered_structure",
   "c10_unknown_type_skipped",
   "c10_xml_body_skipped",
   "c10_known_type_length_ignored_refuted",
   "c10_layout"
  ],
  "note": "Proved for exact bodies, unknown types and XML bodies. Refuted for a known type whose declared body is longer than the structure."
 },
 "C11": {
  "status": "proved",
  "theorems": [
   "c11_structures",
   "c11_unsupported_field_rejected"
  ],
  "note": "Universe of struct types; a uuid.UUID field is unsupported by the codec and shown rejected."
 },
 "C12": {
  "status": "partial",
  "theorems": [
   "c12_truncated_partial",
   "c12_data_value_refuted"
  ],
  "note": "Every cut of every message is refused unless it contains a DataValue carrying a value; refuted there (ReadDataValue swallows the error)."
 },
 "C13": {
  "status": "proved",
  "theorems": [
   "c13_prefix_free"
  ],
  "note": "Up to the documented normalisations (norm)."
 },
 "C14": {
  "status": "partial",
  "theorems": [
   "c14_static_types_partial",
   "c14_decoder_total",
   "c14_variant_refuted",
   "c14_messages_refuted",
   "c09_diagnostic_info_refuted"
  ],
  "note": "Proved for all types without dynamic parts, termination for all; refuted for Variant matrices and DiagnosticInfo. What memory lengths ask for is C118; that asking fails is outside the model. For every request there is a message that crashes the server, for every response one that crashes the client."
 },
 "C15": {
  "status": "proved",
  "theorems": [
   "c15_nodeid_text",
   "c15_syntax",
   "c15_base64_alphabet",
   "c15_null_text",
   "c15_base64_only",
   "c15_guid_digits",
   "c15_guid_case",
   "c15_guid_only",
   "c15_guid_forms",
   "c15_parse_stable"
  ],
  "note": "ns=0;i=0 and the null NodeId are the same value (null_numeric)."
 },
 "C16": {
  "status": "partial",
  "theorems": [
   "c16_expanded_nodeid_text_partial",
   "c16_semicolon_refuted"
  ],
  "note": "Proved for namespace URIs without a semicolon; refuted with one (no escaping)."
 },
 "C17": {
  "status": "partial",
  "theorems": [
   "c17_qualified_name_text",
   "c17_browse_path_text_partial",
   "c17_slash_refuted",
   "c17_out_of_range_refuted",
   "c17_no_index",
   "c17_not_a_number"
  ],
  "note": "Qualified names proved; browse paths proved when no name contains a slash, refuted otherwise; an index over 65535 yields namespace 65535."
 },
 "C18": {
  "status": "partial",
  "theorems": [
   "c18_round_trip_partial",
   "c18_expanded_round_trip",
   "c18_unknown_uri",
   "c18_known_uri",
   "c18_duplicate_refuted",
   "c18_empty_entry_refuted",
   "c18_large_table_refuted"
  ],
  "note": "Proved for tables without duplicates or empty entries; each excluded case is refuted."
 },
 "C19": {
  "status": "partial",
  "theorems": [
   "c19_bijection",
   "c19_registration",
   "c19_concurrent_refuted",
   "c19_start",
   "c19_standard_types"
  ],
  "note": "Proved for every sequential history; refuted for concurrent registrations. The registrations of the library itself are conflict free."
 },
 "C20": {
  "status": "partial",
  "theorems": [
   "c20_writes",
   "c20_in_bounds",
   "c20_one_write",
   "c20_write_at",
   "c20_empty_write_refuted",
   "c20_write_at_data"
  ],
  "note": "Everything holds except that an empty write on a full buffer reports a short write."
 },
 "C21": {
  "status": "proved",
  "theorems": [
   "c21_severity",
   "c21_exclusive",
   "c21_info_bits",
   "c21_overflow",
   "c21_flags"
  ],
  "note": ""
 },
 "C72": {
  "status": "partial",
  "theorems": [
   "c72_names_match_severity",
   "c72_codes_distinct",
   "c72_limit_bits_in_mask",
   "c72_historian_bits_refuted",
   "c72_masks",
   "c72_historian_values_refuted",
   "c72_codes_used"
  ],
  "note": "The table is transcribed by tools/status_table.py. Refuted for the historian flags."
 },
 "C22": {
  "status": "proved",
  "theorems": [
   "c22_chunks_fit",
   "c22_largest_body",
   "c22_standard_buffer",
   "c22_small_buffer_refuted"
  ],
  "note": "HMAC and CBC are functions with the stated lengths and inverse property. Below the minimum size of one chunk, which nothing checks, the sender never finishes (refuted)."
 },
 "C23": {
  "status": "proved",
  "theorems": [
   "c23_reassembly",
   "c23_chunk_sequence",
   "c23_conversation"
  ],
  "note": "Both directions, all modes, block sizes and signature sizes; layout and sequence numbers stated independently of the sender's code."
 },
 "C24": {
  "status": "proved",
  "theorems": [
   "c24_open_message",
   "c24_too_large_refused",
   "c24_standard_buffer"
  ],
  "note": "RSA as functions with key-sized signatures and blocks; sender and receiver key sizes independent."
 },
 "C25": {
  "status": "partial",
  "theorems": [
   "c25_sender_limits",
   "c25_sent_iff_within",
   "c25_receiver_limits",
   "c25_half_sent_message_refuted",
   "c25_server_limit_wraps_refuted"
  ],
  "note": "Limits hold for all limits below 2^31; a server chunk limit of 2^31 or more acts as no limit (refuted), and a message refused by the chunk limit is half sent (refuted)."
 },
 "C73": {
  "status": "partial",
  "theorems": [
   "c73_unsecured_receiver_partial",
   "c73_unsecured_open_partial",
   "c73_delivered_is_signed",
   "c73_short_chunk_refuted",
   "c73_certificate_key_refuted",
   "c73_open_padding_refuted",
   "c73_token_zero_refuted",
   "c73_unsigned_renewal_refuted"
  ],
  "note": "Authentication of delivered chunks proved; absence of panics proved for mode None and refuted for the secured modes."
 },
 "C26": {
  "status": "proved",
  "theorems": [
   "c26_consecutive",
   "c26_never_zero",
   "c26_no_repeat"
  ],
  "note": "For every interleaving of goroutines; wrap-around included."
 },
 "C27": {
  "status": "partial",
  "theorems": [
   "c27_symmetric_chunks_partial",
   "c27_unsigned_request_refuted",
   "c27_own_certificate_refuted"
  ],
  "note": "Proved for all MSG/CLO chunks under every injected byte stream and renewal history. Refuted for OPN messages: the server hands over any request sent in an OPN message under policy None, or one signed with a certificate of the sender's choice."
 },
 "C28": {
  "status": "partial",
  "theorems": [
   "c28_every_message_refuted",
   "c28_replay_refuted"
  ],
  "note": "The property is false: every accepted message is accepted again (sequence numbers are never checked)."
 },
 "C29": {
  "status": "partial",
  "theorems": [
   "c29_negotiation",
   "c29_smaller_of_both",
   "c29_hello_layout",
   "c29_ack_layout",
   "c29_any_hello",
   "c29_client_trusts_ack_refuted"
  ],
  "note": "Proved between this client and this server and for the server against any Hello; refuted for the client against a foreign Acknowledge."
 },
 "C30": {
  "status": "partial",
  "theorems": [
   "c30_fits",
   "c30_in_step_partial",
   "c30_disturbed_refuted",
   "c30_superseded"
  ],
  "note": "In step for every undisturbed schedule; five disturbed schedules break the channel (refuted). Superseded tokens are proved to be refused for every history. The two steps of a renewal in readRequest are taken together here; c96_token_refuted shows what can come between them."
 },
 "C31": {
  "status": "proved",
  "theorems": [
   "c31_is_p_hash",
   "c31_length",
   "c31_prefix",
   "c31_split",
   "c31_hash",
   "c31_key_lengths"
  ],
  "note": "Also equal to P_hash of RFC 5246; HMAC is a parameter."
 },
 "C32": {
  "status": "proved",
  "theorems": [
   "c32_right_caller",
   "c32_at_most_once",
   "c32_delivered",
   "c32_unknown_dropped",
   "c32_returned_is_final"
  ],
  "note": "Delivery needs fewer than 2^32 requests per channel, the range of the handle."
 },
 "C71": {
  "status": "partial",
  "theorems": [
   "c71_due_before_end",
   "c71_three_quarters",
   "c71_busy_client_partial",
   "c71_idle_client_refuted",
   "c71_failed_renewal_refuted",
   "c71_renewals_per_request"
  ],
  "note": "The time to renew is strictly before the end for every lifetime, and a client that keeps making requests always renews in time; an idle client or one whose renewal fails does not (refuted)."
 },
 "C74": {
  "status": "partial",
  "theorems": [
   "c74_registered_returns_partial",
   "c74_call_hangs_refuted",
   "c74_silent_server_refuted"
  ],
  "note": "A registered call returns at its timeout; registration itself can block for ever (refuted)."
 },
 "C33": {
  "status": "partial",
  "theorems": [
   "c33_recovered_partial",
   "c33_long_refuted",
   "c33_short_exponent_refuted",
   "c33_algorithm"
  ],
  "note": "Recovered for passwords of at most 64 bytes when the private exponent is as long as the key. Longer ones are always rejected, shorter exponents never work (refuted). RSA is a parameter."
 },
 "C34": {
  "status": "proved",
  "theorems": [
   "c34_gate",
   "c34_close",
   "c34_refused",
   "c34_handlers"
  ],
  "note": "The answer to every session-bound request is a function of the history of the session machine; for each of the 22 handlers as transcribed from the source, nothing is done and no response is sent before the four checks have passed."
 },
 "C35": {
  "status": "partial",
  "theorems": [
   "c35_activation_partial",
   "c35_created",
   "c35_x509_refuted",
   "c35_issued_refuted"
  ],
  "note": "Client signature, nonce, endpoint policy and authenticator proved for every history; refuted: user certificates under policy None need no signature, issued tokens need no matching policy."
 },
 "C36": {
  "status": "partial",
  "theorems": [
   "c36_refuted"
  ],
  "note": "False of the code: any client with a channel and the token activates the session, for every history."
 },
 "C37": {
  "status": "partial",
  "theorems": [
   "c37_count",
   "c37_timeout_partial",
   "c37_gone",
   "c37_turned_away",
   "c37_nan_refuted"
  ],
  "note": "Proved apart from a requested timeout of NaN (refuted)."
 },
 "C38": {
  "status": "partial",
  "theorems": [
   "c38_capacity",
   "c38_in_order_once_partial",
   "c38_full",
   "c38_room",
   "c38_expired",
   "c38_stuck_refuted",
   "c38_deleted_refuted",
   "c38_dead_refuted"
  ],
  "note": "Capacity for every schedule; order and conservation for live channels and sessions; three ways of losing a request (refuted)."
 },
 "C39": {
  "status": "partial",
  "theorems": [
   "c39_all",
   "c39_single",
   "c39_prefix",
   "c39_progress",
   "c39_once",
   "c39_served",
   "c39_foreign",
   "c39_count",
   "c39_lost_refuted",
   "c39_foreign_refuted"
  ],
  "note": "For every history of fewer than 2^32 calls; refuted: pages lost when another Browse takes the freed place, trailing bytes ignored."
 },
 "C40": {
  "status": "partial",
  "theorems": [
   "c40_long_enough_partial",
   "c40_short_refuted"
  ],
  "note": "Refuted for every continuation point of one to three bytes; others never crash."
 },
 "C41": {
  "status": "partial",
  "theorems": [
   "c41_bounds_partial",
   "c41_kept",
   "c41_period_refuted"
  ],
  "note": "Interval bounds, keep-alive count and the three-to-one ratio hold for all inputs including NaN; refuted: the periods can exceed the maxima by up to one publishing interval."
 },
 "C42": {
  "status": "partial",
  "theorems": [
   "c42_consecutive",
   "c42_keepalive",
   "c42_distinct_partial",
   "c42_zero_refuted",
   "c42_duplicate_refuted"
  ],
  "note": "Consecutive for every history as 32-bit numbers; refuted: the 2^32-th number is zero, and a failed write leaves two queued messages with one number."
 },
 "C43": {
  "status": "partial",
  "theorems": [
   "c43_kept",
   "c43_only_built",
   "c43_bounded",
   "c43_acknowledge",
   "c43_republish",
   "c43_available",
   "c43_republish_refuted"
  ],
  "note": "Kept, bounded, acknowledged and advertised exactly; refuted: Republish removes the message."
 },
 "C44": {
  "status": "partial",
  "theorems": [
   "c44_no_more",
   "c44_exactly_partial",
   "c44_limit",
   "c44_progress",
   "c44_lost_refuted"
  ],
  "note": "For every history: nothing twice or out of order; exactly once when responses can be written; refuted: a failed write loses notifications."
 },
 "C45": {
  "status": "partial",
  "theorems": [
   "c45_never_expires",
   "c45_message_within",
   "c45_renewed",
   "c45_expires_partial",
   "c45_count_refuted"
  ],
  "note": "Never expires while served, a message within the keep-alive count; expiry between life and keep-1+life cycles; refuted: exactly life cycles."
 },
 "C46": {
  "status": "partial",
  "theorems": [
   "c46_protected_partial",
   "c46_named_only",
   "c46_own_served",
   "c46_exposed_refuted",
   "c46_foreign_refuted"
  ],
  "note": "Holds for the four services that compare sessions; refuted for the others. The links of SetTriggering are in C90."
 },
 "C47": {
  "status": "partial",
  "theorems": [
   "c47_count",
   "c47_ids_partial",
   "c47_quiet_partial",
   "c47_deleted_partial",
   "c47_wrap_refuted",
   "c47_expired"
  ],
  "note": "Count for every history; identifiers and silence after deletion for fewer than 2^32 creations. Refuted beyond: refused creations use up identifiers, and the numbers begin again without looking whether one is in use."
 },
 "C75": {
  "status": "partial",
  "theorems": [
   "c75_orderly_partial",
   "c75_expiry_refuted",
   "c75_self_trigger_refuted",
   "c75_mutual_trigger_refuted",
   "c75_event_refuted",
   "c75_diagnostics_refuted",
   "c75_resend_refuted",
   "c75_server_order_partial",
   "c75_server_no_deadlock_partial",
   "c75_server_completes_partial",
   "c75_server_bounded",
   "c75_server_expiry_refuted",
   "c75_server_diagnostics_refuted",
   "c75_server_resend_refuted",
   "c75_server_session_diagnostics_refuted",
   "c75_server_event_refuted",
   "c75_server_add_node_refuted",
   "c75_server_self_trigger_refuted",
   "c75_server_trigger_refuted",
   "c75_server_endpoints_refuted"
  ],
  "note": "For any number of threads of all functions of the server, as transcribed from the source, on any structures: no deadlock and completion, unless a thread takes two locks in one of the twelve orders listed; every other order is increasing. Refuted by nine reachable deadlocks of threads of the transcription, and by six families of the earlier model of tasks, for any later tasks."
 },
 "C76": {
  "status": "partial",
  "theorems": [
   "c76_requests_partial",
   "c76_late_refuted",
   "c76_deleted_refuted"
  ],
  "note": "Requests that look up and act in one step never panic; refuted for those overtaken by deletion."
 },
 "C48": {
  "status": "proved",
  "theorems": [
   "c48_size",
   "c48_revised",
   "c48_newest",
   "c48_oldest_and_last",
   "c48_newest_history",
   "c48_room",
   "c48_full",
   "c48_resize"
  ],
  "note": "Every history of values, resizes and publishes."
 },
 "C49": {
  "status": "partial",
  "theorems": [
   "c49_never_refuted",
   "c49_lost_refuted"
  ],
  "note": "The code never sets the bit: refuted for every history."
 },
 "C50": {
  "status": "partial",
  "theorems": [
   "c50_fields_partial",
   "c50_deadband_partial",
   "c50_within",
   "c50_intervals_partial",
   "c50_each_partial",
   "c50_timestamps",
   "c50_unsigned_refuted",
   "c50_signed_refuted",
   "c50_rounding_refuted",
   "c50_percent_refuted",
   "c50_array_refuted",
   "c50_nan_refuted"
  ],
  "note": "Selected fields exact without NaN; absolute deadband exact for non-decreasing unsigned numbers and representable differences; the other cases are refuted."
 },
 "C51": {
  "status": "partial",
  "theorems": [
   "c51_disabled_reports_nothing",
   "c51_disabled_samples_nothing_partial",
   "c51_sampling",
   "c51_count_partial",
   "c51_count_refuted",
   "c51_underflow_refuted",
   "c51_late_poll_refuted",
   "c51_stale_refuted"
  ],
  "note": "Reporting proved for every history; sampling except for a poll under way; the count is exact only if items pass through Disabled."
 },
 "C52": {
  "status": "partial",
  "theorems": [
   "c52_selects_partial",
   "c52_returns_partial",
   "c52_forward",
   "c52_depth",
   "c52_empty",
   "c52_unsupported",
   "c52_circular_refuted",
   "c52_operands_refuted",
   "c52_lists_refuted",
   "c52_nested_refuted"
  ],
  "note": "Exact for trees of supported operators over scalars; circular references, missing operands and lists are refuted."
 },
 "C60": {
  "status": "partial",
  "theorems": [
   "c60_array_partial",
   "c60_bytestring_partial",
   "c60_string_partial",
   "c60_strings_partial",
   "c60_bytestrings_partial",
   "c60_inside_strings_partial",
   "c60_inside_bytestrings_partial",
   "c60_within",
   "c60_malformed_partial",
   "c60_dimensions",
   "c60_item_range",
   "c60_item_malformed_partial",
   "c60_empty_array_refuted",
   "c60_signs_refuted",
   "c60_trailing_comma_refuted",
   "c60_large_refuted",
   "c60_matrix_refuted",
   "c60_string_bytes_refuted"
  ],
  "note": "Exact for every text that spells a range with bounds below 2^31, one dimension on every array, string and byte string, two on arrays of strings and byte strings; never out of bounds for any text. Refuted: malformed text on empty data, signs, trailing commas, larger bounds, matrices, strings that are not UTF-8."
 },
 "C61": {
  "status": "partial",
  "theorems": [
   "c61_array_partial",
   "c61_bytestring_partial",
   "c61_string_partial",
   "c61_strings_partial",
   "c61_bytestrings_partial",
   "c61_read_back_partial",
   "c61_second_ignored_refuted",
   "c61_two_dimensions_refuted",
   "c61_string_bytes_refuted",
   "c61_lost_update_refuted",
   "c61_lost_witness_refuted"
  ],
  "note": "One dimension exact, with reading back. Refuted: the second dimension is ignored; strings that are not UTF-8 change outside the range; of two writes at the same time one can be lost."
 },
 "C62": {
  "status": "partial",
  "theorems": [
   "c62_same_kind_partial",
   "c62_other_kind_refuted",
   "c62_causes_partial",
   "c62_null_refuted",
   "c62_historizing_refuted",
   "c62_two_writes_refuted"
  ],
  "note": "Values of the stored value's Go type are safe unless a variable historizes without historian. Refuted: null with an index range stops the server, so does historizing without historian."
 },
 "C53": {
  "status": "proved",
  "theorems": [
   "c53_only_permitted",
   "c53_hidden_is_missing",
   "c53_permitted",
   "c53_attributes",
   "c53_role_permissions"
  ],
  "note": "Soundness, hidden = missing, the value read when permitted, the attributes of every node class. Monitored items and read handlers of library users are outside."
 },
 "C54": {
  "status": "partial",
  "theorems": [
   "c54_only_permitted",
   "c54_refused_unchanged",
   "c54_nothing_else",
   "c54_hidden_is_missing",
   "c54_type_partial",
   "c54_stored",
   "c54_permitted",
   "c54_bytes_as_array",
   "c54_array_as_bytes",
   "c54_historizing",
   "c54_null_refuted",
   "c54_matrix_refuted",
   "c54_data_value_refuted",
   "c54_abstract_refuted"
  ],
  "note": "Permissions, frame, refusal and effect for every request; type and rank for all values except null, matrices, DataValues and DiagnosticInfos, where the check is refuted; FindVariantType is a parameter."
 },
 "C55": {
  "status": "partial",
  "theorems": [
   "c55_exact_partial",
   "c55_complete_partial",
   "c55_dangling_refuted"
  ],
  "note": "Exact whenever the result is a list of references, complete if every matching target exists. Refuted: one dangling reference makes the whole browse fail. Subtypes are chains of first supertypes, at most 101 long."
 },
 "C56": {
  "status": "proved",
  "theorems": [
   "c56_exact"
  ],
  "note": "Exact characterisation of when a handler runs."
 },
 "C57": {
  "status": "partial",
  "theorems": [
   "c57_unprotected_refuted",
   "c57_witness_refuted"
  ],
  "note": "Refuted: the history services ask neither for the user nor for permissions."
 },
 "C58": {
  "status": "partial",
  "theorems": [
   "c58_sound",
   "c58_denied",
   "c58_exact_partial",
   "c58_stop_refuted",
   "c58_order_refuted",
   "c58_include_refuted",
   "c58_endpoint_refuted",
   "c58_exclude_refuted"
  ],
  "note": "Never too many roles, none if no rule matches, exact if every rule admits application and endpoint. Refuted: a rule that does not ends the search; the server never passes application or endpoint."
 },
 "C59": {
  "status": "proved",
  "theorems": [
   "c59_bits",
   "c59_below",
   "c59_more_roles",
   "c59_permissions",
   "c59_permitted",
   "c59_executable"
  ],
  "note": "Every bit of the user access level, permissions and executability."
 },
 "C77": {
  "status": "partial",
  "theorems": [
   "c77_any_object_refuted",
   "c77_stranger_refuted"
  ],
  "note": "Refuted: the object of a call need not have the method."
 },
 "C78": {
  "status": "proved",
  "theorems": [
   "c78_anonymous_role",
   "c78_anonymous_permissions",
   "c78_authenticated_roles",
   "c78_authenticated_permissions",
   "c78_anonymous_writes",
   "c78_anonymous_calls"
  ],
  "note": "Roles and permissions of the default configuration; an anonymous user changes and runs only what has permissions of its own."
 },
 "C79": {
  "status": "proved",
  "theorems": [
   "c79_order"
  ],
  "note": "For every order in which the workers finish; the operations themselves are functions of their position."
 },
 "C63": {
  "status": "partial",
  "theorems": [
   "c63_history_partial",
   "c63_new_nodes",
   "c63_exact",
   "c63_references",
   "c63_target_later_refuted",
   "c63_added_again_refuted"
  ],
  "note": "Histories of complete batches and deletions; exact characterisation for arbitrary additions. HasTypeDefinition and HasModellingRule are one-way by intent. Refuted if a target is added later or a node is added again."
 },
 "C64": {
  "status": "partial",
  "theorems": [
   "c64_gone",
   "c64_others_unchanged",
   "c64_references",
   "c64_no_dangling_partial",
   "c64_type_refuted",
   "c64_by_id",
   "c64_recursive_partial",
   "c64_count_refuted"
  ],
  "note": "Exactly the right nodes go, the others keep their attributes and references to each other; no dangling references if they were bidirectional. Refuted for type definitions; the number returned by DeleteNodeByIDRecursive is refuted for diamonds."
 },
 "C65": {
  "status": "partial",
  "theorems": [
   "c65_exact",
   "c65_sound",
   "c65_complete_partial",
   "c65_transitive_partial",
   "c65_second_supertype_refuted",
   "c65_depth_refuted",
   "c65_transitive_refuted"
  ],
  "note": "Exact for first supertypes up to depth 101; complete for single inheritance; transitive for hierarchies of at most 101 levels. Terminates on every space (a total function). Refuted: second supertypes, depth, transitivity beyond."
 },
 "C66": {
  "status": "partial",
  "theorems": [
   "c66_table",
   "c66_index",
   "c66_again",
   "c66_stable",
   "c66_first_table",
   "c66_index_refuted",
   "c66_duplicate_refuted"
  ],
  "note": "Proved for tables of at most 65536 entries and application URIs other than the standard one; both restrictions are needed (refuted)."
 },
 "C67": {
  "status": "partial",
  "theorems": [
   "c67_terminates_partial",
   "c67_complete",
   "c67_once_partial",
   "c67_cycle_refuted",
   "c67_loop_refuted",
   "c67_twice_refuted",
   "c67_sub_types_refuted",
   "c67_sub_types_nothing_refuted"
  ],
  "note": "Exact condition for termination, completeness, no duplicates in trees. Refuted: cycles never end, diamonds are listed twice, GetSubTypes never lists anything."
 },
 "C68": {
  "status": "partial",
  "theorems": [
   "c68_sound",
   "c68_complete_partial",
   "c68_status",
   "c68_second_way_refuted",
   "c68_hidden_refuted"
  ],
  "note": "Sound always, complete if there is no choice before the last element, all status codes. Refuted: only the first of several matches is followed; permissions are not asked for."
 },
 "C80": {
  "status": "partial",
  "theorems": [
   "c80_exact",
   "c80_only_notifiers",
   "c80_all_partial",
   "c80_second_notifier_refuted",
   "c80_cycle_refuted"
  ],
  "note": "Exact way of an event; all notifiers are reached if every node has at most one. Refuted: second notifiers, cycles."
 },
 "C81": {
  "status": "partial",
  "theorems": [
   "c81_exact",
   "c81_unique",
   "c81_cached_partial",
   "c81_stale_refuted",
   "c81_cycle_refuted"
  ],
  "note": "Exact built-in type; the cache is right as long as the types do not change. Refuted: types added later, cycles."
 },
 "C69": {
  "status": "partial",
  "theorems": [
   "c69_accepted",
   "c69_trusted",
   "c69_complete",
   "c69_status",
   "c69_none",
   "c69_server",
   "c69_client",
   "c69_later_list_refuted",
   "c69_unreadable_refuted",
   "c69_server_panic_refuted",
   "c69_client_panic_refuted"
  ],
  "note": "Acceptance characterised exactly relative to crypto/x509 (an oracle with its documented contract); status codes; both callers. Refuted: a second revocation list in force is ignored, an unreadable file hides all lists, keys other than RSA panic."
 },
 "C70": {
  "status": "partial",
  "theorems": [
   "c70_best",
   "c70_rejected",
   "c70_mode_refuted",
   "c70_certificate_refuted",
   "c70_level_refuted"
  ],
  "note": "Exact for every order sort.Slice may leave. Refuted: the mode asked for is dropped when there is no certificate; a policy asked for by name is selected without certificate; the level is the server's word."
 },
 "C82": {
  "status": "proved",
  "theorems": [
   "c82_session",
   "c82_not_offered"
  ],
  "note": "The choice of the local endpoint, the certificate gate and the token policies together."
 },
 "C83": {
  "status": "partial",
  "theorems": [
   "c83_layouts",
   "c83_parameter_layouts",
   "c83_requests",
   "c83_responses",
   "c83_fault",
   "c83_others_refused",
   "c83_structures_partial",
   "c83_guid_structures_refuted"
  ],
  "note": "Layouts and identifiers against an independent table of the standard; client and server agree; other identifiers refused; every structure without a Guid inside can be sent. Refuted: ten structures with a Guid field have no encoder."
 },
 "C84": {
  "status": "partial",
  "theorems": [
   "c84_answers",
   "c84_client_partial",
   "c84_other_answer_refuted"
  ],
  "note": "The server's answers and the client methods on them. Refuted: an answer of another type with service result Good panics in every client method."
 },
 "C85": {
  "status": "partial",
  "theorems": [
   "c85_server_proved",
   "c85_wrong_certificate",
   "c85_wrong_signature",
   "c85_own_signature",
   "c85_token_partial",
   "c85_unknown_policy_refuted",
   "c85_endpoints_refuted",
   "c85_nonce_refuted",
   "c85_key_type_refuted",
   "c85_tables_refuted",
   "c85_tables"
  ],
  "note": "The server's proof, the client's signature and the protection of the user token, for every answer. Refuted: an unknown token policy makes the client send the password in the clear; the endpoints of the answer and the length of the server's nonce are not checked; a certificate without RSA key or a namespace array of another type crashes the client."
 },
 "C86": {
  "status": "partial",
  "theorems": [
   "c86_certificate_partial",
   "c86_password_refuted"
  ],
  "note": "Signatures of user certificates are bound to the nonce. Refuted: the server ignores the nonce inside an encrypted password, so a captured one works in any session."
 },
 "C87": {
  "status": "partial",
  "theorems": [
   "c87_handshake_partial",
   "c87_issued_refuted"
  ],
  "note": "Anonymous, user name (up to 64 bytes, see C33) and certificate users under all six policies. Refuted: issued tokens are looked up among the certificate policies and refused."
 },
 "C88": {
  "status": "partial",
  "theorems": [
   "c88_created_partial",
   "c88_sampled",
   "c88_events",
   "c88_events_partial",
   "c88_user_change_refuted",
   "c88_user_blind_refuted",
   "c88_foreign_refuted",
   "c88_hidden_refuted",
   "c88_missing_node",
   "c88_definition_refuted"
  ],
  "note": "Creation exact for every address space and history below 2^32 items; sampled values are those Read shows. Refuted: events are delivered without asking who receives them (after a change of user, or into another session's subscription); existing hidden nodes are told from missing ones; a data type's missing definition can be monitored."
 },
 "C89": {
  "status": "partial",
  "theorems": [
   "c89_created_partial",
   "c89_modified_partial",
   "c89_sizes",
   "c89_modes",
   "c89_deleted",
   "c89_faults",
   "c89_limits",
   "c89_nan_refuted",
   "c89_mode_refuted",
   "c89_stamps_refuted",
   "c89_filter_refuted"
  ],
  "note": "Intervals other than NaN, sizes, modification, modes and deletion for every history. Refuted: NaN intervals, any monitoring mode, any trigger and deadband type are accepted; the timestamps of ModifyMonitoredItems are ignored."
 },
 "C90": {
  "status": "partial",
  "theorems": [
   "c90_links_partial",
   "c90_triggers_partial",
   "c90_twice_refuted",
   "c90_self_refuted",
   "c90_limit_refuted",
   "c90_stale_refuted"
  ],
  "note": "Links exact while no link is added twice. Refuted: a link added twice survives its removal; self links; no limit on the number of links in a request; a trigger without values releases later ones."
 },
 "C91": {
  "status": "partial",
  "theorems": [
   "c91_one_answer",
   "c91_offered",
   "c91_no_others",
   "c91_answer_fits",
   "c91_fault_partial",
   "c91_effects_first_partial",
   "c91_silent_refuted",
   "c91_password_refuted",
   "c91_acknowledged_refuted"
  ],
  "note": "At most one answer, of the right kind, for all ways through all 26 handlers. Refuted: Publish, CreateSession and ActivateSession may close the connection without an answer (an undecryptable password is one way); acknowledgements are carried out although the publish request is answered with a fault. Republish and DeleteSubscriptions finish after their answer."
 },
 "C92": {
  "status": "partial",
  "theorems": [
   "c92_service_counts",
   "c92_total",
   "c92_variables",
   "c92_variables_same",
   "c92_variables_total",
   "c92_rejected_requests_partial",
   "c92_rejected_sessions_partial",
   "c92_rejected_security_requests_partial",
   "c92_rejected_security_sessions_partial",
   "c92_history_read_refuted",
   "c92_not_counted_refuted",
   "c92_unauthorized_refuted"
  ],
  "note": "Counters of 19 services, totals and variables exact for all histories; increments taken as atomic (they are not: c96_counts_refuted). Refuted: HistoryRead is not counted; some refusals are not counted as rejected; UnauthorizedRequestCount never moves."
 },
 "C93": {
  "status": "proved",
  "theorems": [
   "c93_released",
   "c93_no_stray_release"
  ],
  "note": "For all runs of all goroutines, worker tasks and exported functions of package server, as transcribed from the source. Panics are not modelled."
 },
 "C94": {
  "status": "partial",
  "theorems": [
   "c94_waits_partial",
   "c94_global_locks_partial",
   "c94_slow_client_refuted",
   "c94_state_channel_refuted"
  ],
  "note": "The complete list of waits under locks; none under the locks of the managers, the server, sessions, objects and event items. Refuted: publishing writes to the network and to a channel of 64 places under the lock of the subscription, for which the subscription manager waits with its own lock, for which all requests wait."
 },
 "C95": {
  "status": "partial",
  "theorems": [
   "c95_one_per_clause",
   "c95_as_selected_partial",
   "c95_every_field",
   "c95_subtype_refuted",
   "c95_message_refuted",
   "c95_base",
   "c95_condition",
   "c95_acknowledgeable",
   "c95_alarm",
   "c95_base_delivered",
   "c95_condition_delivered",
   "c95_acknowledgeable_delivered",
   "c95_alarm_delivered",
   "c95_read_as_alarm",
   "c95_base_count",
   "c95_condition_count",
   "c95_acknowledgeable_count",
   "c95_alarm_count",
   "c95_other_types"
  ],
  "note": "All events of the four classes of package ua, all clauses, also over the wire. Refuted for clauses that name an inherited field by a subtype of its declaring type. Events of classes of the application, and index ranges in clauses (which give nothing), are not covered."
 },
 "C96": {
  "status": "partial",
  "theorems": [
   "c96_lock_exclusion",
   "c96_no_race_partial",
   "c96_protects_partial",
   "c96_guarded_written",
   "c96_maps_refuted",
   "c96_republish_refuted",
   "c96_token_refuted",
   "c96_counts_refuted",
   "c96_sampling_refuted",
   "c96_others_refuted"
  ],
  "note": "58 fields of all kinds of structures are proved free of races for any number of threads and any schedule, over a table of all functions of package server generated from the source. 18 fields are refuted, with the two threads and the schedule; the conditions of the table are free, so a refutation shows that the locks do not exclude the race. Values that leave a lock by reference (slices returned by accessors), fields confined to one thread and the counters other than those named are not covered."
 },
 "C97": {
  "status": "partial",
  "theorems": [
   "c97_loaded_partial",
   "c97_undeclared_refuted",
   "c97_index_refuted",
   "c97_direction_refuted",
   "c97_escaped_refuted",
   "c97_locale_refuted",
   "c97_access_refuted",
   "c97_bytestring_refuted",
   "c97_value_index_refuted",
   "c97_subtypes_refuted",
   "c97_int32_refuted",
   "c97_variants_refuted",
   "c97_default_type_refuted",
   "c97_panic_refuted",
   "c97_booleans",
   "c97_ranges",
   "c97_units",
   "c97_arguments",
   "c97_enumerations",
   "c97_variant_numbers",
   "c97_variant_values",
   "c97_variant_names_refuted",
   "c97_guids_refuted",
   "c97_spaces"
  ],
  "note": "Proved for every file within stated restrictions, from the structure that encoding/xml fills (that package is Go's library). Each restriction is shown necessary by a refutation: undeclared or unreadable indices, IsForward=\"0\", escaped characters in targets, aliases and labels, locales, AccessLevelEx, ByteString and NodeId values, subtypes, missing values and types, ListOfVariant, unknown elements. Ranges, units, arguments, values of enumerations and the elements of lists of variants have theorems of their own; definitions and role permissions of the file are not read by the code."
 },
 "C98": {
  "status": "partial",
  "theorems": [
   "c98_linearizable_partial",
   "c98_last_value",
   "c98_requests",
   "c98_range_refuted",
   "c98_client_stamps_refuted",
   "c98_stamp_order_refuted",
   "c98_picoseconds_refuted",
   "c98_stored"
  ],
  "note": "Linearizability of whole values for all schedules, times within the request, faults. Refuted: concurrent writes with index ranges lose updates; timestamps of the client are dropped with status Good; source timestamps can go backwards; picoseconds are dropped for Source and Server."
 },
 "C99": {
  "status": "partial",
  "theorems": [
   "c99_linearizable_partial",
   "c99_last_value",
   "c99_answers",
   "c99_arrives",
   "c99_delivered",
   "c99_numbered",
   "c99_reader_crash_refuted",
   "c99_null_refuted"
  ],
  "note": "Composition of Messages.v, Chunk.v and DataPath.v: linearizability as the callers of the clients see it, exactly-once answers, no loss. Refuted: an ExpandedNodeID with URI and identifier 0 is stored with Good and makes every client that reads it panic; a null NodeId comes back as a Variant without type. Not included: writes with index ranges (refuted in C98), token renewal and timeouts (C31, C35)."
 },
 "C100": {
  "status": "partial",
  "theorems": [
   "c100_made",
   "c100_facts_partial",
   "c100_together",
   "c100_types_partial",
   "c100_wire",
   "c100_read_only",
   "c100_removed",
   "c100_tree",
   "c100_paths",
   "c100_deleted_partial",
   "c100_removed_unknown",
   "c100_moment",
   "c100_configuration",
   "c100_nil_limits_refuted",
   "c100_summary_refuted",
   "c100_max_return_refuted",
   "c100_history_refuted",
   "c100_unset_refuted",
   "c100_index_range_refuted"
  ],
  "note": "All variables set by initializeNamespace, transcribed by tools/self_table.py, as a machine of moments and writes. Refuted: nil limits panic; ServerDiagnosticsSummary cannot be read; MaxReturn* have the wrong type; AccessHistoryDataCapability; variables never set; index ranges are ignored by handlers."
 },
 "C101": {
  "status": "partial",
  "theorems": [
   "c101_told_and_kept",
   "c101_counted",
   "c101_codes",
   "c101_reachable",
   "c101_zero_refuted",
   "c101_events_refuted",
   "c101_unlimited_refuted"
  ],
  "note": "Joins what C100 reads with all runs of the handlers (C91). Refuted: limit 0 refuses everything instead of meaning no limit; HistoryRead of events uses the data limit; SetTriggering and SetPublishingMode have no limit."
 },
 "C102": {
  "status": "partial",
  "theorems": [
   "c102_session",
   "c102_new_session",
   "c102_security_partial",
   "c102_guarded",
   "c102_subscription_partial",
   "c102_session_structure",
   "c102_security_structure",
   "c102_subscription_structure",
   "c102_types_partial",
   "c102_reader_refuted",
   "c102_certificate_refuted",
   "c102_names_refuted",
   "c102_declared_refuted",
   "c102_array_refuted",
   "c102_uncounted_refuted"
  ],
  "note": "All diagnostics variables, transcribed by tools/self_table.py. Refuted: SecurityMode and ClientCertificate are the reader's; the certificate is never stored; two names; declared data types of structures; the empty array; counters that are always 0."
 },
 "C103": {
  "status": "partial",
  "theorems": [
   "c103_forward",
   "c103_once",
   "c103_serving",
   "c103_countdown",
   "c103_closes",
   "c103_one_close",
   "c103_close_again_refuted",
   "c103_cut_short_refuted",
   "c103_failed_listen_refuted"
  ],
  "note": "Small-step machine of ListenAndServe and concurrent calls of Close. Refuted: a second Close panics; it cuts the countdown short; a failed start stays Running. Abort and the sessions' end are not in this machine (C94)."
 },
 "C104": {
  "status": "proved",
  "theorems": [
   "c104_good",
   "c104_items",
   "c104_types",
   "c104_refusals",
   "c104_private",
   "c104_unchanged",
   "c104_resend",
   "c104_resent"
  ],
  "note": "Decision table of both methods, privacy of refused calls, effect of the resend flag in the item model DataChange.v. Concurrent removal of the subscription during the call is not modelled (C96)."
 },
 "C105": {
  "status": "partial",
  "theorems": [
   "c105_one_call_after_the_other",
   "c105_never_lost_partial",
   "c105_rate",
   "c105_every_interval_ticks",
   "c105_one_group_for_each_interval",
   "c105_number_of_groups",
   "c105_groups_kept_without_items_refuted",
   "c105_set_mode_and_removal_refuted",
   "c105_modify_and_removal_refuted",
   "c105_two_groups_refuted",
   "c105_disabled_sampled_refuted",
   "c105_half_millisecond_refuted",
   "c105_fraction_refuted"
  ],
  "note": "One item with its callers, step by step between releases of its lock, and the poll groups. Proved for calls in turn; for calls at once without a removal an enabled item is never lost. Refuted: calls overlapping a removal crash the process; overlapping Modify calls leave the item in two groups; a disabled item can stay sampled; least interval below 1 ms panics; fractions of a millisecond are dropped; groups are never given up. Not modelled: the values read, queue and filters (MonQueue.v, DataChange.v), several items."
 },
 "C106": {
  "status": "partial",
  "theorems": [
   "c106_ends_with_the_current_value_partial",
   "c106_ends_within_the_deadband_partial",
   "c106_values_come_in_order_partial",
   "c106_resend_order_refuted",
   "c106_cut_queue_refuted",
   "c106_future_stamp_refuted"
  ],
  "note": "A variable with one data item on it, over DataChange.v and MonQueue.v; calls on the item are atomic (interleavings: C105). Proved for histories whose server timestamps are not in the future and whose Modify does not cut a queue that discards the newest. Refuted: such a cut loses the current value for good; a value stamped with a future time holds back all later ones; resending tells a newer value before an older one. Not modelled: index ranges, access rights (C88), several items."
 },
 "C108": {
  "status": "partial",
  "theorems": [
   "c108_get_endpoints_exact",
   "c108_find_servers_exact",
   "c108_client_and_server_agree",
   "c108_identities_exact",
   "c108_policy_ids_unique",
   "c108_secrets_protected",
   "c108_anonymous_plain",
   "c108_foreign_address_refuted"
  ],
  "note": "Over Endpoints.v (the client's test of an endpoint, the server's choice). Refuted: the address told is the one of the request whatever it is, also an empty one. Not modelled: application description, server certificate and LocaleIDs in the answers."
 },
 "C107": {
  "status": "partial",
  "theorems": [
   "c107_connections_partial",
   "c107_goroutines_partial",
   "c107_clients_stay_connected",
   "c107_abort_frees",
   "c107_failed_dial_partial",
   "c107_discovery_leaks_refuted",
   "c107_leaks_add_up_refuted",
   "c107_close_session_refuted",
   "c107_close_without_error_refuted",
   "c107_answer_lost_refuted",
   "c107_marks_closing"
  ],
  "note": "What the server, the clock and select do is given with each call (fates); calls of one client are in turn. Proved unless a discovery connects but does not get its channel open, or the last step of a Close fails. Refuted in those cases: the connection stays open for good; Close returns an error and leaves the connection when the session cannot be closed, and returns none and leaves it when closing the channel fails; a discovery answered has no result when the end of the connection is seen first. Whether calls return at all: C74."
 },
 "C109": {
  "status": "partial",
  "theorems": [
   "c109_released",
   "c109_no_stray_release",
   "c109_order_partial",
   "c109_no_deadlock_partial",
   "c109_completes_partial",
   "c109_open_no_deadlock_partial",
   "c109_open_completes_partial",
   "c109_who_sends_objects",
   "c109_who_sends_locked",
   "c109_waits_partial",
   "c109_who_waits_locked",
   "c109_close_refuted",
   "c109_never_return_refuted",
   "c109_abort_needs_lock",
   "c109_dial_refuted",
   "c109_close_renewal_refuted"
  ],
  "note": "Conditions have any outcome and waits for the network or an answer end. Locks are always released. No deadlock among threads without requests that have extension objects, and none among any requests as long as no channel is being opened or closed. Refuted in between: a request with an extension object (filter, structure value, identity) and Close deadlock for good, and then Abort and IsClosing block as well; Dial, and a Close that renews the token, wait for an answer with the lock that the worker needs to decode it, up to the timeout."
 },
 "C110": {
  "status": "partial",
  "theorems": [
   "c110_client_effect_partial",
   "c110_client_default_partial",
   "c110_client_order",
   "c110_client_succeeds",
   "c110_client_fails",
   "c110_fixed_refuted",
   "c110_says_refuted",
   "c110_default_refuted",
   "c110_other_key_refuted",
   "c110_server_effect",
   "c110_server_default",
   "c110_server_order",
   "c110_server_succeeds"
  ],
  "note": "All options of the server, and those of the client except for six effects that no option changes: the default timeout and diagnostics of requests (stored and never read), the largest response in CreateSession, and time limit, buffers and trace of the discovery connection. Two documented defaults are other numbers. A key that is not RSA makes Dial panic or is dropped. Files are read by an arbitrary function; functions given to options are not nil."
 },
 "C111": {
  "status": "proved",
  "theorems": [
   "c111_pieces",
   "c111_exact",
   "c111_truncated",
   "c111_oversize",
   "c111_conserved",
   "c111_writers",
   "c111_messages",
   "c111_agrees",
   "c111_cut_off"
  ],
  "note": "Read and the loops around it on a connection that is a list of pieces with an end. A call of conn.Read gives at least one byte or an error, as TCP connections do; int has 64 bits; buffers have at least 8 bytes. Each chunk is written with one call of conn.Write, which net.Conn makes atomic."
 },
 "C112": {
  "status": "partial",
  "theorems": [
   "c112_no_race_partial",
   "c112_protects_partial",
   "c112_worker_only",
   "c112_worker_alone",
   "c112_written",
   "c112_same_locks",
   "c112_token_refuted",
   "c112_renewal_refuted",
   "c112_channel_refuted",
   "c112_closing_refuted"
  ],
  "note": "No race on the keys, nonces, hashes, ciphers, namespaces and servers (each protected by one lock) nor on the worker's own fields. Refuted: token id, time of the renewal (two requests renew at once), channel id and closing are accessed without a common lock. What Open does before it starts the worker is left out."
 },
 "C113": {
  "status": "partial",
  "theorems": [
   "c113_listed_partial",
   "c113_history_partial",
   "c113_answered",
   "c113_unlisted_refuted",
   "c113_no_number_refuted",
   "c113_wrap_refuted",
   "c113_fraction_refuted",
   "c113_floats",
   "c113_range_refuted",
   "c113_panic_null_refuted",
   "c113_panic_element_refuted",
   "c113_concurrent_refuted",
   "c113_behavior",
   "c113_behavior_fails",
   "c113_find_property",
   "c113_find_component",
   "c113_hidden_refuted",
   "c113_find_object",
   "c113_find_variable",
   "c113_find_method",
   "c113_any",
   "c113_contains"
  ],
  "note": "Value and text agree after every history of writes, one after the other, of listed values in the range of Int64. Refuted for values not listed, values that are no numbers, large UInt64, fractions, index ranges, EnumValues without a proper table (panic) and concurrent writes. The checks of data type and rank before the handler are those of C54 and C62; the DataType of the type is Number, so all types pass."
 },
 "C114": {
  "status": "partial",
  "theorems": [
   "c114_history",
   "c114_each_once",
   "c114_contains",
   "c114_parents_by_name",
   "c114_parents_by_key",
   "c114_parents_partial",
   "c114_missed_refuted",
   "c114_other_name_refuted",
   "c114_pem",
   "c114_pem_any_text",
   "c114_nil_list",
   "c114_nil_certificate",
   "c114_zero_value_refuted"
  ],
  "note": "Complete for AddCert, AppendCertsFromPEM, Contains, Subjects, and for parents of certificates without authority key id. Refuted: with an authority key id, parents without subject key id are missed and certificates of another name are returned; the zero value panics. crypto/x509 and encoding/pem are parameters; pem.Decode is assumed to return a shorter rest."
 },
 "C115": {
  "status": "partial",
  "theorems": [
   "c115_layouts_partial",
   "c115_bytes_partial",
   "c115_no_others",
   "c115_as_declared",
   "c115_field_flags_refuted",
   "c115_flags_width",
   "c115_masks"
  ],
  "note": "All structures but the ten with a Guid (which the codec cannot encode) and SessionlessInvokeRequestType, which is not compared. Refuted: DataSetFieldFlags is declared with four bytes instead of two. The table of the standard is written by hand from memory, by an author who had read the library's table; no copy of the standard was available, so this is not an independent comparison with the published schema."
 },
 "C116": {
  "status": "partial",
  "theorems": [
   "c116_values_partial",
   "c116_types",
   "c116_attributes_refuted",
   "c116_names",
   "c116_unknown",
   "c116_injective",
   "c116_sets_refuted",
   "c116_texts",
   "c116_no_text",
   "c116_info_refuted",
   "c116_same_text_refuted",
   "c116_distinct_partial",
   "c116_values_used",
   "c116_attributes_used"
  ],
  "note": "Complete for the names of single values. Refuted: sets of flags have no name, codes with flag or info bits have no text, two pairs of codes share a text, two sets of attributes are incomplete. The list of the standard's enumerations is written by hand from memory, by an author who had read the library's list; no copy of the standard was available, so this is not an independent comparison with the published schema."
 },
 "C117": {
  "status": "partial",
  "theorems": [
   "c117_accepted",
   "c117_small_refuted",
   "c117_no_crash_partial",
   "c117_answers",
   "c117_refused",
   "c117_oversize",
   "c117_unfinished",
   "c117_beyond_refuted",
   "c117_config_refuted",
   "c117_client_config_refuted",
   "c117_told",
   "c117_passed_on",
   "c117_enlarged_refuted",
   "c117_client_other",
   "c117_silent_refuted",
   "c117_message_types"
  ],
  "note": "The answers are complete for all streams and cuts. Refuted: a Hello with a SendBufferSize below 8 ends the server process; the URL may reach beyond the message; sizes below 8 in the options are taken; the client takes larger sizes than its own and waits for ever for a silent server. The memory a Hello asks for is C118. Not modelled: writes that fail."
 },
 "C118": {
  "status": "partial",
  "theorems": [
   "c118_same",
   "c118_same_messages",
   "c118_accepted_partial",
   "c118_requests_partial",
   "c118_responses_partial",
   "c118_unknown_refuted",
   "c118_request_refuted",
   "c118_slice_refuted",
   "c118_array_refuted",
   "c118_text_refuted",
   "c118_discovery_refuted",
   "c118_hello_refuted",
   "c118_value_refuted",
   "c118_rows_refuted",
   "c118_planes_refuted"
  ],
  "note": "Proved for accepted messages of the protocol (384 bytes for each byte received) without arrays of several dimensions and without values that could not be read. Refuted for those and for all that are refused: seven bytes ask for two gigabytes, 41 for 34. Counted are the slices whose length is received; structures of fixed size and boxes are not."
 },
 "C119": {
  "status": "partial",
  "theorems": [
   "c119_depth",
   "c119_static",
   "c119_messages",
   "c119_variants_refuted",
   "c119_limit_refuted",
   "c119_values_refuted",
   "c119_requests_refuted",
   "c119_responses_refuted",
   "c119_accepted_refuted",
   "c119_answered_refuted"
  ],
  "note": "Proved: the depth is exact, is at most the length and one, is one for types without Variant, DataValue, DiagnosticInfo and ExtensionObject, and a message within a limit is read as without. Refuted: there is no limit in the code, every request and response can be nested to any depth through its header, and such a GetEndpoints request is accepted. How many bytes of stack a call takes is not modelled."
 },
 "C120": {
  "status": "partial",
  "theorems": [
   "c120_message",
   "c120_in_order",
   "c120_written",
   "c120_only_refused",
   "c120_exactly_partial",
   "c120_no_more",
   "c120_again",
   "c120_numbered",
   "c120_no_gaps",
   "c120_hostage_refuted",
   "c120_unnoticed_refuted"
  ],
  "note": "Proved from the queue of the item (C39, C41) through message, encoding (C01, C14), chunks and security (C23, C99) to what the caller of the client is told: each message, their order, nothing more or twice in all histories, and nothing lost when the subscription is not changed meanwhile and its responses can be written. Refuted: a response that cannot be encoded takes along the values of other items. One channel for all subscriptions of the model; acknowledgements are an oracle (their results are carried)."
 },
 "C121": {
  "status": "partial",
  "theorems": [
   "c121_lifetime",
   "c121_exact",
   "c121_for_good",
   "c121_silent",
   "c121_bounded",
   "c121_busy_client",
   "c121_unused_refuted"
  ],
  "note": "Proved: the lifetime granted; exactly what is handled when, over all histories of a connection; its end for good, after 20 seconds without a channel or an hour without renewal; that the library's client with a request every minute is never cut off. Refuted: a token is good for its lifetime (the deadline of 20 seconds holds until the token is first used). One clock for both sides; requests more than a minute late are in C71."
 },
 "C122": {
  "status": "partial",
  "theorems": [
   "c122_queues",
   "c122_asked",
   "c122_items_refuted",
   "c122_links_refuted",
   "c122_waiting_refuted"
  ],
  "note": "Proved over all histories of the services on one subscription: queue sizes between 1 and 1024 and no items but those asked for. Refuted: limits on the items, on the links and on the values waiting for the next cycle. Bounds of other things are in C37 (sessions), C38 (Publish requests), C39 (continuation points), C43 (retransmission) and C47 (subscriptions)."
 },
 "C123": {
  "status": "partial",
  "theorems": [
   "c123_served",
   "c123_only_then",
   "c123_closed",
   "c123_pauses",
   "c123_error_refuted",
   "c123_limit_refuted"
  ],
  "note": "Proved for all sequences of results: connections handled once and in order, the pauses, and the return after Close. Refuted: an error that is no time-out ends the server for good, and there is no limit on connections."
 }
}