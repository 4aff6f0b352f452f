{
 "claims": [
  {
   "property": "C01",
   "status": "proved",
   "theorems": [
    "C01_decode_ok_iff",
    "C01_decode_err_iff",
    "C01_decode_total"
   ],
   "note": "Ok/Err characterised exactly against the wire grammar of Spec.v; totality for every byte list."
  },
  {
   "property": "C02",
   "status": "proved",
   "theorems": [
    "C02_decode_ignores_padding"
   ],
   "note": ""
  },
  {
   "property": "C03",
   "status": "proved",
   "theorems": [
    "C03_encode_decode"
   ],
   "note": ""
  },
  {
   "property": "C04",
   "status": "proved",
   "theorems": [
    "C04_decode_encode_plain",
    "C04_decode_encode_hashed"
   ],
   "note": ""
  },
  {
   "property": "C05",
   "status": "partial",
   "theorems": [
    "C05_encode_size_partial",
    "C05_encode_size_refuted",
    "C05_encode_size_exact"
   ],
   "note": "The full statement is false of the code: the size is computed in u16, so >= 65516 attribute bytes wrap. C05_encode_size_refuted exhibits a 65556-byte datagram with Length 20; _partial proves the property below 65536 bytes; _exact gives the behaviour for every size."
  },
  {
   "property": "C06",
   "status": "partial",
   "theorems": [
    "C06_encode_outcomes_partial",
    "C06_encode_panic_refuted"
   ],
   "note": "Exact outcome for every packet whose wire size is below 65536; beyond that the code panics (debug) or sends an oversized datagram (release), C06_encode_panic_refuted."
  },
  {
   "property": "C07",
   "status": "proved",
   "theorems": [
    "C07_reply_authenticator"
   ],
   "note": "For every packet that encode accepts, including those whose size wrapped."
  },
  {
   "property": "C08",
   "status": "proved",
   "theorems": [
    "C08_request_authenticator"
   ],
   "note": "For every packet that encode accepts, including those whose size wrapped."
  },
  {
   "property": "C09",
   "status": "proved",
   "theorems": [
    "C09_reply_authentic"
   ],
   "note": ""
  },
  {
   "property": "C10",
   "status": "proved",
   "theorems": [
    "C10_request_authentic"
   ],
   "note": ""
  },
  {
   "property": "C11",
   "status": "proved",
   "theorems": [
    "C11_is_authentic_response"
   ],
   "note": ""
  },
  {
   "property": "C12",
   "status": "proved",
   "theorems": [
    "C12_is_authentic_request"
   ],
   "note": ""
  },
  {
   "property": "C13",
   "status": "proved",
   "theorems": [
    "C13_tampered_response",
    "C13_tampered_response_authenticator",
    "C13_tampered_request",
    "C13_tampered_request_authenticator",
    "C13_reply_for_other_request"
   ],
   "note": "Two accepted datagrams yield an explicit MD5 collision: the two hash inputs are given in the statement."
  },
  {
   "property": "C14",
   "status": "proved",
   "theorems": [
    "C14_two_secrets_response",
    "C14_two_secrets_request"
   ],
   "note": "As C13 with two secrets."
  },
  {
   "property": "C15",
   "status": "proved",
   "theorems": [
    "C15_u32_roundtrip",
    "C15_u16_roundtrip",
    "C15_u32_decode",
    "C15_u16_decode"
   ],
   "note": ""
  },
  {
   "property": "C16",
   "status": "proved",
   "theorems": [
    "C16_string_roundtrip",
    "C16_string_decode",
    "C16_string_error_position"
   ],
   "note": ""
  },
  {
   "property": "C17",
   "status": "proved",
   "theorems": [
    "C17_tagged_u32_roundtrip",
    "C17_tagged_u32_decode"
   ],
   "note": ""
  },
  {
   "property": "C18",
   "status": "proved",
   "theorems": [
    "C18_tagged_string_roundtrip",
    "C18_untagged_string",
    "C18_zero_tag_rejected",
    "C18_tagged_string_decode"
   ],
   "note": ""
  },
  {
   "property": "C19",
   "status": "proved",
   "theorems": [
    "C19_ipv4_roundtrip",
    "C19_ipv4_inverse",
    "C19_ipv4_decode",
    "C19_ipv6_roundtrip",
    "C19_ipv6_inverse",
    "C19_ipv6_decode"
   ],
   "note": ""
  },
  {
   "property": "C20",
   "status": "proved",
   "theorems": [
    "C20_ipv4_prefix_roundtrip",
    "C20_ipv6_prefix_roundtrip",
    "C20_ipv4_prefix_decode",
    "C20_ipv6_prefix_decode",
    "C20_ipv4_prefix_length_octet"
   ],
   "note": ""
  },
  {
   "property": "C21",
   "status": "proved",
   "theorems": [
    "C21_date_roundtrip",
    "C21_date_truncation",
    "C21_date_decode"
   ],
   "note": ""
  },
  {
   "property": "C22",
   "status": "proved",
   "theorems": [
    "C22_user_password_hiding",
    "C22_user_password_errors",
    "C22_hidden_unique"
   ],
   "note": ""
  },
  {
   "property": "C23",
   "status": "partial",
   "theorems": [
    "C23_user_password_roundtrip_partial",
    "C23_user_password_truncation",
    "C23_user_password_roundtrip_refuted"
   ],
   "note": ""
  },
  {
   "property": "C24",
   "status": "partial",
   "theorems": [
    "C24_tunnel_password_layout",
    "C24_tunnel_password_roundtrip_partial",
    "C24_tunnel_password_truncation",
    "C24_tunnel_password_roundtrip_refuted"
   ],
   "note": ""
  },
  {
   "property": "C25",
   "status": "partial",
   "theorems": [
    "C25_overlong_tunnel_password_accepted",
    "C25_overlong_rejected_refuted",
    "C25_tunnel_password_sendable_partial"
   ],
   "note": ""
  },
  {
   "property": "C26",
   "status": "proved",
   "theorems": [
    "C26_decoders_return"
   ],
   "note": ""
  },
  {
   "property": "C27",
   "status": "proved",
   "theorems": [
    "C27_history",
    "C27_history_after_delete",
    "C27_lookup_first",
    "C27_initial",
    "C27_header_untouched",
    "C27_set_identifier",
    "C27_order"
   ],
   "note": ""
  },
  {
   "property": "C28",
   "status": "proved",
   "theorems": [
    "C28_types_distinct",
    "C28_add_lookup",
    "C28_accessors_exist",
    "C28_count",
    "C28_lookup_oldest",
    "C28_delete",
    "C28_no_interference",
    "C28_over_the_wire"
   ],
   "note": ""
  },
  {
   "property": "C29",
   "status": "proved",
   "theorems": [
    "C29_eap_message",
    "C29_pkm_ss_cert",
    "C29_pkm_ca_cert",
    "C29_all"
   ],
   "note": ""
  },
  {
   "property": "C30",
   "status": "proved",
   "theorems": [
    "C30_add_atomic",
    "C30_fixed_lengths",
    "C30_fixed_error"
   ],
   "note": ""
  },
  {
   "property": "C31",
   "status": "proved",
   "theorems": [
    "C31_authenticator_length",
    "C31_encode_release_total",
    "C31_encode_debug_panics_iff"
   ],
   "note": "Release profile never panics; in the debug profile the only panic is the u16 size addition, characterised exactly."
  },
  {
   "property": "C32",
   "status": "proved",
   "theorems": [
    "C32_string_layout",
    "C32_tagged_layout",
    "C32_vendor_id_unique",
    "C32_add_vsa",
    "C32_vsa_on_the_wire",
    "C32_len_wraps"
   ],
   "note": ""
  },
  {
   "property": "C33",
   "status": "proved",
   "theorems": [
    "C33_debug_hides_secret"
   ],
   "note": ""
  },
  {
   "property": "C34",
   "status": "proved",
   "theorems": [
    "C34_code_roundtrip",
    "C34_code_from",
    "C34_code_name",
    "C34_code_names_differ"
   ],
   "note": ""
  },
  {
   "property": "C35",
   "status": "proved",
   "theorems": [
    "C35_one_handler_per_key",
    "C35_one_handler_per_client_and_id",
    "C35_calls_serialised"
   ],
   "note": "Over all schedules of the state machine of Server.v; also for different addresses with the same text."
  },
  {
   "property": "C36",
   "status": "proved",
   "theorems": [
    "C36_handler_input",
    "C36_settings"
   ],
   "note": ""
  },
  {
   "property": "C37",
   "status": "proved",
   "theorems": [
    "C37_story",
    "C37_at_most_once",
    "C37_total"
   ],
   "note": "C37_story gives the complete list of event sequences a datagram can cause."
  },
  {
   "property": "C38",
   "status": "proved",
   "theorems": [
    "C38_no_leak",
    "C38_handlers_registered",
    "C38_quiescent",
    "C38_sequential_client"
   ],
   "note": ""
  },
  {
   "property": "C39",
   "status": "proved",
   "theorems": [
    "C39_no_deadlock",
    "C39_terminates",
    "C39_stuck_is_done",
    "C39_can_finish",
    "C39_duplicate_only_if_busy",
    "C39_handled_or_busy"
   ],
   "note": ""
  },
  {
   "property": "C40",
   "status": "partial",
   "theorems": [
    "C40_panic_isolated_refuted",
    "C40_blocked_forever",
    "C40_other_keys_partial"
   ],
   "note": "False of the code: the key stays in the in-flight set (C40_panic_isolated_refuted), and no request with that key is ever handled again (C40_blocked_forever). _partial: all other keys are unaffected."
  },
  {
   "property": "C41",
   "status": "proved",
   "theorems": [
    "C41_no_truncated_packet"
   ],
   "note": ""
  },
  {
   "property": "C42",
   "status": "proved",
   "theorems": [
    "C42_no_intake_after_shutdown",
    "C42_tasks_survive_shutdown",
    "C42_restart_keeps_requests"
   ],
   "note": ""
  },
  {
   "property": "C43",
   "status": "proved",
   "theorems": [
    "C43_same_text_iff",
    "C43_same_key_iff",
    "C43_duplicates_are_duplicates"
   ],
   "note": "Stronger than the property: same text iff same IP and port (IPv6 zone/flow included as printed by Display); IPv4 and IPv6 texts never coincide."
  },
  {
   "property": "C44",
   "status": "proved",
   "theorems": [
    "C44_trace",
    "C44_at_most_one_datagram"
   ],
   "note": "Over all environment histories given as lists of moments."
  },
  {
   "property": "C45",
   "status": "proved",
   "theorems": [
    "C45_outcomes",
    "C45_no_timeout_configured",
    "C45_socket_timeout_bounds_the_wait",
    "C45_connection_timeout_bounds_the_wait"
   ],
   "note": ""
  },
  {
   "property": "C46",
   "status": "proved",
   "theorems": [
    "C46_returned_packet"
   ],
   "note": ""
  },
  {
   "property": "C47",
   "status": "partial",
   "theorems": [
    "C47_any_decodable_reply_is_returned",
    "C47_only_authentic_replies_refuted"
   ],
   "note": "False of the code: the client never checks authenticity or identifier (C47_only_authentic_replies_refuted); C47_any_decodable_reply_is_returned is the exact behaviour."
  },
  {
   "property": "C48",
   "status": "proved",
   "theorems": [
    "C48_handler",
    "C48_exchange",
    "C48_client_refuses"
   ],
   "note": "All server schedules and client network behaviours; C48_handler also shows exactly when the example handler panics (missing or malformed attributes), which with C40 blocks that key."
  },
  {
   "property": "C49",
   "status": "partial",
   "theorems": [
    "C49_tunnel_password_in_reply_refuted",
    "C49_request_authenticator_partial",
    "C49_coincidence"
   ],
   "note": "False of the code: the accessor uses the authenticator of the packet it is called on (C49_tunnel_password_in_reply_refuted). _partial: the public AVP function recovers it given the request authenticator. C49_coincidence: the accessor is right only if two MD5 values share a prefix."
  },
  {
   "property": "C50",
   "status": "proved",
   "theorems": [
    "C50_source_only_seven_functions_differ",
    "C50_source_features_agree",
    "C50_source_hash_failure_reported",
    "C50_source_checks_panic",
    "C50_user_password",
    "C50_user_password_decode",
    "C50_tunnel_password",
    "C50_tunnel_password_decode",
    "C50_encode",
    "C50_is_authentic_response",
    "C50_is_authentic_request",
    "C50_same_functions"
   ],
   "note": "The C50_source_* theorems are about the source text under each feature. is_authentic_request and is_authentic_response do not return a Result: with a failing hash they panic (C50_source_checks_panic)."
  },
  {
   "property": "C51",
   "status": "proved",
   "theorems": [
    "C51_attributes",
    "C51_modules",
    "C51_committed",
    "C51_names_distinct"
   ],
   "note": "C51_committed compares the generator's output on the 24 dictionaries with the transcribed rfc*.rs tables (names by letters and digits, because the Inflector crate is not modelled; C51_names_distinct shows that this identifies them). C51_attributes and C51_modules state for every dictionary what is generated and when the generator aborts."
  },
  {
   "property": "C52",
   "status": "proved",
   "theorems": [
    "C52_reading",
    "C52_parse",
    "C52_skipped_lines",
    "C52_indented"
   ],
   "note": "C52_reading: every text has one reading; C52_parse: the result is determined by the meanings of the lines, for every text; C52_skipped_lines: empty and comment lines change nothing. Findings: lines starting with white space are errors (C52_indented), VALUE above 65535 aborts although RADIUS integers have 32 bits, and 'VALUE A B 2# comment' aborts (C52_example_bad)."
  },
  {
   "property": "C53",
   "status": "proved",
   "theorems": [
    "C53_decode_errors",
    "C53_encode_errors",
    "C53_password_errors",
    "C53_password_decode_errors",
    "C53_tunnel_password_errors",
    "C53_tunnel_password_decode_errors"
   ],
   "note": "Relational: two runs with different secrets."
  },
  {
   "property": "C54",
   "status": "partial",
   "theorems": [
    "C54_new_request_after_reply_refuted"
   ],
   "note": "False of the code: the key is removed only after the handler has returned, so a request taken in between is dropped. What holds is C38_sequential_client."
  },
  {
   "property": "C55",
   "status": "proved",
   "theorems": [
    "C55_no_head_of_line_blocking"
   ],
   "note": ""
  },
  {
   "property": "C56",
   "status": "partial",
   "theorems": [
    "C56_received",
    "C56_received_text",
    "C56_sent",
    "C56_empty_password_partial",
    "C56_rfc2868_peer_refuted"
   ],
   "note": "False of the code in both directions (C56_rfc2868_peer_refuted): no length octet is written or skipped. C56_received says exactly what is read from a value of an RFC 2868 peer (the length octet stays in front, the password is cut at its first NUL), C56_sent what such a peer reads; _partial: only the empty password interoperates."
  },
  {
   "property": "C57",
   "status": "proved",
   "theorems": [
    "C57_new_with_identifier",
    "C57_new",
    "C57_authenticators_distinct",
    "C57_response",
    "C57_set_identifier",
    "C57_attributes",
    "C57_decoded",
    "C57_new_on_the_wire"
   ],
   "note": "shows is a record of all getters; C57_new_on_the_wire follows the packet to the datagram."
  },
  {
   "property": "C58",
   "status": "partial",
   "theorems": [
    "C58_new_request_not_a_duplicate_refuted",
    "C58_contents_do_not_matter",
    "C58_other_key_is_handled_partial"
   ],
   "note": "False of the code: the in-flight key is (address, identifier) only (C58_new_request_not_a_duplicate_refuted, C58_contents_do_not_matter). _partial: with another identifier or address it is handled."
  },
  {
   "property": "C59",
   "status": "partial",
   "theorems": [
    "C59_padding_request_partial",
    "C59_padding_is_hashed",
    "C59_response_padding_is_hashed",
    "C59_padding_ignored_refuted"
   ],
   "note": "Decoding ignores padding (C05, C01); the authenticity checks hash it: C59_padding_ignored_refuted, C59_padding_is_hashed, C59_response_padding_is_hashed. _partial: request codes whose authenticator is random are unaffected."
  },
  {
   "property": "C60",
   "status": "partial",
   "theorems": [
    "C60_handled_once_refuted",
    "C60_not_before_return_partial"
   ],
   "note": "False of the code: nothing is remembered after the reply (C60_handled_once_refuted). _partial: not before the first handler has returned (and C35)."
  },
  {
   "property": "C61",
   "status": "partial",
   "theorems": [
    "C61_forged_request_is_handled",
    "C61_forgery_refuted",
    "C61_hashed_requests_partial"
   ],
   "note": "False of the code for Access-Request and Status-Server, whose authenticator proves nothing (C61_forgery_refuted, C61_forged_request_is_handled). _partial: the hashed request codes, by explicit MD5 input."
  },
  {
   "property": "C62",
   "status": "proved",
   "theorems": [
    "C62_type_octet",
    "C62_add_lookup",
    "C62_lookup_oldest",
    "C62_accessors_exist",
    "C62_delete",
    "C62_add_atomic",
    "C62_no_interference",
    "C62_concatenated"
   ],
   "note": "Quantified over every list of dictionaries the generator accepts, not only the committed ones; the emitted functions are the templates of main.rs."
  },
  {
   "property": "C63",
   "status": "partial",
   "theorems": [
    "C63_user_password_read_partial",
    "C63_accepted_iff",
    "C63_incomplete_block_refuted"
   ],
   "note": "False of the code for incomplete blocks (C63_incomplete_block_refuted): any length 16..128 is accepted. C63_accepted_iff is the exact condition; _partial: for whole blocks the plain text of RFC 2865 is recovered."
  },
  {
   "property": "C64",
   "status": "partial",
   "theorems": [
    "C64_ipv6_made",
    "C64_ipv4_made_exact",
    "C64_ipv4_made_refuted",
    "C64_length_read_refuted",
    "C64_octets_read_partial"
   ],
   "note": "False of the code: IPv4 prefixes are always sent as /4 (C64_ipv4_made_refuted; C64_ipv4_made_exact says when that is well-formed), and the prefix length of a received prefix is not returned (C64_length_read_refuted). C64_ipv6_made: IPv6 prefixes are well-formed; _partial: the octets are read."
  },
  {
   "property": "C65",
   "status": "partial",
   "theorems": [
    "C65_fits_exact",
    "C65_accepted_fits_partial",
    "C65_sent",
    "C65_accepted_is_sent_refuted"
   ],
   "note": "False for strings, octets, tagged strings, Tunnel-Password and Vendor-Specific, whose length is not checked (C65_accepted_is_sent_refuted); C65_fits_exact gives the exact condition for every attribute, _partial the kinds for which everything accepted fits."
  },
  {
   "property": "C66",
   "status": "proved",
   "theorems": [
    "C66_add_each",
    "C66_proxy_state"
   ],
   "note": "C66_add_each for every attribute with lookup_all; C66_proxy_state follows the copied values to the peer."
  },
  {
   "property": "C67",
   "status": "partial",
   "theorems": [
    "C67_default_buffer",
    "C67_maximum_packet_refuted",
    "C67_fitting_packet_partial"
   ],
   "note": "False of the code: the default buffer has 1500 octets (C67_maximum_packet_refuted, C67_default_buffer). _partial: requests that fit into the buffer; with set_buffer_size(4096) that is all of them."
  },
  {
   "property": "C68",
   "status": "proved",
   "theorems": [
    "C68_isolated"
   ],
   "note": "A simulation between the full schedule and its restriction; f renumbers the datagrams."
  },
  {
   "property": "C69",
   "status": "partial",
   "theorems": [
    "C69_regenerated_partial",
    "C69_rfc2865",
    "C69_regenerated_refuted",
    "C69_identifiers"
   ],
   "note": "False of one module: rfc2865.rs has a hand-written function (add_vsa_attribute) below its DO NOT EDIT line, so generating it again loses it (C69_regenerated_refuted; C69_rfc2865 says that this is the only difference). _partial: the other 23 modules are equal token by token. C69_identifiers: every name, kind and number of the table in Rfc.v."
  },
  {
   "property": "C70",
   "status": "proved",
   "theorems": [
    "C70_snake_case",
    "C70_letters",
    "C70_function_names"
   ],
   "note": "For all ASCII names: C70_snake_case (exact text), C70_letters, C70_function_names."
  },
  {
   "property": "C71",
   "status": "proved",
   "theorems": [
    "C71_declarations",
    "C71_committed_declarations"
   ],
   "note": "For all dictionaries; C71_committed_declarations applies it to the committed ones, and C71_example_usable shows that they meet the hypotheses."
  },
  {
   "property": "C72",
   "status": "partial",
   "theorems": [
    "C72_type_constant",
    "C72_identifiers_refuted"
   ],
   "note": "False of the code: a name that begins with a digit gives an illegal constant (C72_identifiers_refuted); C72_type_constant is the exact condition."
  },
  {
   "property": "C73",
   "status": "partial",
   "theorems": [
    "C73_functions_distinct",
    "C73_committed_distinct",
    "C73_distinct_refuted"
   ],
   "note": "False of the code: Foo and All-Foo share lookup_all_foo (C73_distinct_refuted); C73_functions_distinct is the exact condition, C73_committed_distinct shows it for the committed files."
  },
  {
   "property": "C74",
   "status": "partial",
   "theorems": [
    "C74_only_shutdown_stops_partial",
    "C74_only_shutdown_stops_refuted",
    "C74_stopped_by_receive_error"
   ],
   "note": "False of the code for socket errors: recv_from(..)? ends the loop (C74_only_shutdown_stops_refuted, C74_stopped_by_receive_error). _partial: nothing else stops it."
  },
  {
   "property": "C75",
   "status": "proved",
   "theorems": [
    "C75_source_tag_rs",
    "C75_source_code_rs",
    "C75_source_vsa_rs",
    "C75_source_avp_rs",
    "C75_source_passwords_md5",
    "C75_source_passwords_openssl",
    "C75_source_attributes_rs",
    "C75_source_packet_rs",
    "C75_source_packet_rs_md5",
    "C75_source_packet_rs_openssl",
    "C75_source_request_rs",
    "C75_source_debug",
    "C75_source_functions"
   ],
   "note": "For all arguments; the only hypotheses are machine limits (fewer than 2^63 bytes in a slice, 2^62 in a vector)."
  },
  {
   "property": "C76",
   "status": "proved",
   "theorems": [
    "C76_source_delete",
    "C76_source_add",
    "C76_source_lookup",
    "C76_source_lookup_all",
    "C76_source_functions"
   ],
   "note": "With the openssl feature for a hash library that does not fail (C50 is about its failures); a vendor-specific value has fewer than 2^62 bytes."
  },
  {
   "property": "C77",
   "status": "proved",
   "theorems": [
    "C77_source_client_new",
    "C77_source_send_packet",
    "C77_source_send_packet_complete",
    "C77_source_order"
   ],
   "note": "With the openssl feature for a hash library that does not fail. C77_source_send_packet assumes that the deadline can pass or that no timeout is zero (a zero timeout passes at once in Client.v)."
  },
  {
   "property": "C78",
   "status": "proved",
   "theorems": [
    "C78_source_process_request",
    "C78_source_process_request_complete",
    "C78_source_run",
    "C78_source_listen",
    "C78_source_setters",
    "C78_source_listen_address"
   ],
   "note": "With the openssl feature for a hash library that does not fail; datagrams of fewer than 2^63 bytes. A task is run alone: the interleaving is that of Server.v."
  },
  {
   "property": "C79",
   "status": "proved",
   "theorems": [
    "C79_modules",
    "C79_refused",
    "C79_missing",
    "C79_help",
    "C79_no_out_dir",
    "C79_parse_dict_file",
    "C79_generate_header",
    "C79_generate_attributes",
    "C79_generate_values",
    "C79_committed"
   ],
   "note": "The environment (getopts, paths, files, regex, Inflector) answers as the hypotheses say; the output files of different dictionaries are different. Errors of the disk are not modelled."
  },
  {
   "property": "C80",
   "status": "proved",
   "theorems": [
    "C80_functions",
    "C80_provider",
    "C80_handler",
    "C80_server_main",
    "C80_client_main",
    "C80_exchange"
   ],
   "note": "With the openssl feature for a hash library that does not fail. The arguments of log macros are not evaluated."
  },
  {
   "property": "C81",
   "status": "proved",
   "theorems": [
    "C81_parses",
    "C81_delete",
    "C81_add",
    "C81_lookup",
    "C81_lookup_all",
    "C81_add_lookup",
    "C81_from_generator"
   ],
   "note": "Names that Rust would refuse (declared twice, or the name of an imported type) are excluded by hypothesis; C73 says when names coincide. The Rust text is read by the lexer and parser of Rust.v, which does not refuse a bare carriage return in a doc comment. With the openssl feature for a hash library that does not fail."
  },
  {
   "property": "C82",
   "status": "partial",
   "theorems": [
    "C82_tests_pass_partial",
    "C82_identifier_test",
    "C82_date_test",
    "C82_deterministic_refuted"
   ],
   "note": "False of the code: test_with_arbitrary_identifier computes identifier + 1 in u8 and panics in a debug build when the random identifier is 255 (C82_deterministic_refuted, exact condition in C82_identifier_test); it_should_convert_date fails when the clock is past 2^32 seconds (C82_date_test). All other tests: C82_tests_pass_partial. The openssl hash is taken not to fail."
  },
  {
   "property": "C83",
   "status": "proved",
   "theorems": [
    "C83_functions",
    "C83_provider",
    "C83_handler",
    "C83_exchange",
    "C83_slow",
    "C83_timeout",
    "C83_test_runner",
    "C83_test_handlers",
    "C83_test_fails"
   ],
   "note": "The task in which test_runner lets the server run is an answer of the environment: C83_test_runner shows that the replies are those the text of the server and of the handlers sends, not the scheduling of the task. With the openssl feature for a hash library that does not fail."
  }
 ]
}