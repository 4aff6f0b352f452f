STATUS={}
NOTES={
'C01':'Ok/Err characterised exactly against the wire grammar of Spec.v; totality for every byte list.',
'C05':'The full statement is false of the code: the size is computed in u16, so >= 65516 attribute bytes wrap. C05_encode_size_refuted exhibits a 65556-byte datagram with Length 20; _partial proves the property below 65536 bytes; _exact gives the behaviour for every size.',
'C06':'Exact outcome for every packet whose wire size is below 65536; beyond that the code panics (debug) or sends an oversized datagram (release), C06_encode_panic_refuted.',
'C07':'For every packet that encode accepts, including those whose size wrapped.',
'C08':'For every packet that encode accepts, including those whose size wrapped.',
'C13':'Two accepted datagrams yield an explicit MD5 collision: the two hash inputs are given in the statement.',
'C14':'As C13 with two secrets.',
'C31':'Release profile never panics; in the debug profile the only panic is the u16 size addition, characterised exactly.',
}
NOTES.update({
'C35':'Over all schedules of the state machine of Server.v; also for different addresses with the same text.',
'C37':'C37_story gives the complete list of event sequences a datagram can cause.',
'C40':'False of the code: the key stays in the in-flight set (C40_panic_isolated_refuted), and no request with that key is ever handled again (C40_blocked_forever). _partial: all other keys are unaffected.',
'C54':'False of the code: the key is removed only after the handler has returned, so a request taken in between is dropped. What holds is C38_sequential_client.',
'C53':'Relational: two runs with different secrets.',
})
NOTES.update({
'C43':'Stronger than the property: same text iff same IP and port (IPv6 zone/flow included as printed by Display); IPv4 and IPv6 texts never coincide.',
'C44':'Over all environment histories given as lists of moments.',
'C47':'False of the code: the client never checks authenticity or identifier (C47_only_authentic_replies_refuted); C47_any_decodable_reply_is_returned is the exact behaviour.',
})
NOTES.update({
'C48':'All server schedules and client network behaviours; C48_handler also shows exactly when the example handler panics (missing or malformed attributes), which with C40 blocks that key.',
'C49':'False of the code: the accessor uses the authenticator of the packet it is called on (C49_tunnel_password_in_reply_refuted). _partial: the public AVP function recovers it given the request authenticator. C49_coincidence: the accessor is right only if two MD5 values share a prefix.',
})
NOTES.update({
'C51': "C51_committed compares the generator's output on the 24 dictionaries with the transcribed rfc*.rs tables (names by letters and digits, because the Inflector crate is not modelled; C51_names_distinct shows that this identifies them). C51_attributes and C51_modules state for every dictionary what is generated and when the generator aborts.",
'C52': "C52_reading: every text has one reading; C52_parse: the result is determined by the meanings of the lines, for every text; C52_skipped_lines: empty and comment lines change nothing. Findings: lines starting with white space are errors (C52_indented), VALUE above 65535 aborts although RADIUS integers have 32 bits, and 'VALUE A B 2# comment' aborts (C52_example_bad).",
})
NOTES.update({
'C56':'False of the code in both directions (C56_rfc2868_peer_refuted): no length octet is written or skipped. C56_received says exactly what is read from a value of an RFC 2868 peer (the length octet stays in front, the password is cut at its first NUL), C56_sent what such a peer reads; _partial: only the empty password interoperates.',
'C57':'shows is a record of all getters; C57_new_on_the_wire follows the packet to the datagram.',
'C58':'False of the code: the in-flight key is (address, identifier) only (C58_new_request_not_a_duplicate_refuted, C58_contents_do_not_matter). _partial: with another identifier or address it is handled.',
'C59':'Decoding ignores padding (C05, C01); the authenticity checks hash it: C59_padding_ignored_refuted, C59_padding_is_hashed, C59_response_padding_is_hashed. _partial: request codes whose authenticator is random are unaffected.',
'C60':'False of the code: nothing is remembered after the reply (C60_handled_once_refuted). _partial: not before the first handler has returned (and C35).',
'C61':'False of the code for Access-Request and Status-Server, whose authenticator proves nothing (C61_forgery_refuted, C61_forged_request_is_handled). _partial: the hashed request codes, by explicit MD5 input.',
'C62':'Quantified over every list of dictionaries the generator accepts, not only the committed ones; the emitted functions are the templates of main.rs.',
'C63':'False of the code for incomplete blocks (C63_incomplete_block_refuted): any length 16..128 is accepted. C63_accepted_iff is the exact condition; _partial: for whole blocks the plain text of RFC 2865 is recovered.',
})
NOTES.update({
'C64':'False of the code: IPv4 prefixes are always sent as /4 (C64_ipv4_made_refuted; C64_ipv4_made_exact says when that is well-formed), and the prefix length of a received prefix is not returned (C64_length_read_refuted). C64_ipv6_made: IPv6 prefixes are well-formed; _partial: the octets are read.',
'C65':'False for strings, octets, tagged strings, Tunnel-Password and Vendor-Specific, whose length is not checked (C65_accepted_is_sent_refuted); C65_fits_exact gives the exact condition for every attribute, _partial the kinds for which everything accepted fits.',
'C66':'C66_add_each for every attribute with lookup_all; C66_proxy_state follows the copied values to the peer.',
'C67':'False of the code: the default buffer has 1500 octets (C67_maximum_packet_refuted, C67_default_buffer). _partial: requests that fit into the buffer; with set_buffer_size(4096) that is all of them.',
'C68':'A simulation between the full schedule and its restriction; f renumbers the datagrams.',
})
NOTES.update({
'C69':'False of one module: rfc2865.rs has a hand-written function (add_vsa_attribute) below its DO NOT EDIT line, so generating it again loses it (C69_regenerated_refuted; C69_rfc2865 says that this is the only difference). _partial: the other 23 modules are equal token by token. C69_identifiers: every name, kind and number of the table in Rfc.v.',
'C70':'For all ASCII names: C70_snake_case (exact text), C70_letters, C70_function_names.',
'C71':'For all dictionaries; C71_committed_declarations applies it to the committed ones, and C71_example_usable shows that they meet the hypotheses.',
'C72':'False of the code: a name that begins with a digit gives an illegal constant (C72_identifiers_refuted); C72_type_constant is the exact condition.',
'C73':'False of the code: Foo and All-Foo share lookup_all_foo (C73_distinct_refuted); C73_functions_distinct is the exact condition, C73_committed_distinct shows it for the committed files.',
'C74':'False of the code for socket errors: recv_from(..)? ends the loop (C74_only_shutdown_stops_refuted, C74_stopped_by_receive_error). _partial: nothing else stops it.',
})
NOTES.update({
'C75':'For all arguments; the only hypotheses are machine limits (fewer than 2^63 bytes in a slice, 2^62 in a vector).',
'C50':'The C50_source_* theorems are about the source text under each feature. is_authentic_request and is_authentic_response do not return a Result: with a failing hash they panic (C50_source_checks_panic).',
})
NOTES.update({
'C76':'With the openssl feature for a hash library that does not fail (C50 is about its failures); a vendor-specific value has fewer than 2^62 bytes.',
})
NOTES.update({
'C77':'With the openssl feature for a hash library that does not fail. C77_source_send_packet assumes that the deadline can pass or that no timeout is zero (a zero timeout passes at once in Client.v).',
'C78':'With the openssl feature for a hash library that does not fail; datagrams of fewer than 2^63 bytes. A task is run alone: the interleaving is that of Server.v.',
})
NOTES.update({
'C79':'The environment (getopts, paths, files, regex, Inflector) answers as the hypotheses say; the output files of different dictionaries are different. Errors of the disk are not modelled.',
})
NOTES.update({
'C80':'With the openssl feature for a hash library that does not fail. The arguments of log macros are not evaluated.',
})
NOTES.update({
'C81':'Names that Rust would refuse (declared twice, or the name of an imported type) are excluded by hypothesis; C73 says when names coincide. The Rust text is read by the lexer and parser of Rust.v, which does not refuse a bare carriage return in a doc comment. With the openssl feature for a hash library that does not fail.',
})
NOTES.update({
'C82':'False of the code: test_with_arbitrary_identifier computes identifier + 1 in u8 and panics in a debug build when the random identifier is 255 (C82_deterministic_refuted, exact condition in C82_identifier_test); it_should_convert_date fails when the clock is past 2^32 seconds (C82_date_test). All other tests: C82_tests_pass_partial. The openssl hash is taken not to fail.',
'C83':'The task in which test_runner lets the server run is an answer of the environment: C83_test_runner shows that the replies are those the text of the server and of the handlers sends, not the scheduling of the task. With the openssl feature for a hash library that does not fail.',
})
