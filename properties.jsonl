{"id": "C01", "title": "Packet::decode accepts exactly the RADIUS wire grammar", "statement": "For every byte string bs and secret, Packet::decode(bs, secret) returns Ok(p) exactly when bs starts with a well-formed RADIUS packet (>=20 bytes, big-endian Length field between 20 and 4096 and not beyond the buffer, the bytes 20..Length being a concatenation of type/length/value attributes with length 2..255), and then p carries exactly the code, identifier, 16-byte authenticator and ordered attribute list written there; in every other case it returns the documented error for the first failed check. It never panics and always terminates.", "quantifier": "all byte strings of any length, all secrets", "why_tests_cant": "the input space is all byte strings; a hand-written table of malformed packets samples a handful of boundary combinations", "anchors": ["radius/src/core/packet.rs: Packet::decode", "radius/src/core/attributes.rs: Attributes::decode"]}
{"id": "C02", "title": "Decoding looks only at the declared packet", "statement": "For every accepted datagram, appending or changing bytes after the declared Length does not change the result of Packet::decode; bytes after Length are padding.", "quantifier": "all accepted byte strings and all suffixes", "why_tests_cant": "universally quantified over the suffix", "anchors": ["radius/src/core/packet.rs: Packet::decode"]}
{"id": "C03", "title": "Encode/decode round-trip of packets", "statement": "For every packet built through the public API, if Packet::encode returns Ok(bytes) with at most 4096 bytes, then Packet::decode(bytes, secret) returns a packet with the same code, identifier, secret and the same ordered attribute list; for Access-Request and Status-Server the decoded packet equals the original completely.", "quantifier": "all packets (any code, identifier, authenticator, secret, any list of attributes)", "why_tests_cant": "unbounded attribute lists and values", "anchors": ["radius/src/core/packet.rs: Packet::encode, Packet::decode", "radius/src/core/attributes.rs: Attributes::encode"]}
{"id": "C04", "title": "Decode then encode reproduces the wire bytes", "statement": "For every datagram accepted by Packet::decode whose code is Access-Request or Status-Server, re-encoding the decoded packet returns exactly the first Length bytes of the datagram. For Accounting-Request, Disconnect-Request and CoA-Request it does so exactly when the datagram (without padding) is authentic under the secret.", "quantifier": "all accepted datagrams, all secrets", "why_tests_cant": "needs injectivity of the codec over all inputs", "anchors": ["radius/src/core/packet.rs: Packet::decode, Packet::encode, is_authentic_request"]}
{"id": "C05", "title": "Encoded packets respect the size limits", "statement": "Every buffer returned by a successful Packet::encode has a length equal to its own Length header field and between 20 and 4096 bytes.", "quantifier": "all packets", "why_tests_cant": "the violation needs attribute lists of more than 65 515 encoded bytes; no unit test builds one", "anchors": ["radius/src/core/packet.rs: marshal_binary, Packet::encode"]}
{"id": "C06", "title": "Encode failures are exactly the documented ones", "statement": "For every API-built packet Packet::encode returns EncodingError(\"attribute is too large\") iff some attribute value exceeds 253 bytes, else EncodingError(\"packet is too large\") iff the packet would exceed 4096 bytes, else UnknownCodeError iff the code is Status-Client, Reserved or Invalid, else Ok; no panic occurs.", "quantifier": "all packets, debug and release builds", "why_tests_cant": "sizes are unbounded and the error precedence is a statement about all combinations", "anchors": ["radius/src/core/packet.rs: Packet::encode, marshal_binary", "radius/src/core/attributes.rs: Attributes::encode"]}
{"id": "C07", "title": "Response authenticator of encoded replies", "statement": "For every reply packet (Access-Accept/Reject/Challenge, Accounting-Response, Disconnect/CoA ACK/NAK) the encoded bytes 4..20 are MD5(Code+Identifier+Length+RequestAuthenticator+Attributes+Secret) and every other byte is the plain header/attribute encoding.", "quantifier": "all reply packets, secrets, attribute lists", "why_tests_cant": "cryptographic equation over all inputs", "anchors": ["radius/src/core/packet.rs: Packet::encode"]}
{"id": "C08", "title": "Request authenticator of accounting/dynamic-authorization requests", "statement": "For every Accounting-Request, Disconnect-Request and CoA-Request packet the encoded bytes 4..20 are MD5(Code+Identifier+Length+16 zero octets+Attributes+Secret); Access-Request and Status-Server are sent with the packet's own authenticator unchanged.", "quantifier": "all request packets, secrets, attribute lists", "why_tests_cant": "equation over all inputs", "anchors": ["radius/src/core/packet.rs: Packet::encode"]}
{"id": "C09", "title": "Replies built from a request are accepted as authentic", "statement": "For every request datagram accepted by Packet::decode with non-empty secret s, every reply made by make_response_packet (with any reply code and any added attributes) that encodes successfully is accepted by is_authentic_response(reply, request, s).", "quantifier": "all request datagrams, secrets, reply codes, attribute lists", "why_tests_cant": "universal over all exchanges", "anchors": ["radius/src/core/packet.rs: make_response_packet, encode, is_authentic_response"]}
{"id": "C10", "title": "Encoded requests are accepted as authentic", "statement": "For every API-built request packet with a non-empty secret that encodes successfully, is_authentic_request(bytes, secret) is true.", "quantifier": "all request packets and secrets", "why_tests_cant": "universal over all packets", "anchors": ["radius/src/core/packet.rs: encode, is_authentic_request"]}
{"id": "C11", "title": "is_authentic_response decides the RFC 2865 equation", "statement": "is_authentic_response(resp, req, secret) is true exactly when both buffers have at least 20 bytes, the secret is non-empty and resp[4..20] = MD5(resp[..4] + req[4..20] + resp[20..] + secret). It never panics.", "quantifier": "all triples of byte strings", "why_tests_cant": "all inputs including short and empty ones", "anchors": ["radius/src/core/packet.rs: is_authentic_response"]}
{"id": "C12", "title": "is_authentic_request decides the RFC 2866 equation by code", "statement": "is_authentic_request(req, secret) is true exactly when req has at least 20 bytes, the secret is non-empty, and either the code octet is 1 or 12, or it is 4, 40 or 43 and req[4..20] = MD5(req[..4] + zeros + req[20..] + secret). Every reply code and every unknown code is rejected. It never panics.", "quantifier": "all byte strings, all 256 code octets", "why_tests_cant": "all inputs", "anchors": ["radius/src/core/packet.rs: is_authentic_request"]}
{"id": "C13", "title": "Tampering with an authentic message needs an MD5 collision", "statement": "If two different datagrams with the same authenticator octets are both accepted (is_authentic_response for one request and secret, or is_authentic_request for one secret on hashed codes), then two different MD5 inputs with equal digests are exhibited; changing only authenticator octets is always detected.", "quantifier": "all pairs of datagrams", "why_tests_cant": "quantifies over all modifications of a message", "anchors": ["radius/src/core/packet.rs: is_authentic_response, is_authentic_request"]}
{"id": "C14", "title": "Accepting the same message under two secrets needs an MD5 collision", "statement": "If a datagram is accepted as authentic under two different secrets then an explicit MD5 collision (two different inputs, equal digests) is exhibited.", "quantifier": "all datagrams and all pairs of secrets", "why_tests_cant": "quantifies over all wrong secrets", "anchors": ["radius/src/core/packet.rs: is_authentic_response, is_authentic_request"]}
{"id": "C15", "title": "Integer attribute values round-trip", "statement": "AVP::from_u32/from_u16 followed by encode_u32/encode_u16 returns the value, the octets being big-endian; encode_u32/encode_u16 fail with InvalidAttributeLengthError exactly when the value is not 4/2 bytes.", "quantifier": "all u32, u16 values and all attribute byte values", "why_tests_cant": "2^32 values and all lengths", "anchors": ["radius/src/core/avp.rs: from_u32, from_u16, encode_u32, encode_u16"]}
{"id": "C16", "title": "String attribute values round-trip and only valid UTF-8 is returned", "statement": "AVP::from_string(s).encode_string() = Ok(s) for every str; encode_string returns Ok exactly for byte values that are the UTF-8 encoding of some sequence of Unicode scalar values, and then returns those bytes.", "quantifier": "all strings, all byte values", "why_tests_cant": "all byte strings", "anchors": ["radius/src/core/avp.rs: from_string, encode_string"]}
{"id": "C17", "title": "Tagged integers round-trip", "statement": "from_tagged_u32(tag, v).encode_tagged_u32() = Ok((v, tag)) for every v and every tag in 0x00..=0x1f (None counting as 0x00); for any other tag octet it is InvalidTagForIntegerValueError; empty values give TagMissingError and wrong lengths InvalidAttributeLengthError.", "quantifier": "all tags, all u32 values, all byte values", "why_tests_cant": "all inputs", "anchors": ["radius/src/core/avp.rs: from_tagged_u32, encode_tagged_u32", "radius/src/core/tag.rs"]}
{"id": "C18", "title": "Tagged strings round-trip", "statement": "from_tagged_string(Some(tag), s).encode_tagged_string() = Ok((s, Some(tag))) for every tag in 0x01..=0x1f and every str s; from_tagged_string(None, s) yields Ok((s, None)) exactly when s is non-empty and its first byte is above 0x1f; a zero tag is always rejected.", "quantifier": "all tags and strings", "why_tests_cant": "all inputs, including strings starting with control characters", "anchors": ["radius/src/core/avp.rs: from_tagged_string, encode_tagged_string"]}
{"id": "C19", "title": "IP address attribute values round-trip", "statement": "from_ipv4/encode_ipv4 and from_ipv6/encode_ipv6 are mutually inverse between addresses and 4/16-byte values; any other length is InvalidAttributeLengthError.", "quantifier": "all addresses and byte values", "why_tests_cant": "2^128 addresses", "anchors": ["radius/src/core/avp.rs: from_ipv4, encode_ipv4, from_ipv6, encode_ipv6"]}
{"id": "C20", "title": "IP prefix attribute values round-trip", "statement": "from_ipv4_prefix accepts exactly 4-byte prefixes and from_ipv6_prefix exactly prefixes of at most 16 bytes, and encode_ipv4_prefix/encode_ipv6_prefix return the prefix; for IPv6 the second octet is the prefix length in bits.", "quantifier": "all prefixes", "why_tests_cant": "all lengths", "anchors": ["radius/src/core/avp.rs: from_ipv4_prefix, from_ipv6_prefix, encode_ipv4_prefix, encode_ipv6_prefix"]}
{"id": "C21", "title": "Date attribute values round-trip", "statement": "from_date(dt).encode_date() gives back dt's whole-second timestamp for every dt between 1970-01-01 and 2106-02-07 (timestamp in 0..2^32), encode_date never panics on any 4-byte value, and other lengths are InvalidAttributeLengthError. Timestamps outside that range are silently reduced modulo 2^32.", "quantifier": "all timestamps, all byte values", "why_tests_cant": "all timestamps", "anchors": ["radius/src/core/avp.rs: from_date, encode_date"]}
{"id": "C22", "title": "User-Password is hidden as RFC 2865 section 5.2 prescribes", "statement": "For every password of at most 128 bytes, non-empty secret and 16-byte authenticator, from_user_password yields c1..cn with ci = pi xor MD5(secret + c(i-1)), c0 = authenticator, pi the zero-padded 16-byte blocks (one zero block for the empty password); the value length is a multiple of 16 between 16 and 128. Longer passwords, empty secrets and other authenticator lengths give the documented errors.", "quantifier": "all passwords, secrets, authenticators", "why_tests_cant": "block chaining over every length", "anchors": ["radius/src/core/avp.rs: from_user_password"]}
{"id": "C23", "title": "User-Password round-trip", "statement": "encode_user_password with the same secret and authenticator returns the original password for every password of at most 128 bytes.", "quantifier": "all passwords, secrets, authenticators", "why_tests_cant": "all contents, including NUL bytes inside the password", "anchors": ["radius/src/core/avp.rs: from_user_password, encode_user_password"]}
{"id": "C24", "title": "Tunnel-Password round-trip", "statement": "For every salt the random generator may return, encode_tunnel_password with the same secret and authenticator returns the original password and tag for every password of at most 240 bytes; the salt on the wire always has its most significant bit set.", "quantifier": "all passwords, tags, salts, secrets, authenticators", "why_tests_cant": "the salt is random; all contents", "anchors": ["radius/src/core/avp.rs: from_tunnel_password, encode_tunnel_password"]}
{"id": "C25", "title": "Over-long tunnel passwords are rejected", "statement": "from_tunnel_password returns an error for every password longer than 240 bytes, so that a successfully constructed Tunnel-Password can always be sent and decoded.", "quantifier": "all passwords longer than 240 bytes", "why_tests_cant": "all lengths", "anchors": ["radius/src/core/avp.rs: from_tunnel_password"]}
{"id": "C26", "title": "Attribute decoders never panic", "statement": "Every AVP decoder (encode_u32, encode_u16, encode_tagged_u32, encode_string, encode_tagged_string, encode_bytes, encode_ipv4/6, encode_ipv4/6_prefix, encode_user_password, encode_tunnel_password, encode_date) returns a Result for every attribute value, secret and authenticator a peer can send; none panics.", "quantifier": "all attribute values of any length, all secrets and authenticators", "why_tests_cant": "attacker-controlled input of any shape", "anchors": ["radius/src/core/avp.rs: encode_*"]}
{"id": "C27", "title": "Attribute container semantics", "statement": "After any sequence of add, extend and delete on a packet, lookup_all(t) is the list of added AVPs of type t in insertion order since the last delete(t), lookup(t) is its first element, and no operation on one type affects another type; the header fields are untouched.", "quantifier": "all operation sequences and types", "why_tests_cant": "unbounded histories", "anchors": ["radius/src/core/packet.rs: add, extend, delete, lookup, lookup_all", "radius/src/core/attributes.rs"]}
{"id": "C28", "title": "Dictionary accessors read back what was added", "statement": "For every dictionary attribute of every RFC module, after adding a value through add_x, lookup_all_x returns the previous values followed by the new value, lookup_x returns the oldest one, delete_x removes all and only that attribute's values, and accessors of different attributes never interfere (their type codes are pairwise different).", "quantifier": "all dictionary attributes, packets and values", "why_tests_cant": "159 attributes times all values and packets", "anchors": ["radius/src/core/rfc*.rs", "code-generator/src/main.rs"]}
{"id": "C29", "title": "Concatenated attributes survive splitting", "statement": "For EAP-Message, PKM-SS-Cert and PKM-CA-Cert: adding any value to a packet without that attribute and looking it up returns exactly that value (None for the empty value), each fragment fits into an attribute, and the value survives encode and decode.", "quantifier": "all values of any length", "why_tests_cant": "all lengths, chunk boundaries at multiples of 253", "anchors": ["radius/src/core/rfc2869.rs: add_eap_message, lookup_eap_message", "radius/src/core/rfc5904.rs"]}
{"id": "C30", "title": "Fixed-length attributes reject other lengths atomically", "statement": "add_x of a fixed-length octets attribute (and the prefix and password attributes) either appends one AVP or returns Err and leaves the packet unchanged; it succeeds exactly for the dictionary's length.", "quantifier": "all packets and values", "why_tests_cant": "all lengths", "anchors": ["radius/src/core/rfc2869.rs: add_arap_password", "radius/src/core/rfc3162.rs: add_framed_interface_id"]}
{"id": "C31", "title": "Every API-built packet has a 16-byte authenticator and encodes without slicing panics", "statement": "Starting from new, new_with_identifier, decode or make_response_packet and applying any sequence of public mutators, the packet's authenticator has exactly 16 bytes, and encode never panics in a release build.", "quantifier": "all API call histories", "why_tests_cant": "unbounded histories", "anchors": ["radius/src/core/packet.rs: Packet"]}
{"id": "C32", "title": "Vendor-specific messages have the RFC layout", "statement": "StringVSA/TaggedStringVSA messages are vendor id (4 bytes, big-endian) + vendor type + vendor length + [tag] + value; for every VSA that fits into an attribute (so that the packet can be encoded) the vendor-length octet counts type, length, tag and value exactly.", "quantifier": "all vendor ids, types, tags, strings", "why_tests_cant": "all lengths including the 8-bit wrap", "anchors": ["radius/src/core/vsa.rs", "radius/src/core/rfc2865.rs: add_vsa_attribute"]}
{"id": "C33", "title": "Debug output never contains the secret", "statement": "The Debug rendering of a packet does not depend on its secret: two packets differing only in the secret render identically.", "quantifier": "all packets and pairs of secrets", "why_tests_cant": "non-interference is a statement about pairs of executions", "anchors": ["radius/src/core/packet.rs: impl Debug for Packet"]}
{"id": "C34", "title": "Code conversion", "statement": "Code::from(c as u8) = c for every code; every octet that is not an assigned code maps to Code::Invalid; Code::from never panics.", "quantifier": "all 256 octets", "why_tests_cant": "completeness over the enum", "anchors": ["radius/src/core/code.rs"]}
{"id": "C35", "title": "Server: one handler per client and identifier at a time", "statement": "In every reachable state of the server, under every interleaving of its tasks, at most one request handler is running for any pair (remote address, packet identifier).", "quantifier": "all schedules, all datagram sequences, all handler behaviours", "why_tests_cant": "interleavings cannot be enumerated by tests", "anchors": ["radius/src/server.rs: process_request"]}
{"id": "C36", "title": "Server: handlers only see authentic, well-formed requests", "statement": "Whenever the handler is invoked, it is for a received datagram, with the remote address of that datagram and with the packet obtained by decoding it with the non-empty secret the provider returned for that address; unless authenticity validation is switched off, the datagram passed is_authentic_request, hence its code is one of Access-Request, Status-Server, Accounting-Request, Disconnect-Request, CoA-Request.", "quantifier": "all schedules and datagrams", "why_tests_cant": "all executions", "anchors": ["radius/src/server.rs: process_request"]}
{"id": "C37", "title": "Server: at most one handler call per datagram", "statement": "Each received datagram causes at most one handler invocation, under every schedule.", "quantifier": "all schedules", "why_tests_cant": "all executions", "anchors": ["radius/src/server.rs: run_loop, process_request"]}
{"id": "C38", "title": "Server: in-flight bookkeeping does not leak", "statement": "In every reachable state in which no handler panicked or was dropped half-way, every key in the in-flight set belongs to a datagram that is still being processed, and the keys of all running handlers are in the set; when everything is finished the set is empty, and a client that sends its requests one after the other (each after the previous one is finished with) has every valid request handled.", "quantifier": "all schedules with handlers returning Ok or Err", "why_tests_cant": "all histories", "anchors": ["radius/src/server.rs: process_request"]}
{"id": "C39", "title": "Server: every request is eventually decided, without deadlock", "statement": "Under every schedule, in every reachable state with an unfinished datagram either the server can make a step by itself or it waits for the secret provider or the handler of that datagram and goes on whatever they answer; without new datagrams every schedule is finite, and when no step is possible everything is finished; a valid request is dropped as a duplicate only if another request from the same client address with the same identifier was being processed at that moment (from its handler call until its bookkeeping was removed), and is handled otherwise.", "quantifier": "all schedules", "why_tests_cant": "deadlock freedom and progress over all interleavings", "anchors": ["radius/src/server.rs: process_request"]}
{"id": "C40", "title": "Server: a panicking handler does not affect later requests", "statement": "After a handler panics for some request, a later valid request from the same address with the same identifier is still handled.", "quantifier": "all histories containing a handler panic", "why_tests_cant": "needs reasoning about all continuations after a fault", "anchors": ["radius/src/server.rs: process_request"]}
{"id": "C41", "title": "Server: truncated datagrams are never handled", "statement": "If a datagram declares a Length larger than the receive buffer, the handler is not invoked for it; the handler never sees bytes from a previous datagram.", "quantifier": "all buffer sizes and datagrams", "why_tests_cant": "all sizes", "anchors": ["radius/src/server.rs: run_loop, set_buffer_size"]}
{"id": "C42", "title": "Server: shutdown stops intake but not running requests", "statement": "After the shutdown trigger or a receive error no further datagram is taken, requests already taken still run to completion, and the in-flight set survives into a later run() on the same server.", "quantifier": "all schedules", "why_tests_cant": "all crash/shutdown points", "anchors": ["radius/src/server.rs: run, run_loop"]}
{"id": "C43", "title": "Server: distinct clients never collide in duplicate detection", "statement": "Two requests are treated as the same in-flight request only if their identifiers are equal and their remote socket addresses have the same textual form; different IPv4 addresses or ports never have the same textual form.", "quantifier": "all pairs of socket addresses", "why_tests_cant": "all address pairs", "anchors": ["radius/src/server.rs: RequestKey, process_request"]}
{"id": "C44", "title": "Client: at most one datagram, exactly the encoded request", "statement": "send_packet sends at most one datagram; it is sent only after binding, connecting and encoding succeeded and its content is request_packet.encode(). No retransmission ever happens.", "quantifier": "all packets and network behaviours", "why_tests_cant": "all environment behaviours", "anchors": ["radius/src/client.rs: send_packet, request"]}
{"id": "C45", "title": "Client: error mapping and timeouts", "statement": "Every failure is reported with the error of the phase that failed, in the order bind, connect, encode, send/receive, decode; ConnectionTimeoutError/SocketTimeoutError occur only if the corresponding timeout was configured and elapsed first; with a socket timeout configured the call cannot wait for a response for ever.", "quantifier": "all environment behaviours and timeout settings", "why_tests_cant": "timing-dependent", "anchors": ["radius/src/client.rs: send_packet"]}
{"id": "C46", "title": "Client: returned packet is the decoded datagram", "statement": "If send_packet returns Ok(p) then p is Packet::decode of a datagram received from the connected remote, with the request's secret.", "quantifier": "all environment behaviours", "why_tests_cant": "all responses", "anchors": ["radius/src/client.rs: send_packet"]}
{"id": "C47", "title": "Client: only authentic replies are returned", "statement": "If send_packet returns Ok(p), the received datagram satisfied is_authentic_response for the sent request and secret and carries the request's identifier.", "quantifier": "all responses a network attacker may inject", "why_tests_cant": "adversarial responses", "anchors": ["radius/src/client.rs: send_packet"]}
{"id": "C48", "title": "End-to-end authentication exchange", "statement": "With the example server's handler and a client sharing a non-empty secret, for every user name and password (valid UTF-8, password NUL-free and at most 128 bytes, request within size limits), every identifier and random authenticator, the datagram produced by the client makes the server reply, the reply is authentic for the request, carries the request's identifier, and its code is Access-Accept iff the credentials are admin/p@ssw0rd, otherwise Access-Reject.", "quantifier": "all credentials, secrets, identifiers, random authenticators", "why_tests_cant": "composition of all codec steps over all inputs", "anchors": ["examples/server.rs", "examples/client.rs", "radius/src/core/packet.rs", "radius/src/core/avp.rs", "radius/src/server.rs"]}
{"id": "C49", "title": "Tunnel-Password in replies is readable by the client", "statement": "A Tunnel-Password added by a server to a reply made by make_response_packet is recovered by lookup_tunnel_password on the packet the client decodes from the encoded reply.", "quantifier": "all exchanges", "why_tests_cant": "all exchanges", "anchors": ["radius/src/core/rfc2868.rs: add_tunnel_password, lookup_tunnel_password", "radius/src/core/packet.rs: make_response_packet, decode"]}
{"id": "C50", "title": "Both hash back ends behave identically", "statement": "With the openssl feature, if the hash computation succeeds, every function returns the same result as with the md5 feature; if it fails, the Result-returning encoders and decoders return HashComputationFailed without partial output. This holds of the source text under each feature: only seven functions differ between the features.", "quantifier": "all inputs and hash outcomes", "why_tests_cant": "pairs of builds", "anchors": ["radius/src/core/avp.rs: #[cfg(feature = openssl)]", "radius/src/core/packet.rs: #[cfg(feature = openssl)]"]}
{"id": "C51", "title": "Dictionary parsing and generation agree with the generated modules", "statement": "The attributes (name, type code, accessor kind) and enumerated values of every generated RFC module are exactly those the code generator derives from the dictionary files.", "quantifier": "all dictionary lines of all 24 dictionaries", "why_tests_cant": "relates two large artefacts and the generator's logic", "anchors": ["code-generator/src/main.rs: parse_dict_file, generate_attribute_code", "dicts/*", "radius/src/core/rfc*.rs"]}
{"id": "C52", "title": "Dictionary parser totality", "statement": "For every dictionary text, parsing either returns attributes/values in file order, or an error, or (for numbers outside u8 type / u16 value range) aborts; comment and blank lines never change the result.", "quantifier": "all dictionary texts", "why_tests_cant": "all texts", "anchors": ["code-generator/src/main.rs: parse_dict_file"]}
{"id": "C53", "title": "Errors never depend on the secret", "statement": "Whether decoding or encoding a packet fails, and the error it fails with (including its text), does not depend on the contents of the shared secret; encoding or decoding a password fails, with the same error, for every two secrets that are both empty or both non-empty.", "quantifier": "all packets, byte strings, passwords and pairs of secrets", "why_tests_cant": "relates two runs for all pairs of secrets", "anchors": ["radius/src/core/packet.rs: Packet::decode, Packet::encode", "radius/src/core/avp.rs: from_user_password, encode_user_password, from_tunnel_password, encode_tunnel_password"]}
{"id": "C54", "title": "Server: a new request after the reply is handled", "statement": "A valid request that arrives after the handler of the previous request with the same client address and identifier has returned (so that the client may already have its answer) is handled.", "quantifier": "all schedules", "why_tests_cant": "depends on the interleaving of the removal from the in-flight set with the next datagram", "anchors": ["radius/src/server.rs: process_request"]}
{"id": "C55", "title": "Server: no head-of-line blocking", "statement": "From every reachable state, however many handlers are running and whether or not they ever return, a received datagram can be brought to its handler call or to its rejection using only steps of the server itself and the answer of the secret provider for that datagram.", "quantifier": "all reachable states and all answers of the provider", "why_tests_cant": "all schedules and states", "anchors": ["radius/src/server.rs: run_loop, process_request"]}
{"id": "C56", "title": "Tunnel-Password interoperates with RFC 2868 peers", "statement": "A Tunnel-Password value built according to RFC 2868 by another implementation (tag, salt, and a plain text made of a length octet, the password and padding) is read by tunnel-password decoding as that password; and a value made by tunnel-password encoding is read by such an implementation as the password that was encoded.", "quantifier": "all secrets, request authenticators, tags, salts and passwords", "why_tests_cant": "relates the code to an independent specification for all passwords and keys; the project tests only round-trip with themselves", "anchors": ["radius/src/core/avp.rs: from_tunnel_password, encode_tunnel_password"]}
{"id": "C57", "title": "Packet construction and getters", "statement": "A packet made with new_with_identifier shows exactly the code, identifier and secret given, 16 authenticator octets taken from the random source and no attributes; make_response_packet keeps identifier, authenticator and secret of the request, takes the new code and drops all attributes; set_identifier, add, extend, delete and decode change exactly what they say, as seen by the getters and lookups.", "quantifier": "all codes, secrets, random streams, packets, attributes", "why_tests_cant": "all packets and all random streams", "anchors": ["radius/src/core/packet.rs: Packet::new, new_with_identifier, make_response_packet, get_code, get_identifier, get_secret, get_authenticator, set_identifier, add, extend, delete, lookup, lookup_all"]}
{"id": "C58", "title": "Server: a different request under an identifier in use is not a duplicate", "statement": "A valid request whose Request Authenticator or contents differ from those of the request being processed from the same client address with the same identifier is not a retransmission, and is handled.", "quantifier": "all schedules and datagrams", "why_tests_cant": "depends on interleavings and on all pairs of datagrams", "anchors": ["radius/src/server.rs: RequestKey, process_request"]}
{"id": "C59", "title": "Octets after the Length are ignored", "statement": "Octets of a datagram beyond its Length field are padding and change neither the decoded packet nor the outcome of the authenticity checks (RFC 2865 section 3).", "quantifier": "all datagrams, paddings and secrets", "why_tests_cant": "all datagrams and paddings", "anchors": ["radius/src/core/packet.rs: Packet::decode, is_authentic_request, is_authentic_response"]}
{"id": "C60", "title": "Server: a retransmitted request is handled only once", "statement": "The same datagram received twice from the same client address leads to at most one handler call.", "quantifier": "all schedules", "why_tests_cant": "depends on the interleaving of the retransmission with the end of the first handling", "anchors": ["radius/src/server.rs: process_request"]}
{"id": "C61", "title": "Server: the handler sees only requests made with knowledge of the secret", "statement": "A datagram whose sender does not know the shared secret never reaches the request handler.", "quantifier": "all schedules, secrets and datagrams", "why_tests_cant": "all datagrams and secrets", "anchors": ["radius/src/server.rs: process_request", "radius/src/core/packet.rs: is_authentic_request"]}
{"id": "C62", "title": "Accessors generated from any accepted dictionary are correct", "statement": "For every attribute generated from any list of dictionaries that the generator accepts: the accessors use the number of the dictionary as type octet, what add_x adds lookup_x and lookup_all_x read back, lookup is the oldest of lookup_all, delete_x removes exactly the attributes of that type, a failing add_x changes nothing, and accessors of attributes with different numbers do not interfere.", "quantifier": "all dictionaries, generated attributes, packets and values", "why_tests_cant": "all dictionaries, packets and values", "anchors": ["code-generator/src/main.rs: main, parse_dict_file, generate_*"]}
{"id": "C63", "title": "User-Password decoding accepts exactly whole blocks and recovers the password", "statement": "User-Password decoding accepts exactly the values of 16, 32, ..., 128 octets, and returns the plain text of RFC 2865 section 5.2 up to its first NUL octet.", "quantifier": "all values, secrets and request authenticators", "why_tests_cant": "all byte strings and keys", "anchors": ["radius/src/core/avp.rs: encode_user_password"]}
{"id": "C64", "title": "IP prefix attributes mean the same to RFC 3162 / RFC 6572 peers", "statement": "A prefix attribute made by the library is well-formed for a peer that follows the RFCs (reserved octet, prefix length in bits, prefix octets with all bits beyond the prefix length zero) and denotes all bits given by the caller; and from a received prefix attribute the application learns the network, i.e. the prefix and its length.", "quantifier": "all prefixes and all received values", "why_tests_cant": "relates the code to an independent specification for all values", "anchors": ["radius/src/core/avp.rs: from_ipv4_prefix, from_ipv6_prefix, encode_ipv4_prefix, encode_ipv6_prefix"]}
{"id": "C65", "title": "What add_x accepts can be sent", "statement": "If add_x of a dictionary attribute accepts a value (returns nothing or Ok), the attribute fits into the 253 octets of an attribute value, so that encoding the packet does not fail because of it.", "quantifier": "all 159 attributes, all packets and values", "why_tests_cant": "all attributes and value lengths", "anchors": ["radius/src/core/rfc*.rs: add_*", "radius/src/core/attributes.rs: Attributes::encode", "radius/src/core/packet.rs: Packet::encode"]}
{"id": "C66", "title": "Copying attributes between packets (Proxy-State)", "statement": "Adding any list of values through add_x appends exactly those values, in order, to what lookup_all_x returns, and changes no other attribute; in particular copying all Proxy-State values of a request to a reply, encoding and decoding it gives exactly the same octets in the same order (RFC 2865 section 5.33).", "quantifier": "all attributes, value lists, packets, requests and replies", "why_tests_cant": "all lists of values", "anchors": ["radius/src/core/rfc2865.rs: add_proxy_state, lookup_all_proxy_state", "radius/src/core/packet.rs: make_response_packet"]}
{"id": "C67", "title": "Server: every valid packet up to the maximum size is handled", "statement": "A valid request of at most 4096 octets (the maximum size of a RADIUS packet, which is what the decoder accepts) is passed to the handler of a server with default settings, unless another request with the same address and identifier is being processed.", "quantifier": "all schedules and datagrams", "why_tests_cant": "all datagrams up to 4096 octets and all schedules", "anchors": ["radius/src/server.rs: DEFAULT_BUFFER_SIZE, set_buffer_size, run_loop"]}
{"id": "C68", "title": "Server: clients do not affect each other", "statement": "For every set of client addresses and every schedule there is a schedule in which only the datagrams of these clients are received, in the same order, and in which the same happens to each of them (same answers of the secret provider, same handler call with the same request, same outcome): what other clients send, and what their handlers do, makes no difference to them.", "quantifier": "all schedules and all sets of clients", "why_tests_cant": "relates two schedules, for all schedules", "anchors": ["radius/src/server.rs: run_loop, process_request"]}
{"id": "C69", "title": "Code generator: the committed modules are what the generator writes", "statement": "Running the code generator on the dictionaries in /repo/dicts writes, for each dictionary, the text of the committed module rfc*.rs, up to formatting and unused imports (which cargo fmt and cargo fix change). So nothing is lost when the modules are generated again, and the table of accessors that the other properties speak about is exactly what the source files contain.", "quantifier": "all characters of the 24 committed modules; any Unicode tables", "why_tests_cant": "compares about 10000 lines of generated text with a generator that the tests never run", "anchors": ["code-generator/src/main.rs: main, generate_header, generate_common_attribute_code, generate_*_attribute_code, generate_values_code", "radius/src/core/rfc*.rs", "Makefile: gen"]}
{"id": "C70", "title": "Code generator: names become identifiers", "statement": "For every ASCII name in a dictionary the generated function names consist of its letters and digits in small letters, with underscores exactly at word boundaries; constants the same in capitals. No letter or digit is lost or changed except for case, and the function names are legal Rust identifiers.", "quantifier": "all ASCII names", "why_tests_cant": "ranges over all names; the committed dictionaries contain only some", "anchors": ["code-generator/src/main.rs: generate_common_attribute_code, generate_values_code, generate_attribute_code (to_snake_case, to_screaming_snake_case, to_pascal_case)"]}
{"id": "C71", "title": "Code generator: the generated text declares exactly the API of the dictionary", "statement": "For every list of dictionaries (names in ASCII with at least one letter or digit, file names that are module names) that the generator accepts, each generated module declares exactly: per attribute the constant with its number, delete, add, lookup and lookup_all with the signature of its kind (Vendor-Specific only delete, concatenated attributes no lookup_all); per value its constant with the dictionary number, typed by the attribute; per attribute with values one type, except if it is defined in an earlier module, which is then named.", "quantifier": "all dictionaries", "why_tests_cant": "ranges over all dictionary texts; rustc only checks the committed output", "anchors": ["code-generator/src/main.rs: all generate_* functions"]}
{"id": "C72", "title": "Code generator: constants have legal names", "statement": "For every ASCII attribute name with at least one letter or digit, the name of the generated type constant is a legal Rust identifier.", "quantifier": "all ASCII names", "why_tests_cant": "ranges over all names; rustc only sees the committed dictionaries", "anchors": ["code-generator/src/main.rs: generate_common_attribute_code (type_ident)", "code-generator/src/main.rs: to_screaming_snake_case"]}
{"id": "C73", "title": "Code generator: no function is defined twice", "statement": "In every generated module, attributes with different function names define different functions: no function name is defined twice.", "quantifier": "all dictionaries", "why_tests_cant": "ranges over all dictionary texts; rustc only sees the committed output", "anchors": ["code-generator/src/main.rs: generate_common_attribute_code, generate_attribute_code"]}
{"id": "C74", "title": "Server: only the shutdown trigger stops a running server", "statement": "Once run() has been called the server keeps taking datagrams until its shutdown trigger completes: no datagram, no answer or panic of the secret provider or the request handler, no dropped task and no socket error stops it.", "quantifier": "all schedules", "why_tests_cant": "a test sends some datagrams; the property ranges over all datagrams, socket errors and interleavings", "anchors": ["radius/src/server.rs: run, run_loop"]}
{"id": "C75", "title": "Core library: what the source text computes", "statement": "Running the committed source text of any function of tag.rs, code.rs, vsa.rs, avp.rs, attributes.rs, packet.rs or request.rs, with either hash feature and with or without overflow checks, on any arguments, terminates; it returns the value, error or panic that the reference functions of the other properties give, changes nothing but its &mut argument, draws random bytes only where a new packet or a tunnel password needs them and does no I/O.", "quantifier": "all functions of the hand-written core files (except Packet's Debug::fmt), all arguments, both features, both build profiles, all random streams", "why_tests_cant": "a test runs a function on some arguments; this is about all arguments, both features and both profiles", "anchors": ["radius/src/core/tag.rs", "radius/src/core/code.rs", "radius/src/core/vsa.rs", "radius/src/core/avp.rs", "radius/src/core/attributes.rs", "radius/src/core/packet.rs", "radius/src/core/request.rs"]}
{"id": "C76", "title": "Attribute accessors: what the source text computes", "statement": "Running the committed source text of any delete_x, add_x, lookup_x or lookup_all_x function of the 24 rfc*.rs modules, on any packet and any value, terminates and gives the result, the error and the changed packet that the reference functions of the other properties give for that attribute; nothing else changes. The modules contain exactly these functions, each once.", "quantifier": "all 24 modules, all their functions, all packets, all argument values, both hash features, both build profiles, all random streams", "why_tests_cant": "627 functions with unbounded inputs; the tests of the repository call a few of them on a few literals", "anchors": ["radius/src/core/rfc*.rs: delete_*, add_*, lookup_*, lookup_all_*"]}
{"id": "C77", "title": "Client: what the source text of client.rs does", "statement": "Running the committed text of Client::new and Client::send_packet asks the network the same things in the same order, and returns the same result, as the reference client of the other client properties: bind an address of the remote's family, connect, send the encoded packet within the connection timeout, receive within the socket timeout, decode with the request's secret. For every behaviour of the network the text has an outcome of the reference client, and for every behaviour of the reference client there are answers with which the text has it.", "quantifier": "all client configurations, remote addresses, packets, answers of the network (results, errors, datagrams, silence) and moments at which they come, both hash features, both build profiles", "why_tests_cant": "needs every interleaving of answers and deadlines and every datagram; the repository tests one exchange over loopback", "anchors": ["radius/src/client.rs: Client::new, send_packet, connect, send, receive"]}
{"id": "C78", "title": "Server: what the source text of server.rs does", "statement": "Running the committed text of the server agrees with the state machine of the other server properties. In every schedule, what a task has asked for and been answered (secret, lock, membership, insertion, handler call, removal, in this order) is what the text of process_request does with some answers, and both stand at the same point; conversely every run of the text with answers a lock and a set can give is a task of some schedule. The text of run spawns, for each datagram in order, exactly the task the state machine spawns, and returns the socket's error, or Ok(()) once the trigger completes, or waits. listen, the setters, the defaults and get_listen_address do what the state machine's start and setters do.", "quantifier": "all schedules, tasks, datagrams, addresses, secrets, handler results, sequences of received datagrams, buffer sizes, both hash features, both build profiles", "why_tests_cant": "all interleavings of any number of tasks and all datagrams", "anchors": ["radius/src/server.rs: Server::listen, run, run_loop, process_request, set_buffer_size, set_skip_authenticity_validation, get_listen_address"]}
{"id": "C79", "title": "Code generator: what the source text of main.rs does", "statement": "Running the committed text of the code generator reads the dictionaries named on the command line, in sorted order, and creates for each one file, out_dir/<extension>.rs, whose contents are, octet by octet, the module text of the other generator properties; no other file is written. If a dictionary is refused, or is not a file that exists, or -o is missing, the program panics; -h prints the usage and leaves without touching a file. On the shipped dictionaries the files have the code of the committed modules (all but rfc2865.rs).", "quantifier": "all lists of dictionaries of any Unicode text, all output directories, command lines, file names and paths, all Unicode tables, both build profiles", "why_tests_cant": "all dictionaries; the repository has no test of the generator", "anchors": ["code-generator/src/main.rs: main, print_usage, read_lines, parse_dict_file, RadiusAttributeValueType::from_str, generate_header, generate_attributes_code, generate_attribute_code, generate_values_code", "scripts/generate-code.sh"]}
{"id": "C80", "title": "Examples: what the source text of the example server and client does", "statement": "Running the committed text of examples/server.rs binds 0.0.0.0:1812 (and panics if that fails), then hands every datagram, cut to 1500 octets and with authenticity validation on, to a task of its own, until the interrupt comes (it ends) or the socket fails (it exits with 1). Its provider gives the secret \"secret\" for every peer; its handler answers each request with one datagram to the sender: Access-Accept exactly for user \"admin\" with password \"p@ssw0rd\", Access-Reject otherwise; it panics if the name or the password is missing or not UTF-8. Running the text of examples/client.rs sends one Access-Request with these credentials, the password hidden, to 127.0.0.1:1812, with timeouts of 3 s and 5 s, and ends whatever comes of it. With each other, the server authenticates the client's datagram and hands it to the handler, and the client accepts the handler's reply as Access-Accept.", "quantifier": "all random octets, socket answers, datagrams, requests and interrupts, both hash features, both build profiles (client and server may differ)", "why_tests_cant": "all random authenticators and identifiers, all answers of the network, all requests", "anchors": ["examples/server.rs: main, MyRequestHandler::handle_radius_request, MySecretProvider::fetch_secret", "examples/client.rs: main"]}
{"id": "C81", "title": "Code generator: the module written for any dictionary is Rust and its functions work", "statement": "For every list of dictionaries the generator accepts, whose attribute names begin with a letter and are ASCII and give no declaration twice, the file it writes for each dictionary can be read as Rust; it declares exactly one number constant per attribute, one type alias per attribute whose values are given first, one constant per value, and the functions delete_x, add_x, lookup_x, lookup_all_x that its kind has; and running the text of these functions does to a packet what the kind of the attribute and its number in the dictionary say. In particular a value the kind can carry that is added by the text of add_x is what the text of lookup_x returns. The files are those that running the text of the generator's main.rs writes.", "quantifier": "all lists of dictionaries (any number of lines, any comments), all attributes in them, all packets, values, random octets, both hash features and build profiles", "why_tests_cant": "the dictionaries are input to the generator; only the 24 shipped ones have ever been compiled", "anchors": ["code-generator/src/main.rs: generate_header, generate_attribute_code, generate_values_code, main", "radius/src/core/packet.rs: Packet::add, Packet::lookup, Packet::lookup_all, Packet::delete", "radius/src/core/avp.rs"]}
{"id": "C82", "title": "The crate's own unit tests pass whatever is drawn at random", "statement": "Every #[test] function of the crate (27 in tag.rs, vsa.rs, avp.rs and packet.rs) returns () or Ok(()), whatever random octets the tested functions draw, whatever the clock says, in both build profiles and with both hash features; so a failing test never depends on chance.", "quantifier": "all unit tests in the source text, all streams of random octets, all answers of the clock, both profiles, both hash features", "why_tests_cant": "a run of the tests sees one stream of random octets, one time and one profile", "anchors": ["radius/src/core/packet.rs: mod tests", "radius/src/core/avp.rs: mod tests", "radius/src/core/tag.rs: mod tests", "radius/src/core/vsa.rs: mod string_vsa_tests, mod tagged_string_vsa_tests"]}
{"id": "C83", "title": "The end-to-end test holds for every user and password", "statement": "The handler of the end-to-end test answers every request that came from the wire with an authentic reply carrying the user name of the request and nothing else, Access-Accept exactly for admin with p@ssw0rd, and panics if the user name or password is missing or not UTF-8. For every user name of at most 253 octets and every password of at most 128 octets without NUL, the exchange the test makes (request, server task, handler, reply, client) ends in a packet with the asserted code, the user name and no password. The slow handler sends nothing while it sleeps and an authentic Access-Reject afterwards; a client whose socket timeout passes first reports SocketTimeoutError. With these replies the test itself (test_runner) returns without a failed assertion, whatever random octets its three requests are made of, and it has bound, spawned, sent and stopped exactly what its text says, its first server with the quick handler and its second with the slow one; an Access-Reject in reply to its first request makes it panic.", "quantifier": "all requests, user names, passwords, addresses, random octets, both profiles and hash features on either side, all answers of the sockets", "why_tests_cant": "the end-to-end test sends one user name and two passwords over one loopback socket", "anchors": ["e2e-test/src/test.rs: MyRequestHandler, LongTimeTakingHandler, MySecretProvider, test_access_request, test_socket_timeout, test_runner", "radius/src/client.rs: Client::send_packet", "radius/src/server.rs: Server::process_request"]}
