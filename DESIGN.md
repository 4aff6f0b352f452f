# Formal model of moznion/radius-rs in Rocq (Coq 8.16.1)

Source: `/repo` (crate `radius`, workspace with `code-generator`, `examples`, `e2e-test`), read as text only.
Model, specifications and proofs: `/verif/rocq/theories`, logical name `Verif`.
Properties: `properties.jsonl`; theorem names and status per property: `MANIFEST.json`;
wrong-program experiments: `seeded/LOG.jsonl`.

## 1. Trusted base

* Coq 8.16.1's kernel (including `vm_compute`, used for finite tables and for witnesses).
* `Print Assumptions` is run at the end of each `Prop*.v` for every theorem; each prints
  "Closed under the global context": **no axioms at all**, neither own nor of the standard library.
  No library outside the standard library is imported. (Loading `Lia`/`Zify` pulls in
  `Coq.ssr.ssrunder`, whose `Under_rel` module type shows up when a checker lists all loaded
  library parameters; no theorem depends on it.)
* No `Admitted`, no `Variable`/`Hypothesis` outside sections, no functors, module types,
  `Declare Module`, plugins, or switched-off checks.
* The transcription: that the model says what the Rust code does. Each definition cites file and
  lines. The large tables are produced by scripts that read `/repo`: `Rfc.v` (every
  accessor of every `rfc*.rs`, by `tools/gen_rfc.py`), `Dicts.v` (all dictionary files character
  by character, by `tools/gen_dicts.py`), `Sources.v` (the committed `rfc*.rs` files character by character, by
  `tools/gen_sources.py`) and the templates in `GenText.v` (`tools/gen_templates.py`). Their output is committed; the
  scripts are not part of the build. C51 checks `Rfc.v` against `Dicts.v` through the modelled generator, C69
  checks `Sources.v` against `Dicts.v` through the modelled generator with its templates.
* For `tag.rs, code.rs, vsa.rs, avp.rs, attributes.rs, packet.rs, request.rs` the transcription is not trusted but
  proved (C75): `SourceCore.v` has the files character by character (`tools/gen_sources_core.py`), `Rust.v` parses
  them, `RustEval.v` is an interpreter of the subset of Rust they use, and the theorems say that running the text of
  each function gives what the model's definition gives. What is trusted there instead: the parser and interpreter
  (1800 lines about Rust and std, nothing about RADIUS), whose header lists the simplifications (references are
  values, iterators are lists, untyped literals).
* Likewise for the accessors of the 24 `rfc*.rs` modules (C76): each of the 627 functions is taken from the text in
  `Sources.v`, with the constants and type names of its module put in (`RustModule.v`), and run by the interpreter.
* Likewise for `client.rs` (C77) and `server.rs` (C78): `SourceNet.v` has the two files (`tools/gen_sources_net.py`).
  What they ask of tokio, of the secret provider, of the handler and of the shared set is a list of events with answers
  (`RustEval.v`); the theorems hold for all answers. `.await` waits for the answer; `timeout(d, f)` gives up when the
  answer to `f` does not come and the deadline does; `select!` takes the first branch that can be answered, in the order
  of the text; `tokio::spawn` of `process_request` (or, in the end-to-end test, of `Server::run`) is an event with the arguments of
  the call, and the spawned call is run on its own; a lock guard is an `unlock` event at the end of its block; a missing answer stands for waiting for
  ever, for being dropped, and for a panic of what is called. Interleavings are those of `Server.v`: C78 relates each of
  its tasks, alone, to the text.
* Likewise for `code-generator/src/main.rs` (C79): `SourceGen.v` has the file (`tools/gen_sources_gen.py`). The command
  line (getopts), paths, files, regex and Inflector are answers of the environment. What they have to answer is stated as
  hypotheses (`libraries`, `command_line`, `dictionary_files`, `environment`); `C79_environment` gives, for any
  dictionaries, an environment that meets them. A file is its path and the octets written to it: `BufWriter` writes at
  once, writing, creating and reading do not fail, and the order of `HashMap` is not observable (only `get` and `insert`
  are used). Strings are their UTF-8. `Regex` answers for the four patterns of main.rs as `CodeGen.v` models them.
* Likewise for `examples/server.rs` and `examples/client.rs` (C80): `SourceApp.v` has the files
  (`tools/gen_sources_app.py`), `RustLink.v` runs a program together with the crate and the module `rfc2865`. Sockets,
  the interrupt and `process::exit` are answers of the environment; the program's handler and provider are objects of the
  environment for the crate, and C80 says what their text does when the crate calls them. The arguments of the log
  macros are not evaluated: `server.get_listen_address().unwrap()` in an `info!` of the server (line 30) could panic.
* The behaviour of the Rust standard library and of crates as described below (section 3).

## 2. Approach

* Every modelled Rust function is a total Gallina function. `Vec<u8>`/`&[u8]` is `list byte`
  (`Coq.Init.Byte.byte`, exactly 256 values, so there is no side condition "is a byte").
  `u16/u32/usize` are `N`, reduced explicitly where Rust truncates or wraps.
* Result type `res E A := Ok a | Err e | Panic | OutOfFuel`. Every slice, index and `unwrap` that
  can panic goes through a partial operation returning `Panic`; loops that are not structurally
  recursive take fuel and return `OutOfFuel`. "Never panics / terminates" is a theorem.
* The build profile (`Debug`: overflow panics, `Release`: it wraps) is a parameter wherever the
  code does narrow-integer arithmetic.
* Randomness (authenticator, identifier, salt) is an argument, universally quantified.
* MD5 is concrete (RFC 1321), checked on the RFC's test suite (`Md5Test.v`); proofs use only that
  the digest has 16 bytes. "No collision" is never assumed: authenticity theorems exhibit the
  collision.
* The server is a state machine; a schedule is any list of steps: the receive loop, the
  spawned tasks, the lock, the secret provider's and handler's answers (incl. panics), task abort,
  socket errors, shutdown, setters and repeated `run`. Theorems hold for all schedules.
* The client is a function of the network behaviour (time and result of bind, connect, send, recv).
* Specifications are in `Spec`, `AvpSpec`, `AccessorSpec`, `ServerSpec`, `CodeGenSpec`,
  `InteropSpec`, `SourceSpec`: wire grammar, RFC equations, UTF-8 by scalar values, abstract attribute lists,
  event-log predicates, meaning of a dictionary line, tokens and declarations of Rust source text. They do not use the model's helper functions
  (beyond data types, `len`, byte/number conversion and `md5` itself).
* A property which the code violates stays in `properties.jsonl` in the form a user expects. It has a
  `_refuted` theorem (the negation, with a concrete witness), `_partial` theorems (strongest true
  version) and often a theorem giving the exact behaviour. Its status is `partial`.
* Each theorem or group of theorems is followed by an `Example` with concrete non-trivial data
  meeting its hypotheses (RFC 2865 section 7 packets, complete server schedules, ...).

File layout: model files contain definitions only (`Prelude Md5 Utf8 Tag Code Avp AvpOpenssl
Attributes Packet PacketOpenssl Openssl Vsa Accessors Rfc Display Addr Server Client ExampleApp E2eApp CodeGen Dicts Inflect GenText Sources SourceCore SourceNet SourceGen SourceApp Rust RustEval RustModule RustLink CodeRun GenRun`);
`RustFacts CodeTactics Code{Base,Avp,Encode,Attributes,Password,Hash,Packet,Net,Client,Server,Listen} OpensslFacts CodeAccessors CodeModules CodeApp CodeExample CodeExampleMain CodeTests CodeVectors CodeVectorsMd5 CodeVectorsSsl CodeE2e CodeRunner GenLex GenTree GenStep GenItems GenModule GenInline Utf8Text Gen{Templates,Attributes,Dict,Header,Parse,Lines,Main,Whole}`: the interpreter run on each function symbolically;
`*Spec`: specifications; `*Facts`, `RoundTrip`: lemmas; `Samples`: concrete data; `Prop*`: the theorems.

## 3. What is modelled and what is not

| source | model | simplifications |
|--------|-------|-----------------|
| `core/packet.rs` | `Packet.v`, `PacketOpenssl.v` (feature `openssl`), `Display.v` | RNG as a stream argument; `md5` crate = `Md5.v`; openssl hash = oracle that may fail |
| `core/attributes.rs`, `core/code.rs`, `core/tag.rs` | `Attributes.v`, `Code.v`, `Tag.v` | none |
| `core/avp.rs` | `Avp.v`, `AvpOpenssl.v` | `str` = byte list that is valid UTF-8 where it matters; `String::from_utf8` = `Utf8.v`; `DateTime<Utc>` = seconds and nanoseconds |
| `core/vsa.rs` | `Vsa.v` | trait object = sum of the two implementations |
| `core/rfc*.rs` (24 modules, 159 attributes) | `Rfc.v` (each function), `Accessors.v` (families) | `impl` details of iterators (`filter_map`, `collect`) as list functions |
| `Debug`/`Display` of packets, AVPs, codes, errors | `Display.v` | text built by `derive(Debug)` and `thiserror` |
| `server.rs`, `core/request.rs` | `Server.v`, `Addr.v` (`SocketAddr::to_string`) | see header of `Server.v`; HashSet = list without order |
| `client.rs` | `Client.v` | futures = completion time and result; `tokio::time::timeout` polls the inner future first |
| `examples/server.rs`, `examples/client.rs` | `ExampleApp.v` | argument parsing and logging omitted |
| `e2e-test/src/test.rs` | `E2eApp.v` (the handlers); `CodeRunner.v` (the text of `test_runner`) | `test_runner` is run from its text; the task in which its server runs is an answer of the environment (C83) |
| `#[test]` functions of `core/*.rs` | their text, run (`CodeTests.v`) | none |
| `code-generator/src/main.rs` | `CodeGen.v` (dictionaries and what is generated), `GenText.v` (the text, with all templates) | file names and I/O omitted; a `HashMap` of names = newest entry first |
| crate Inflector 0.11.4 (used by the generator) | `Inflect.v` | transcribed from the published crate, which is not in `/repo`; C69 compares every identifier with the committed files |
| `core/rfc*.rs` as text | `Sources.v` | `cargo fix`/`cargo fmt` (run by `make gen`) = equality of tokens up to imports and final commas |
| `dicts/` | `Dicts.v` | none |

Not modelled: allocation failure; tokio's scheduler beyond "any order" (so a blocking `fetch_secret`
that starves a single-threaded runtime is not visible); lock poisoning (nothing can panic while the
lock is held, as the model shows); the OS network stack; the quality of random numbers; log output;
wall-clock behaviour other than the client's timeouts; the `Makefile`,
`build` scripts and CI.

## 4. Properties

Status "refuted" means: false of the code as stated; counterexample, exact behaviour and partial version proved.

| id | model | proof |
|----|-------|-------|
| C01 | `packet_decode`, `attributes_decode` with explicit slices and loop index | equivalence with the wire grammar; loop invariant |
| C02 | same | the grammar mentions only the prefix |
| C03, C04 | `packet_encode`, `packet_decode` | list induction over attributes + header arithmetic; MD5 equation for hashed codes |
| C05, C06 | `packet_marshal_binary` with `as u16` truncation, both profiles | refuted from 65 516 attribute octets on (the size wraps); exact behaviour for all sizes |
| C07, C08 | `packet_encode` | against the RFC equation |
| C09-C12 | `packet_make_response_packet`, `packet_is_authentic_*` | case analysis against Spec, composition |
| C13, C14 | same | append cancellation; collision exhibited |
| C15-C21 | `avp_from_*`, `avp_encode_*` | arithmetic; UTF-8 validator against scalar values |
| C22-C25 | password functions with explicit chunk loops | recursive RFC chaining; xor involution; C23, C24 refuted by NULs, C25 refuted (the length check looks at the authenticator) |
| C26 | all decoders | each differs from Panic/OutOfFuel |
| C27 | container operations | induction over histories against an abstract map |
| C28-C30 | accessor families + table of all attributes | per family, lifted to the table; distinct numbers by computation over the table |
| C31 | API histories as reachability | invariant |
| C32 | `vsa_*` | arithmetic modulo 256 |
| C33 | `Debug` rendering | relational: two packets |
| C34 | `code_from` | enumeration of the finite type |
| C35-C42, C54, C55 | server state machine | inductive invariants, termination measure; C40 and C54 refuted |
| C43 | `SocketAddr` text | injectivity of the rendering (IPv4, IPv6 with `::` compression) |
| C44-C47 | client | case analysis; C47 refuted |
| C48, C49 | client + server + example handler | composition over all schedules; C49 refuted |
| C50 | both back ends | equality when the hash oracle succeeds |
| C51, C52 | dictionary parser and generator | computation over the committed dictionaries; induction over lines for all texts |
| C53 | errors and secrets | relational |
| C56, C63 | password functions against RFC 2868 / RFC 2865 peers | refuted, exact behaviour |
| C57 | constructors, getters, mutators | case analysis through the getters |
| C58, C60, C61 | server schedules | refuted by schedules, exact behaviour, partial versions from the invariants |
| C59 | `is_authentic_*` on padded datagrams | refuted; padding is part of the hashed text |
| C64, C65 | prefix functions, `add_x` of all attributes | refuted, exact conditions |
| C66 | accessors, `make_response_packet` | induction over the values |
| C67 | server with its receive buffer | refuted for packets above 1500 octets; C41 |
| C68 | server state machine | simulation between a schedule and its restriction to some clients |
| C69 | generator with templates, committed files as text | computation over all characters; refuted for rfc2865.rs |
| C70 | Inflector's functions | induction over names against a one-pass specification |
| C71 | generator with templates | symbolic tokenizer: templates with holes are tokenized once, sound for all words in the holes; induction over dictionaries |
| C72 | Inflector's functions | refuted for names that begin with a digit; exact condition |
| C73 | generator with templates | refuted (`Foo`, `All-Foo`); exact condition, committed files by computation |
| C74 | server loop | invariant of the loop; refuted for receive errors |
| C75 | the core's source text computes the model | parser and interpreter of Rust in Gallina; per function, symbolic execution of its text for all arguments (loops by induction); fuel bound explicit, hence termination. |
| C76 | the accessor modules' source text computes the model | the functions of each text are shown equal (by computation) to 18 families of syntax trees with name and type as parameters; each family is run symbolically for all packets and values (`lookup_all` and the concatenating `lookup` by induction over the attributes); a permutation check shows there are no other functions |
| C77 | the text of client.rs does what `Client.v` says | symbolic execution of `send_packet` for all answers; a simulation in both directions between answers without times and the moments of `Client.v`; the order of questions stated separately |
| C78 | the text of server.rs does what `Server.v` says | symbolic execution of `process_request` and `run` (loop by induction over the datagrams); an invariant over all schedules gives for each task the answers with which the text stands where it stands; for the converse a schedule is constructed for every run of the text |
| C79 | the text of main.rs writes what `GenText.v` says | symbolic execution of each function of main.rs for all arguments (loops by induction over lines, attributes, values, dictionaries); the events of the run are folded into the contents of files; UTF-8 of a concatenation and of the decimal numbers; C69 gives the corollary about the committed modules |
| C80 | the text of the examples | symbolic execution of `main` of both programs, of the handler and of the provider, with the run of the crate's text (C75-C78) for the functions they call; C48 and the round trip, size and authenticator theorems give the exchange |
| C81 | lexer, parser and interpreter on the generated text | the lexer is run on the templates with names and numbers unknown (`GenLex`), the parser on the tokens (`GenTree`, `GenStep`), items are put together by induction over the dictionary (`GenItems`, `GenModule`); with constants and type names put in (`GenInline`) the functions are the templates run for C76 |
| C82 | the text of the unit tests | the test modules are cut out of the source text, read and run as programs that use the crate (`CodeTests`); 21 tests are computed with random octets, answers and left-over fuel unknown (`PropTests`); the six others, which hide passwords, draw octets or read the clock, are run symbolically (`CodeTests`, `CodeVectors`, `CodeVectorsMd5`, `CodeVectorsSsl`). One test adds 1 to a random octet and fails for 255 in a debug build (`_refuted`), another reads the clock and fails from 2106 on |
| C83 | the text of the handlers of `e2e-test` | as C80; `test_runner` itself is run from its text too (`CodeRunner`, `PropRunner`): spawning the server, stopping it and waiting for its task are questions to the environment, and that the replies given to the clients are those which the text of the server and of the handlers sends is part of the theorem; which handler each of its two servers has is `C83_test_handlers` |
| C62 | generator + templates | for every dictionary the generator accepts |

## 5. Findings (places where the code does less than a user may expect)

1. The packet size is computed in `u16` and wraps: a packet of 65 556 octets is sent with Length 20 (release), or panics (debug) (C05, C06).
2. Password decoding cuts at the first NUL octet (C23, C24).
3. `from_tunnel_password` checks the length of the request authenticator instead of the password (C25).
4. `lookup_tunnel_password` on a reply uses the reply's own authenticator, so the client cannot read a Tunnel-Password (C49).
5. `from_ipv4_prefix` writes the number of octets (4) as the prefix length in bits; the prefix length of received prefixes is not returned (C20, C64).
6. A tagged string with `None` is read back only if its first octet is above 0x1f (C18).
7. `from_date` reduces timestamps modulo 2^32 (C21).
8. A panicking or dropped handler leaves its key in the in-flight set: that (address, identifier) is dead until restart (C40).
9. The client returns any decodable datagram: neither authenticator nor identifier is compared (C47).
10. The vendor-length octet wraps modulo 256 (C32).
11. Duplicate detection ignores the Request Authenticator (C58).
12. With `openssl`, `is_authentic_*` panics if the hash fails (C50).
13. The generator aborts on VALUEs above 65535, on unsupported combinations, and on `2# comment`; lines with leading white space are errors (C51, C52).
14. The authenticity checks hash the padding after Length although decoding ignores it (C59).
15. The in-flight key is removed after the handler returned, so a quick next request with the same identifier can be dropped (C54).
16. The example handler panics when User-Name or User-Password is missing or not UTF-8 (C48), with the consequence of 8.
17. Tunnel-Password has no RFC 2868 length octet in either direction (C56).
18. `encode_user_password` accepts incomplete blocks (C63).
19. Nothing is remembered after a reply: a later retransmission is handled again (C60).
20. Access-Request and Status-Server are accepted under any non-empty secret (C61).
21. `add_x` of strings, octets, tagged strings and Vendor-Specific does not check the length; `encode` fails later (C65).
22. The default receive buffer (1500 octets) cannot take all valid packets (C67).
23. `rfc2865.rs` says "DO NOT EDIT" but contains a hand-written function (`add_vsa_attribute`, lines 361-364);
    `make gen` removes it (C69).
24. Dictionary names that begin with a digit give illegal constants (C72).
25. Attributes `Foo` and `All-Foo` in one dictionary both define `lookup_all_foo` (C73).
26. The unit test `test_with_arbitrary_identifier` fails by chance, once in 256 runs of a debug build (C82).
26. The first error of `recv_from` ends `Server::run` (C74).

## 6. Checking

`cd rocq && coq_makefile -f _CoqProject -o Makefile && make -j4`. `tools/addpa.py` appends
`Print Assumptions` lines, `tools/manifest.py` regenerates `MANIFEST.json` from theorem names and
`tools/notes.py`.

Wrong-program experiments (`seeded/LOG.jsonl`): one definition of the model is edited in a copy, everything
that depends on it is recompiled; a lemma that fails is admitted in the copy so that later files can be
compiled, and a theorem counts as failed if it does not compile or rests on an admitted lemma.
