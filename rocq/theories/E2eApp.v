(** * e2e-test/src/test.rs: the handlers of the end-to-end test

    [tests::test_runner] itself (test.rs:70-163) has no function here: it is run from its text, in CodeRunner.v. *)
From Coq Require Import String List NArith Bool Strings.Byte.
From Verif Require Import Prelude Utf8 Code Avp Packet Rfc Addr Server ExampleApp.
Import ListNotations.
Local Open Scope N_scope.

(** test.rs:18-41, [MyRequestHandler]: the datagram given to [send_to] and its destination, or a panic *)
Definition e2e_reply (pr : profile) (req : request) : res unit (bytes * socket_addr) :=
  let req_packet := rq_packet req in
  let maybe_user_name_attr := rfc2865_lookup_user_name req_packet in
  let maybe_user_password_attr := rfc2865_lookup_user_password req_packet in
  do a <- unwrap_option maybe_user_name_attr;
  do user_name <- unwrap_result a;
  do b <- unwrap_option maybe_user_password_attr;
  do c <- unwrap_result b;
  do user_password <- unwrap_result (string_from_utf8 c);
  let code :=
    if bytes_eqb user_name (bytes_of_string "admin")
       && bytes_eqb user_password (bytes_of_string "p@ssw0rd")
    then AccessAccept else AccessReject in
  let resp_packet := rfc2865_add_user_name (packet_make_response_packet req_packet code) user_name in
  do datagram <- unwrap_result (packet_encode pr resp_packet);
  Ok (datagram, rq_remote_addr req).

(** test.rs:47-59, [LongTimeTakingHandler], once it has slept *)
Definition slow_reply (pr : profile) (req : request) : res unit (bytes * socket_addr) :=
  do datagram <- unwrap_result (packet_encode pr (packet_make_response_packet (rq_packet req) AccessReject));
  Ok (datagram, rq_remote_addr req).
