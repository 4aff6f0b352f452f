(** * examples/server.rs and examples/client.rs

    The shared secret, the user name and the password, literals in the Rust text, are parameters
    here; [main], logging and signal handling are not modelled. *)
From Coq Require Import String List NArith Bool Strings.Byte.
From Verif Require Import Prelude Utf8 Code Avp Packet Rfc Addr Server.
Import ListNotations.
Local Open Scope N_scope.

(** [Option::unwrap], [Result::unwrap] *)
Definition unwrap_option {A} (o : option A) : res unit A :=
  match o with Some a => Ok a | None => Panic end.
Definition unwrap_result {E A} (r : res E A) : res unit A :=
  match r with Ok a => Ok a | Err _ => Panic | Panic => Panic | OutOfFuel => OutOfFuel end.

(** examples/server.rs:45-67: the datagram given to [send_to] and its destination, or a panic *)
Definition example_reply (pr : profile) (req : request) : res unit (bytes * socket_addr) :=
  let req_packet := rq_packet req in
  let maybe_user_name_attr := rfc2865_lookup_user_name req_packet in
  let maybe_user_password_attr := rfc2865_lookup_user_password req_packet in
  do a <- unwrap_option maybe_user_name_attr;
  do user_name <- unwrap_result a;
  do b <- unwrap_option maybe_user_password_attr;
  do c <- unwrap_result b;
  do user_password <- unwrap_result (string_from_utf8 c);
  let code :=
    if bytes_eqb user_name (bytes_of_string "admin")
       && bytes_eqb user_password (bytes_of_string "p@ssw0rd")
    then AccessAccept else AccessReject in
  do datagram <- unwrap_result (packet_encode pr (packet_make_response_packet req_packet code));
  Ok (datagram, rq_remote_addr req).

(** examples/server.rs:63-69: how the call of the handler ends, given what [send_to] returns *)
Definition example_handler (pr : profile) (req : request) (sent : bool) : handler_outcome :=
  match example_reply pr req with
  | Ok _ => if sent then HOk else HErr
  | _ => HPanic
  end.

(** examples/client.rs:17-19 *)
Definition example_request (rng : nat -> byte) (secret user_name user_password : bytes)
  : res unit packet :=
  let req_packet := packet_new rng AccessRequest secret in
  let req_packet := rfc2865_add_user_name req_packet user_name in
  let '(req_packet, r) := rfc2865_add_user_password req_packet user_password in
  do _ <- unwrap_result r;
  Ok req_packet.
