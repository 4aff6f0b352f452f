(** * The text of the examples, run *)
From Coq Require Import String List NArith ZArith Bool Arith Strings.Byte Strings.Ascii Lia ZifyBool ZifyNat ZifyN.
From Verif Require Import Prelude PreludeFacts Md5 Utf8 Utf8Facts Tag Code Avp AvpFacts Attributes Vsa Packet Addr Display Accessors Rfc Server Client ExampleApp
  Rust RustEval RustModule RustLink CodeApp Sources SourceApp CodeRun CodeHash RustFacts CodeTactics CodeBase CodeAttributes CodePacket CodeNet CodeClient CodeServer CodeListen CodeAccessors CodeModules PropModules.
Import ListNotations.
Local Open Scope string_scope.
Local Open Scope N_scope.
Local Open Scope list_scope.

(** a handler that has sent a reply (examples/server.rs 60-68) *)
Definition text_sent (reply : bytes) (to : socket_addr) (s : option (value + value)) (ps : list value) k tr : rout :=
  let w := World k (Event "conn.send_to" [VBytes reply; v_addr to] (sent_reply s) :: tr) in
  match s with
  | Some (inl _) => RVal (vok VUnit) ps w
  | Some (inr e) => RVal (verr e) ps w
  | None => RWait w
  end.
(** [handle_radius_request] (examples/server.rs 45-69), in terms of the model's [example_reply] *)
Definition text_handler (r : res unit (bytes * socket_addr)) (s : bytes -> option (value + value)) (ps : list value) k tr : rout :=
  match r with
  | Ok (reply, to) => text_sent reply to (s reply) ps k tr
  | Err _ | Panic => RPanic
  | OutOfFuel => RNoFuel
  end.
Definition handler_args (t : string) (req : request) : list value := [VStruct t []; VExt "conn"; v_request req].
(** a finished run compared with the model *)
Ltac app_done :=
  try match goal with H : False |- _ => destruct H end;
  cbn [text_handler text_sent]; try reflexivity; try no_utf8_panic;
  unfold map_err; cbn [andb];
  repeat (match goal with H : ?x = _ |- context [?x] => rewrite H end; cbv beta iota);
  unfold text_handler, text_sent;
  repeat (match goal with H : ?x = _ |- context [?x] => rewrite H end; cbv beta iota);
  reflexivity.
(** a packet as a whole during a run *)
Definition packet_fields (p : packet) : list (string * value) :=
  match v_packet p with VStruct _ l => l | _ => [] end.
Ltac fields p := change (v_packet p) with (VStruct "Packet" (packet_fields p)) in *.
Section Apps.
Context (pr : profile) (rng : nat -> byte) (he : bytes -> option string)
        (ans : list event -> string -> list value -> option value).
Notation C f := (Cx pr (crate_program f) rng he ans).
Notation server f := (Link (C f) used_modules server_own server_objects).
Notation client f := (Link (C f) used_modules client_own []).

(** the handler of the example server, as the model says *)
Lemma run_example_handler f n req s k tr : hashes he f -> (5 <= n)%nat ->
  (forall reply, ans tr "conn.send_to" [VBytes reply; v_addr (rq_remote_addr req)] = sent_reply (s reply)) ->
  linked (server f) n "MyRequestHandler" "handle_radius_request" (handler_args "MyRequestHandler" req) (World k tr)
  = text_handler (example_reply pr req) s (handler_args "MyRequestHandler" req) k tr.
Proof.
  intros Hh Hn Ha.
  pose proof (fun m w => linked_get_packet pr rng he ans server_own server_objects f m req w eq_refl) as G1.
  pose proof (fun m w => linked_get_remote_addr pr rng he ans server_own server_objects f m req w eq_refl) as G2.
  destruct req as [lo re p]; unfold example_reply; cbn [rq_packet rq_remote_addr rq_local_addr] in *.
  pose proof (fun m w => linked_lookup_user_name pr rng he ans server_own server_objects f m p w eq_refl Hh) as G3.
  pose proof (fun m w => linked_lookup_user_password pr rng he ans server_own server_objects f m p w eq_refl Hh) as G4.
  pose proof (fun m w => linked_make_response_packet pr rng he ans server_own server_objects f m p AccessAccept w eq_refl) as G5.
  pose proof (fun m w => linked_make_response_packet pr rng he ans server_own server_objects f m p AccessReject w eq_refl) as G6.
  pose proof (fun m w => linked_encode pr rng he ans server_own server_objects f m (packet_make_response_packet p AccessAccept) w eq_refl Hh) as G7.
  pose proof (fun m w => linked_encode pr rng he ans server_own server_objects f m (packet_make_response_packet p AccessReject) w eq_refl Hh) as G8.
  assert (R1 : match rfc2865_lookup_user_name p with Some Panic | Some OutOfFuel => False | _ => True end).
  { unfold rfc2865_lookup_user_name, option_map. destruct (packet_lookup _ _) as [a|]; [|exact I].
    unfold avp_encode_string. destruct (string_from_utf8_cases (avp_value a)) as [[S ->]|[S [e ->]]]; exact I. }
  assert (R2 : match rfc2865_lookup_user_password p with Some Panic | Some OutOfFuel => False | _ => True end).
  { unfold rfc2865_lookup_user_password, option_map. destruct (packet_lookup _ _) as [a|]; [|exact I].
    destruct (user_password_returns a (packet_get_secret p) (packet_get_authenticator p)) as [[v ->]|[e ->]]; exact I. }
  unfold looked, handler_args, v_request in *; cbn [rq_packet rq_remote_addr rq_local_addr v_out bare] in *.
  revert G3 G4 R1 R2; generalize (rfc2865_lookup_user_name p) as r1; generalize (rfc2865_lookup_user_password p) as r2; intros r2 r1 G3 G4 R1 R2.
  fields p; fields (packet_make_response_packet p AccessAccept); fields (packet_make_response_packet p AccessReject).
  change (v_code AccessAccept) with (VCtor "Code" "AccessAccept" []) in *; change (v_code AccessReject) with (VCtor "Code" "AccessReject" []) in *.
  unfold bind, unwrap_option, unwrap_result, string_from_utf8.
  match goal with G : context [VStruct "Request" ?l] |- _ => revert G1 G2; generalize l as rf; intros rf G1 G2 end.
  linked_start; app_steps; app_done.
Qed.
(** examples/server.rs:72-79 *)
Lemma run_example_provider f n a w : (1 <= n)%nat ->
  linked (server f) n "MySecretProvider" "fetch_secret" [VStruct "MySecretProvider" []; v_addr a] w
  = RVal (vok (v_bytes (bytes_of_string "secret"))) [VStruct "MySecretProvider" []; v_addr a] w.
Proof. linked_start; app_steps; reflexivity. Qed.
End Apps.

(** ** examples/client.rs *)
Definition local_1812 : socket_addr := SockV4 (Ipv4 x7f x00 x00 x01) 1812.
Definition client_timeouts : client := Client (Some 3) (Some 5).
(** [main] does nothing with what [send_packet] returns but log it *)
Definition and_log (o : rout) : rout := match o with RVal _ _ w => RVal VUnit [] w | _ => o end.
(** examples/client.rs 11-23 *)
Definition text_client_main (pr : profile) (rng : nat -> byte) (r : replies) k tr : rout :=
  match example_request (fun i => rng (i + k)%nat) (bytes_of_string "secret") (bytes_of_string "admin") (bytes_of_string "p@ssw0rd") with
  | Ok req => and_log (text_send_packet pr client_timeouts local_1812 req r [] (17 + k) tr)
  | Err _ | Panic => RPanic
  | OutOfFuel => RNoFuel
  end.
(** only the parameters a call gives back depend on what they are called with *)
Definition same_but (ps : list value) (o o' : rout) : Prop :=
  match o with RVal v l w => l = ps /\ o' = RVal v [] w | RStuck => False | _ => o' = o end.
Lemma text_send_packet_same pr cl remote req r ps k tr :
  same_but ps (text_send_packet pr cl remote req r ps k tr) (text_send_packet pr cl remote req r [] k tr).
Proof.
  unfold text_send_packet, text_connect, text_send, text_recv, waiting, v_result.
  repeat match goal with |- context [match ?x with _ => _ end] => destruct x end; cbn [same_but]; auto.
Qed.
Section Client.
Context (pr : profile) (rng : nat -> byte) (he : bytes -> option string) (r : replies).
Notation C f := (Cx pr (crate_program f) rng he (replies_of r)).
Notation client f := (Link (C f) used_modules client_own []).
Lemma linked_client_new f n a b w : (1 <= n)%nat ->
  linked (client f) n "Client" "new" [vsome (v_duration a); vsome (v_duration b)] w
  = RVal (v_client (Client (Some a) (Some b))) [vsome (v_duration a); vsome (v_duration b)] w.
Proof.
  intros; destruct f; (erewrite linked_crate by (vm_compute; reflexivity));
  now apply (run_client_new pr rng he (replies_of r) _ n (Some a) (Some b)).
Qed.
Lemma linked_send_packet f n cl remote req k tr : hashes he f -> (N.to_nat MAX_DATAGRAM_SIZE + 5 <= n)%nat ->
  linked (client f) n "Client" "send_packet" [v_client cl; v_addr remote; v_packet req] (World k tr)
  = text_send_packet pr cl remote req r [v_client cl; v_addr remote; v_packet req] k tr.
Proof.
  intros; destruct f; (erewrite linked_crate by (vm_compute; reflexivity));
  now apply run_client_send_packet.
Qed.
Lemma run_example_client f n k tr : hashes he f -> (N.to_nat MAX_DATAGRAM_SIZE + 6 <= n)%nat ->
  linked (client f) n "" "main" [] (World k tr) = text_client_main pr rng r k tr.
Proof.
  intros Hh Hn. unfold text_client_main, example_request, bind, unwrap_result.
  assert (Hn1 : (6 <= n)%nat) by (revert Hn; generalize (N.to_nat MAX_DATAGRAM_SIZE); lia).
  pose proof (fun m => linked_packet_new pr rng he (replies_of r) client_own [] f m AccessRequest (bytes_of_string "secret") (World k tr) eq_refl) as G1.
  unfold drawn in G1; cbn [w_random w_trace] in G1.
  revert G1; generalize (packet_new (fun i => rng (i + k)%nat) AccessRequest (bytes_of_string "secret")) as p0.
  generalize (17 + k)%nat as k'. intros k' p0 G1.
  pose proof (fun m w => linked_add_user_name pr rng he (replies_of r) client_own [] f m p0 (bytes_of_string "admin") w eq_refl Hh) as G2.
  revert G2; generalize (rfc2865_add_user_name p0 (bytes_of_string "admin")) as p1; intros p1 G2.
  pose proof (fun m w => linked_add_user_password pr rng he (replies_of r) client_own [] f m p1 (bytes_of_string "p@ssw0rd") w eq_refl Hh) as G3.
  revert G3; destruct (rfc2865_add_user_password p1 (bytes_of_string "p@ssw0rd")) as [q x]; intro G3.
  unfold added, fallible, fst, snd in G3. cbv beta iota.
  pose proof (fun m w => linked_client_new f m 3 5 w) as G4.
  pose proof (fun m => linked_send_packet f m client_timeouts local_1812 q k' tr Hh) as G5.
  change (v_addr local_1812) with (VAddr true (bytes_of_string "127.0.0.1:1812")) in G5.
  unfold client_timeouts, v_client, v_option, v_duration, connection_timeout, socket_timeout in *.
  match type of G5 with forall m, _ -> _ = text_send_packet _ _ _ _ _ ?ps _ _ =>
    generalize (text_send_packet_same pr client_timeouts local_1812 q r ps k' tr) end.
  unfold client_timeouts.
  match type of G5 with forall m, _ -> _ = ?oo => revert G5; generalize oo as o end.
  intros o G5 So.
  fields p0; fields p1; fields q.
  change (v_code AccessRequest) with (VCtor "Code" "AccessRequest" []) in *.
  unfold v_str, v_bytes, vsome in *.
  remember (N.to_nat MAX_DATAGRAM_SIZE) as mx eqn:Emx; clear Emx.
  destruct x; [destruct o; cbn [same_but] in So; [destruct So as [-> So]| | |destruct So|]; cbv beta iota; rewrite So|..];
    linked_start; app_steps; reflexivity.
Qed.
End Client.

