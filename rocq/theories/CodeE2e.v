(** * The text of the handlers of the end-to-end test, run *)
From Coq Require Import String List NArith ZArith Bool Arith Strings.Byte Strings.Ascii Lia ZifyBool ZifyNat ZifyN.
From Verif Require Import Prelude PreludeFacts Md5 Utf8 Utf8Facts Tag Code Avp AvpFacts Attributes Vsa Packet Addr Display Accessors Rfc Server Client ExampleApp E2eApp
  Rust RustEval RustModule RustLink CodeApp CodeExample Sources SourceApp CodeRun CodeHash RustFacts CodeTactics CodeBase CodeAttributes CodePacket CodeNet CodeClient CodeServer CodeListen CodeAccessors CodeModules PropModules.
Import ListNotations.
Local Open Scope string_scope.
Local Open Scope N_scope.
Local Open Scope list_scope.

Definition e2e_objects : list (string * string) :=
  [("MyRequestHandler", "handler"); ("LongTimeTakingHandler", "handler"); ("MySecretProvider", "provider")].
(** computed once *)
Definition e2e_own : RustEval.program := Eval vm_compute in program_from [source_e2e_test] Md5Crate.
Lemma e2e_own_ok f : e2e_own = program_from [source_e2e_test] f. Proof. destruct f; vm_compute; reflexivity. Qed.

Section E2e.
Context (pr : profile) (rng : nat -> byte) (he : bytes -> option string)
        (ans : list event -> string -> list value -> option value).
Notation C f := (Cx pr (crate_program f) rng he ans).
Notation E f := (Link (C f) used_modules e2e_own e2e_objects).

(** test.rs:18-41 *)
Lemma run_e2e_handler f n req s k tr : hashes he f -> (5 <= n)%nat ->
  (forall reply, ans tr "conn.send_to" [VBytes reply; v_addr (rq_remote_addr req)] = sent_reply (s reply)) ->
  linked (E f) n "MyRequestHandler" "handle_radius_request" (handler_args "MyRequestHandler" req) (World k tr)
  = text_handler (e2e_reply pr req) s (handler_args "MyRequestHandler" req) k tr.
Proof.
  intros Hh Hn Ha.
  pose proof (fun m w => linked_get_packet pr rng he ans e2e_own e2e_objects f m req w eq_refl) as G1.
  pose proof (fun m w => linked_get_remote_addr pr rng he ans e2e_own e2e_objects f m req w eq_refl) as G2.
  destruct req as [lo re p]; unfold e2e_reply; cbn [rq_packet rq_remote_addr rq_local_addr] in *.
  pose proof (fun m w => linked_lookup_user_name pr rng he ans e2e_own e2e_objects f m p w eq_refl Hh) as G3.
  pose proof (fun m w => linked_lookup_user_password pr rng he ans e2e_own e2e_objects f m p w eq_refl Hh) as G4.
  assert (R1 : match rfc2865_lookup_user_name p with Some Panic | Some OutOfFuel => False | _ => True end).
  { unfold rfc2865_lookup_user_name, option_map. destruct (packet_lookup _ _) as [a|]; [|exact I].
    unfold avp_encode_string. destruct (string_from_utf8_cases (avp_value a)) as [[S ->]|[S [e ->]]]; exact I. }
  assert (R2 : match rfc2865_lookup_user_password p with Some Panic | Some OutOfFuel => False | _ => True end).
  { unfold rfc2865_lookup_user_password, option_map. destruct (packet_lookup _ _) as [a|]; [|exact I].
    destruct (user_password_returns a (packet_get_secret p) (packet_get_authenticator p)) as [[v ->]|[e ->]]; exact I. }
  pose proof (fun m w => linked_make_response_packet pr rng he ans e2e_own e2e_objects f m p AccessAccept w eq_refl) as G5.
  pose proof (fun m w => linked_make_response_packet pr rng he ans e2e_own e2e_objects f m p AccessReject w eq_refl) as G6.
  unfold looked, handler_args, v_request in *; cbn [rq_packet rq_remote_addr rq_local_addr v_out bare] in *.
  revert G3 G4 R1 R2; generalize (rfc2865_lookup_user_name p) as r1; generalize (rfc2865_lookup_user_password p) as r2; intros r2 r1 G3 G4 R1 R2.
  unfold bind, unwrap_option, unwrap_result, string_from_utf8.
  destruct r1 as [[user|e| |]|]; try (destruct R1; fail).
  1: pose proof (fun m w => linked_add_user_name pr rng he ans e2e_own e2e_objects f m (packet_make_response_packet p AccessAccept) user w eq_refl Hh) as G7;
     pose proof (fun m w => linked_add_user_name pr rng he ans e2e_own e2e_objects f m (packet_make_response_packet p AccessReject) user w eq_refl Hh) as G8;
     pose proof (fun m w => linked_encode pr rng he ans e2e_own e2e_objects f m (rfc2865_add_user_name (packet_make_response_packet p AccessAccept) user) w eq_refl Hh) as G9;
     pose proof (fun m w => linked_encode pr rng he ans e2e_own e2e_objects f m (rfc2865_add_user_name (packet_make_response_packet p AccessReject) user) w eq_refl Hh) as G10;
     fields (rfc2865_add_user_name (packet_make_response_packet p AccessAccept) user); fields (rfc2865_add_user_name (packet_make_response_packet p AccessReject) user);
     unfold v_str in *.
  all: fields p; fields (packet_make_response_packet p AccessAccept); fields (packet_make_response_packet p AccessReject).
  all: change (v_code AccessAccept) with (VCtor "Code" "AccessAccept" []) in *; change (v_code AccessReject) with (VCtor "Code" "AccessReject" []) in *.
  all: match goal with G : context [VStruct "Request" ?l] |- _ => revert G1 G2; generalize l as rf; intros rf G1 G2 end.
  all: linked_start; app_steps; app_done.
Qed.
(** test.rs:47-59 *)
Definition thirty : value := v_duration 30.
Lemma run_slow_handler f n req s k tr : hashes he f -> (5 <= n)%nat ->
  ans tr "sleep" [thirty] = Some VUnit ->
  (forall reply, ans (Event "sleep" [thirty] (Some VUnit) :: tr) "conn.send_to" [VBytes reply; v_addr (rq_remote_addr req)] = sent_reply (s reply)) ->
  linked (E f) n "LongTimeTakingHandler" "handle_radius_request" (handler_args "LongTimeTakingHandler" req) (World k tr)
  = text_handler (slow_reply pr req) s (handler_args "LongTimeTakingHandler" req) k (Event "sleep" [thirty] (Some VUnit) :: tr).
Proof.
  intros Hh Hn Hs Ha.
  pose proof (fun m w => linked_get_packet pr rng he ans e2e_own e2e_objects f m req w eq_refl) as G1.
  pose proof (fun m w => linked_get_remote_addr pr rng he ans e2e_own e2e_objects f m req w eq_refl) as G2.
  destruct req as [lo re p]; unfold slow_reply; cbn [rq_packet rq_remote_addr rq_local_addr] in *.
  pose proof (fun m w => linked_make_response_packet pr rng he ans e2e_own e2e_objects f m p AccessReject w eq_refl) as G3.
  pose proof (fun m w => linked_encode pr rng he ans e2e_own e2e_objects f m (packet_make_response_packet p AccessReject) w eq_refl Hh) as G4.
  unfold handler_args, v_request, thirty, v_duration in *; cbn [rq_packet rq_remote_addr rq_local_addr] in *.
  fields p; fields (packet_make_response_packet p AccessReject); change (v_code AccessReject) with (VCtor "Code" "AccessReject" []) in *.
  unfold bind, unwrap_result.
  match goal with G : context [VStruct "Request" ?l] |- _ => revert G1 G2; generalize l as rf; intros rf G1 G2 end.
  linked_start; app_steps; app_done.
Qed.
(** while it sleeps it sends nothing *)
Lemma run_slow_handler_asleep f n req k tr : (5 <= n)%nat -> ans tr "sleep" [thirty] = None ->
  linked (E f) n "LongTimeTakingHandler" "handle_radius_request" (handler_args "LongTimeTakingHandler" req) (World k tr)
  = RWait (World k (Event "sleep" [thirty] None :: tr)).
Proof.
  intros Hn Hs. unfold handler_args, thirty, v_duration in *. generalize dependent (v_request req); intro r.
  linked_start; app_steps; reflexivity.
Qed.
(** test.rs:65-68 *)
Lemma run_e2e_provider f n a w : (1 <= n)%nat ->
  linked (E f) n "MySecretProvider" "fetch_secret" [VStruct "MySecretProvider" []; v_addr a] w
  = RVal (vok (v_bytes (bytes_of_string "secret"))) [VStruct "MySecretProvider" []; v_addr a] w.
Proof. linked_start; app_steps; reflexivity. Qed.
End E2e.
