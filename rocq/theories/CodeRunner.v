(** * The text of the end-to-end test itself, run: e2e-test/src/test.rs:70-163 *)
From Coq Require Import String List NArith ZArith Bool Arith Strings.Byte Strings.Ascii Lia ZifyBool ZifyNat ZifyN.
From Verif Require Import Prelude PreludeFacts Md5 Utf8 Utf8Facts Tag Code Avp AvpFacts Attributes Vsa Packet Addr Display Accessors Rfc Server Client ExampleApp E2eApp
  Rust RustEval RustModule RustLink CodeApp CodeExample CodeTests CodeE2e Sources SourceApp CodeRun CodeHash RustFacts CodeTactics CodeBase CodeAttributes CodePacket CodeNet CodeClient CodeServer CodeListen CodeAccessors CodeModules PropModules.
Import ListNotations.
Local Open Scope string_scope.
Local Open Scope N_scope.
Local Open Scope list_scope.

(** the file and its module of tests *)
Definition joined (a b : RustEval.program) : RustEval.program :=
  Program (pg_fns a ++ pg_fns b) (pg_structs a ++ pg_structs b) (pg_enums a ++ pg_enums b) (pg_texts a ++ pg_texts b) (pg_types a ++ pg_types b).
Definition with_tests (lines : list string) (f : feature) : RustEval.program := joined (program_from [lines] f) (tests_in "tests" lines f).
(** computed once *)
Definition runner_own : RustEval.program := Eval vm_compute in with_tests source_e2e_test Md5Crate.
Lemma runner_own_ok f : runner_own = with_tests source_e2e_test f. Proof. destruct f; vm_compute; reflexivity. Qed.

(** ** The environment of the test *)
(** how many sockets were bound by a client: a server is given a text, a client an address *)
Definition client_bind (e : event) : bool :=
  if String.eqb (ev_op e) "UdpSocket::bind" then match ev_args e with [VAddr _ _] => true | _ => false end else false.
Definition round (tr : list event) : nat := length (filter client_bind tr).
Lemma round_after tr0 tr : after tr0 tr -> round tr = S (round tr0).
Proof.
  intro A. induction A as [v4 a x|op a x tr E A IH]; [reflexivity|].
  unfold round in *. cbn [filter]. unfold client_bind at 1. cbn [ev_op]. now rewrite E.
Qed.
(** the datagram was sent and this came back; or nothing came back before the deadline *)
Definition answer (n : N) (reply : bytes) : replies := Replies (Some (IoOk tt)) (Some (IoOk tt)) (Some (IoOk n)) (Some (IoOk reply)) false.
Definition silence (n : N) : replies := Replies (Some (IoOk tt)) (Some (IoOk tt)) (Some (IoOk n)) None true.
(** what happens in the test, latest first *)
Definition started (tr : list event) : list event :=
  Event "spawn Server::run" [v_server false 1500; VExt "receiver"] (Some VUnit)
  :: Event "UdpSocket::bind" [v_text "0.0.0.0:1812"] (Some (vok (VExt "conn"))) :: tr.
Definition sent (r : replies) (data : bytes) (tr : list event) : list event :=
  Event "conn.recv" [] (recv_reply r) :: Event "conn.send" [VBytes data] (send_reply r)
  :: Event "conn.connect" [v_addr local_1812] (connect_reply r) :: Event "UdpSocket::bind" [v_addr (local_for local_1812)] (bind_reply r) :: tr.
Definition deadline (tr : list event) : list event := Event "timeout" [v_duration 0] (Some VUnit) :: tr.
Definition ended (tr : list event) : list event :=
  Event "task.unwrap" [] (Some VUnit) :: Event "sender.send" [VUnit] (Some (vok VUnit)) :: tr.
Lemma round_started tr : round (started tr) = round tr. Proof. reflexivity. Qed.
Lemma round_sent r data tr : round (sent r data tr) = S (round tr). Proof. reflexivity. Qed.
Lemma round_ended tr : round (ended tr) = round tr. Proof. reflexivity. Qed.

Section Runner.
Context (pr : profile) (rng : nat -> byte) (he : bytes -> option string) (objs : list (string * string)) (rs : nat -> replies)
        (ans : list event -> string -> list value -> option value)
        (HL : forall tr x, ans tr "UdpSocket::bind" [VStr x] = Some (vok (VExt "conn")))
        (HB : forall tr v4 a, ans tr "UdpSocket::bind" [VAddr v4 a] = bind_reply (rs (round tr)))
        (HO : forall tr op args, mem op ["conn.connect"; "conn.send"; "conn.recv"; "timeout"] = true ->
                ans tr op args = replies_of (rs (pred (round tr))) [] op args)
        (HS : forall tr args, ans tr "sender.send" args = Some (vok VUnit))
        (HT : forall tr args, ans tr "task.unwrap" args = Some VUnit)
        (HP : assoc "MySecretProvider" objs = Some "provider").
Notation C f := (Cx pr (crate_program f) rng he ans).
Notation R f := (Link (C f) used_modules runner_own objs).
Ltac crate := intros; match goal with f : feature |- _ => destruct f end;
  (erewrite linked_crate by (eassumption || (vm_compute; reflexivity))).

Lemma linked_listening f n h k tr : assoc h objs = Some "handler" -> (2 <= n)%nat ->
  linked (R f) n "Server" "listen" [VStr (bytes_of_string "0.0.0.0"); VInt Lit 1812; VStruct h []; VStruct "MySecretProvider" []] (World k tr)
  = RVal (vok (v_server false 1500)) [v_text "0.0.0.0"; VInt U16 1812; VExt "handler"; VExt "provider"]
      (World k (Event "UdpSocket::bind" [v_text "0.0.0.0:1812"] (Some (vok (VExt "conn"))) :: tr)).
Proof.
  intros Hh Hn.
  assert (Eh : export objs (VStruct h []) = VExt "handler") by (unfold export; now rewrite Hh).
  assert (Ep : export objs (VStruct "MySecretProvider" []) = VExt "provider") by (unfold export; now rewrite HP).
  destruct f; (erewrite linked_crate by (vm_compute; reflexivity)); cbn [map lk_objects lk_crate]; rewrite Eh, Ep.
  all: erewrite (run_args _ n "Server" "listen" _ [v_text "0.0.0.0"; VInt U16 1812; VExt "handler"; VExt "provider"]) by (vm_compute; reflexivity).
  all: exact (run_listen pr rng he ans _ n "0.0.0.0" 1812 (Some (IoOk tt)) k tr Hn (HL tr _)).
Qed.
Lemma linked_client_none f n w : (1 <= n)%nat ->
  linked (R f) n "Client" "new" [vnone; vnone] w = RVal (v_client (Client None None)) [vnone; vnone] w.
Proof. crate; now apply (run_client_new pr rng he ans _ n None None). Qed.
Lemma linked_client_timeout f n d w : (1 <= n)%nat ->
  linked (R f) n "Client" "new" [vnone; vsome (v_duration d)] w = RVal (v_client (Client None (Some d))) [vnone; vsome (v_duration d)] w.
Proof. crate; now apply (run_client_new pr rng he ans _ n None (Some d)). Qed.
Lemma linked_get_code f n p w : (1 <= n)%nat ->
  linked (R f) n "Packet" "get_code" [v_packet p] w = RVal (v_code (p_code p)) [v_packet p] w.
Proof. crate; now apply run_packet_get_code. Qed.
Lemma linked_round f n cl req k tr : hashes he f -> (N.to_nat MAX_DATAGRAM_SIZE + 5 <= n)%nat ->
  linked (R f) n "Client" "send_packet" [v_client cl; v_addr local_1812; v_packet req] (World k tr)
  = text_send_packet pr cl local_1812 req (rs (round tr)) [v_client cl; v_addr local_1812; v_packet req] k tr.
Proof.
  intros Hh Hn; destruct f; (erewrite linked_crate by (vm_compute; reflexivity)).
  all: apply (run_send_packet_after pr rng he (rs (round tr)) ans tr); try assumption.
  all: try (intros; apply HB).
  all: intros tr' op args A M; rewrite (HO tr' op args M), (round_after _ _ A); reflexivity.
Qed.
Lemma linked_answered f n req k tr m data reply p : hashes he f -> (N.to_nat MAX_DATAGRAM_SIZE + 5 <= n)%nat ->
  rs (round tr) = answer m reply -> packet_encode pr req = Ok data -> Client.finish req (firstn (N.to_nat MAX_DATAGRAM_SIZE) reply) = Ok p ->
  linked (R f) n "Client" "send_packet" [v_client (Client None None); v_addr local_1812; v_packet req] (World k tr)
  = RVal (vok (v_packet p)) [v_client (Client None None); v_addr local_1812; v_packet req] (World k (sent (answer m reply) data tr)).
Proof.
  intros Hh Hn Hr He Hf. rewrite linked_round by assumption. rewrite Hr.
  unfold text_send_packet, text_connect, text_send, text_recv. cbn [answer r_bind r_connect r_send r_recv]. now rewrite He, Hf.
Qed.
Lemma linked_unanswered f n req k tr m data : hashes he f -> (N.to_nat MAX_DATAGRAM_SIZE + 5 <= n)%nat ->
  rs (round tr) = silence m -> packet_encode pr req = Ok data ->
  linked (R f) n "Client" "send_packet" [v_client (Client None (Some 0)); v_addr local_1812; v_packet req] (World k tr)
  = RVal (verr (v_client_error SocketTimeoutError)) [v_client (Client None (Some 0)); v_addr local_1812; v_packet req]
      (World k (deadline (sent (silence m) data tr))).
Proof.
  intros Hh Hn Hr He. rewrite linked_round by assumption. rewrite Hr.
  unfold text_send_packet, text_connect, text_send, text_recv, waiting. cbn [silence r_bind r_connect r_send r_recv r_deadline socket_timeout]. now rewrite He.
Qed.

(** test.rs:90-124 *)
Lemma run_test_access_request f n k tr req1 req2 data1 data2 m1 m2 reply1 reply2 p1 p2 :
  assoc "MyRequestHandler" objs = Some "handler" ->
  hashes he f -> (N.to_nat MAX_DATAGRAM_SIZE + 6 <= n)%nat ->
  example_request (fun i => rng (i + k)%nat) (bytes_of_string "secret") (bytes_of_string "admin") (bytes_of_string "p@ssw0rd") = Ok req1 ->
  example_request (fun i => rng (i + (17 + k))%nat) (bytes_of_string "secret") (bytes_of_string "admin") (bytes_of_string "INVALID-PASS") = Ok req2 ->
  rs (round tr) = answer m1 reply1 -> rs (S (round tr)) = answer m2 reply2 ->
  packet_encode pr req1 = Ok data1 -> packet_encode pr req2 = Ok data2 ->
  Client.finish req1 (firstn (N.to_nat MAX_DATAGRAM_SIZE) reply1) = Ok p1 -> Client.finish req2 (firstn (N.to_nat MAX_DATAGRAM_SIZE) reply2) = Ok p2 ->
  p_code p1 = AccessAccept -> rfc2865_lookup_user_name p1 = Some (Ok (bytes_of_string "admin")) -> rfc2865_lookup_user_password p1 = None ->
  p_code p2 = AccessReject ->
  linked (R f) n "" "test_access_request" [] (World k tr)
  = RVal VUnit [] (World (17 + (17 + k)) (ended (sent (answer m2 reply2) data2 (sent (answer m1 reply1) data1 (started tr))))).
Proof.
  intros Ho Hh Hn X1 X2 Hr1 Hr2 He1 He2 Hf1 Hf2 Hc1 Hu Hp Hc2.
  assert (Hn1 : (6 <= n)%nat) by (revert Hn; generalize (N.to_nat MAX_DATAGRAM_SIZE); lia).
  unfold example_request, bind, unwrap_result in X1, X2.
  set (tr1 := started tr) in *. set (tr2 := sent (answer m1 reply1) data1 tr1) in *.
  pose proof (fun m => linked_listening f m "MyRequestHandler" k tr Ho) as G0.
  pose proof (fun m w => linked_client_none f m w) as G1.
  pose proof (fun m => linked_packet_new pr rng he ans runner_own objs f m AccessRequest (bytes_of_string "secret") (World k tr1) eq_refl) as A1.
  pose proof (fun m => linked_packet_new pr rng he ans runner_own objs f m AccessRequest (bytes_of_string "secret") (World (17 + k) tr2) eq_refl) as B1.
  unfold drawn in A1, B1; cbn [w_random w_trace] in A1, B1.
  revert A1 X1; generalize (packet_new (fun i => rng (i + k)%nat) AccessRequest (bytes_of_string "secret")) as q0; intros q0 A1 X1.
  revert B1 X2; generalize (packet_new (fun i => rng (i + (17 + k))%nat) AccessRequest (bytes_of_string "secret")) as s0; intros s0 B1 X2.
  pose proof (fun m w => linked_add_user_name pr rng he ans runner_own objs f m q0 (bytes_of_string "admin") w eq_refl Hh) as A2.
  pose proof (fun m w => linked_add_user_name pr rng he ans runner_own objs f m s0 (bytes_of_string "admin") w eq_refl Hh) as B2.
  revert A2 X1; generalize (rfc2865_add_user_name q0 (bytes_of_string "admin")) as q1; intros q1 A2 X1.
  revert B2 X2; generalize (rfc2865_add_user_name s0 (bytes_of_string "admin")) as s1; intros s1 B2 X2.
  pose proof (fun m w => linked_add_user_password pr rng he ans runner_own objs f m q1 (bytes_of_string "p@ssw0rd") w eq_refl Hh) as A3.
  pose proof (fun m w => linked_add_user_password pr rng he ans runner_own objs f m s1 (bytes_of_string "INVALID-PASS") w eq_refl Hh) as B3.
  revert A3 X1; destruct (rfc2865_add_user_password q1 (bytes_of_string "p@ssw0rd")) as [q2 [[]|?| |]]; intros A3 X1; try discriminate X1. injection X1 as ->.
  revert B3 X2; destruct (rfc2865_add_user_password s1 (bytes_of_string "INVALID-PASS")) as [s2 [[]|?| |]]; intros B3 X2; try discriminate X2. injection X2 as ->.
  unfold added, fallible, fst, snd in A3, B3.
  pose proof (fun m Hm => linked_answered f m req1 (17 + k) tr1 m1 data1 reply1 p1 Hh Hm Hr1 He1 Hf1) as A4.
  pose proof (fun m Hm => linked_answered f m req2 (17 + (17 + k)) tr2 m2 data2 reply2 p2 Hh Hm Hr2 He2 Hf2) as B4.
  fold tr2 in A4. set (tr3 := sent (answer m2 reply2) data2 tr2) in *.
  pose proof (fun m w => linked_get_code f m p1 w) as A5. rewrite Hc1 in A5.
  pose proof (fun m w => linked_get_code f m p2 w) as B5. rewrite Hc2 in B5.
  pose proof (fun m w => linked_lookup_user_name pr rng he ans runner_own objs f m p1 w eq_refl Hh) as A6. rewrite Hu in A6.
  pose proof (fun m w => linked_lookup_user_password pr rng he ans runner_own objs f m p1 w eq_refl Hh) as A7. rewrite Hp in A7.
  clear Hr1 Hr2 He1 He2 Hf1 Hf2 Hc1 Hc2 Hu Hp.
  change (v_addr local_1812) with (VAddr true (bytes_of_string "127.0.0.1:" ++ bytes_of_string (dec 1812) ++ [])) in *.
  unfold v_client, v_option, connection_timeout, socket_timeout, looked, bare, v_out in *.
  fields q0; fields q1; fields req1; fields s0; fields s1; fields req2; fields p1; fields p2.
  change (v_code AccessRequest) with (VCtor "Code" "AccessRequest" []) in *.
  change (v_code AccessAccept) with (VCtor "Code" "AccessAccept" []) in *.
  change (v_code AccessReject) with (VCtor "Code" "AccessReject" []) in *.
  unfold v_str, v_bytes, v_text, vsome, vnone, vok, v_server, v_usize in *.
  remember (N.to_nat MAX_DATAGRAM_SIZE) as mx eqn:Emx; clear Emx.
  clearbody tr3; clearbody tr2; unfold started, v_server, v_usize, v_text, vok, VUnit in tr1; subst tr1.
  linked_start; app_steps; reflexivity.
Qed.

(** the same, when the reply to the first request is an Access-Reject: the assertion fails *)
Lemma run_test_access_request_fails f n k tr req1 data1 m1 reply1 p1 user :
  assoc "MyRequestHandler" objs = Some "handler" ->
  hashes he f -> (N.to_nat MAX_DATAGRAM_SIZE + 6 <= n)%nat ->
  example_request (fun i => rng (i + k)%nat) (bytes_of_string "secret") (bytes_of_string "admin") (bytes_of_string "p@ssw0rd") = Ok req1 ->
  rs (round tr) = answer m1 reply1 -> packet_encode pr req1 = Ok data1 ->
  Client.finish req1 (firstn (N.to_nat MAX_DATAGRAM_SIZE) reply1) = Ok p1 ->
  p_code p1 = AccessReject -> rfc2865_lookup_user_name p1 = Some (Ok user) -> rfc2865_lookup_user_password p1 = None ->
  linked (R f) n "" "test_access_request" [] (World k tr) = RPanic.
Proof.
  intros Ho Hh Hn X1 Hr1 He1 Hf1 Hc1 Hu Hp.
  assert (Hn1 : (6 <= n)%nat) by (revert Hn; generalize (N.to_nat MAX_DATAGRAM_SIZE); lia).
  unfold example_request, bind, unwrap_result in X1.
  set (tr1 := started tr) in *. set (tr2 := sent (answer m1 reply1) data1 tr1) in *.
  pose proof (fun m => linked_listening f m "MyRequestHandler" k tr Ho) as G0.
  pose proof (fun m w => linked_client_none f m w) as G1.
  pose proof (fun m => linked_packet_new pr rng he ans runner_own objs f m AccessRequest (bytes_of_string "secret") (World k tr1) eq_refl) as A1.
  unfold drawn in A1; cbn [w_random w_trace] in A1.
  revert A1 X1; generalize (packet_new (fun i => rng (i + k)%nat) AccessRequest (bytes_of_string "secret")) as q0; intros q0 A1 X1.
  pose proof (fun m w => linked_add_user_name pr rng he ans runner_own objs f m q0 (bytes_of_string "admin") w eq_refl Hh) as A2.
  revert A2 X1; generalize (rfc2865_add_user_name q0 (bytes_of_string "admin")) as q1; intros q1 A2 X1.
  pose proof (fun m w => linked_add_user_password pr rng he ans runner_own objs f m q1 (bytes_of_string "p@ssw0rd") w eq_refl Hh) as A3.
  revert A3 X1; destruct (rfc2865_add_user_password q1 (bytes_of_string "p@ssw0rd")) as [q2 [[]|?| |]]; intros A3 X1; try discriminate X1. injection X1 as ->.
  unfold added, fallible, fst, snd in A3.
  pose proof (fun m Hm => linked_answered f m req1 (17 + k) tr1 m1 data1 reply1 p1 Hh Hm Hr1 He1 Hf1) as A4.
  fold tr2 in A4.
  pose proof (fun m w => linked_get_code f m p1 w) as A5. rewrite Hc1 in A5.
  pose proof (fun m w => linked_lookup_user_name pr rng he ans runner_own objs f m p1 w eq_refl Hh) as A6.
  pose proof (fun m w => linked_lookup_user_password pr rng he ans runner_own objs f m p1 w eq_refl Hh) as A7.
  rewrite Hu in A6. rewrite Hp in A7.
  clear Hr1 He1 Hf1 Hc1 Hu Hp.
  change (v_addr local_1812) with (VAddr true (bytes_of_string "127.0.0.1:" ++ bytes_of_string (dec 1812) ++ [])) in *.
  unfold v_client, v_option, connection_timeout, socket_timeout, looked, bare, v_out in *.
  fields q0; fields q1; fields req1; fields p1.
  change (v_code AccessReject) with (VCtor "Code" "AccessReject" []) in *.
  change (v_code AccessRequest) with (VCtor "Code" "AccessRequest" []) in *.
  unfold v_str, v_bytes, v_text, vsome, vnone, vok, v_server, v_usize in *.
  remember (N.to_nat MAX_DATAGRAM_SIZE) as mx eqn:Emx; clear Emx.
  clearbody tr2; unfold started, v_server, v_usize, v_text, vok, VUnit in tr1; subst tr1.
  linked_start; app_steps; reflexivity.
Qed.

(** test.rs:126-163 *)
Lemma run_test_socket_timeout f n k tr req data m :
  assoc "LongTimeTakingHandler" objs = Some "handler" ->
  hashes he f -> (N.to_nat MAX_DATAGRAM_SIZE + 6 <= n)%nat ->
  example_request (fun i => rng (i + k)%nat) (bytes_of_string "secret") (bytes_of_string "admin") (bytes_of_string "p@ssw0rd") = Ok req ->
  rs (round tr) = silence m -> packet_encode pr req = Ok data ->
  linked (R f) n "" "test_socket_timeout" [] (World k tr)
  = RVal VUnit [] (World (17 + k) (ended (deadline (sent (silence m) data (started tr))))).
Proof.
  intros Ho Hh Hn X1 Hr1 He1.
  assert (Hn1 : (6 <= n)%nat) by (revert Hn; generalize (N.to_nat MAX_DATAGRAM_SIZE); lia).
  unfold example_request, bind, unwrap_result in X1.
  set (tr1 := started tr) in *. set (tr2 := deadline (sent (silence m) data tr1)) in *.
  pose proof (fun n => linked_listening f n "LongTimeTakingHandler" k tr Ho) as G0.
  pose proof (fun n w => linked_client_timeout f n 0 w) as G1.
  pose proof (fun n => linked_packet_new pr rng he ans runner_own objs f n AccessRequest (bytes_of_string "secret") (World k tr1) eq_refl) as A1.
  unfold drawn in A1; cbn [w_random w_trace] in A1.
  revert A1 X1; generalize (packet_new (fun i => rng (i + k)%nat) AccessRequest (bytes_of_string "secret")) as q0; intros q0 A1 X1.
  pose proof (fun n w => linked_add_user_name pr rng he ans runner_own objs f n q0 (bytes_of_string "admin") w eq_refl Hh) as A2.
  revert A2 X1; generalize (rfc2865_add_user_name q0 (bytes_of_string "admin")) as q1; intros q1 A2 X1.
  pose proof (fun n w => linked_add_user_password pr rng he ans runner_own objs f n q1 (bytes_of_string "p@ssw0rd") w eq_refl Hh) as A3.
  revert A3 X1; destruct (rfc2865_add_user_password q1 (bytes_of_string "p@ssw0rd")) as [q2 [[]|?| |]]; intros A3 X1; try discriminate X1. injection X1 as ->.
  unfold added, fallible, fst, snd in A3.
  pose proof (fun n Hm => linked_unanswered f n req (17 + k) tr1 m data Hh Hm Hr1 He1) as A4.
  fold tr2 in A4.
  clear Hr1 He1.
  change (v_addr local_1812) with (VAddr true (bytes_of_string "127.0.0.1:" ++ bytes_of_string (dec 1812) ++ [])) in *.
  unfold v_client, v_option, connection_timeout, socket_timeout, bare, v_out, v_client_error in *.
  fields q0; fields q1; fields req.
  change (v_code AccessRequest) with (VCtor "Code" "AccessRequest" []) in *.
  unfold v_str, v_bytes, v_text, vsome, vnone, vok, verr, v_server, v_usize, v_duration in *.
  remember (N.to_nat MAX_DATAGRAM_SIZE) as mx eqn:Emx; clear Emx.
  clearbody tr2; unfold started, v_server, v_usize, v_text, vok, VUnit in tr1; subst tr1.
  linked_start; app_steps; reflexivity.
Qed.

(** test.rs:84-88 *)
Lemma run_test_runner f b k tr k1 tr1 k2 tr2 n : (b + 1 <= n)%nat ->
  (forall m, (b <= m)%nat -> linked (R f) m "" "test_access_request" [] (World k tr) = RVal VUnit [] (World k1 tr1)) ->
  (forall m, (b <= m)%nat -> linked (R f) m "" "test_socket_timeout" [] (World k1 tr1) = RVal VUnit [] (World k2 tr2)) ->
  linked (R f) n "" "test_runner" [] (World k tr) = RVal VUnit [] (World k2 tr2).
Proof.
  intros Hn G1 G2. unfold VUnit in *. linked_start; app_steps; reflexivity.
Qed.
(** … and when the first part of it fails *)
Lemma run_test_runner_fails f b k tr n : (b + 1 <= n)%nat ->
  (forall m, (b <= m)%nat -> linked (R f) m "" "test_access_request" [] (World k tr) = RPanic) ->
  linked (R f) n "" "test_runner" [] (World k tr) = RPanic.
Proof. intros Hn G1. linked_start; app_steps; reflexivity. Qed.
End Runner.
