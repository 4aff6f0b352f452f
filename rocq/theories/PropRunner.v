(** * C83: the end-to-end test itself, run

    [tests::test_runner] of e2e-test/src/test.rs:70-163, run with the text of the crate and of rfc2865.rs. Its server is a
    task of the runtime, so what the task does is an answer of the environment here; that these are the answers which
    the text of the server and of the handlers gives is in the same theorem. *)
From Coq Require Import String List NArith ZArith Bool Arith Strings.Byte Lia ZifyBool ZifyNat ZifyN.
From Verif Require Import Prelude PreludeFacts Code Utf8Facts Avp Attributes Packet Addr Display Rfc Client Server Spec AvpSpec Utf8
  ExampleApp E2eApp Rust RustEval RustModule RustLink Sources SourceApp CodeRun CodeBase CodePacket CodeHash CodeNet
  CodeClient CodeServer CodeListen CodeApp CodeExample CodeTests CodeE2e CodeRunner PropCode PropClientCode PropServerCode PropApp PropE2e.
Import ListNotations.
Local Open Scope string_scope.
Local Open Scope N_scope.
Local Open Scope list_scope.

(** ** Specification *)
(** the crate, rfc2865.rs and test.rs with its module [tests]; [objs]: the structs that are handlers or secret providers *)
Definition runner_program (objs : list (string * string)) pr f rng he ans : link :=
  Link (source pr f rng he ans) (modules_from source_lines ["rfc2865"]) (with_tests source_e2e_test f) objs.
(** the environment of the test: the port can be bound, the [i]-th socket of a client gets the answers [rs i], the server
    takes the message to stop and its task ends *)
Definition lab (rs : nat -> replies) (tr : list event) (op : string) (args : list value) : option value :=
  if String.eqb op "UdpSocket::bind" then
    match args with
    | [VAddr _ _] => bind_reply (rs (round tr))
    | _ => Some (vok (VExt "conn"))
    end
  else if String.eqb op "sender.send" then Some (vok VUnit)
  else if String.eqb op "task.unwrap" then Some VUnit
  else replies_of (rs (pred (round tr))) [] op args.
(** the answers for the first, the second and all later sockets *)
Definition three (a b c : replies) (i : nat) : replies := match i with O => a | S O => b | _ => c end.
(** the random bytes from the [k]-th on *)
Definition from (k : nat) (rng : nat -> byte) (i : nat) : byte := rng (i + k)%nat.
Definition admin : bytes := bytes_of_string "admin".
Definition right_password : bytes := bytes_of_string "p@ssw0rd".
Definition wrong_password : bytes := bytes_of_string "INVALID-PASS".
(** the server takes [data], which is [req], from [remote] and the handler of the test replies with [reply] *)
Definition serves prs fs rng hes (local remote : socket_addr) (req : packet) (data reply : bytes) : Prop :=
  processes prs fs rng hes (free (bytes_of_string "secret")) (Task data local remote false TReceived)
    (RWait (World 0 (handler_called (Request local remote req) None :: unlocked :: rev (entered remote (bytes_of_string "secret") req))))
  /\ (forall k tr ans m, (forall d, ans tr "conn.send_to" [VBytes d; v_addr remote] = Some (vok (v_usize m))) ->
        test_handles prs fs rng hes ans "MyRequestHandler" (Request local remote req) (World k tr)
          (RVal (vok VUnit) [VStruct "MyRequestHandler" []; VExt "conn"; v_request (Request local remote req)]
            (World k (Event "conn.send_to" [VBytes reply; v_addr remote] (Some (vok (v_usize m))) :: tr)))).
(** what the test does, in order: a server on port 1812 … *)
Definition listens : list (string * list value) :=
  [("UdpSocket::bind", [v_text "0.0.0.0:1812"]); ("spawn Server::run", [v_server false 1500; VExt "receiver"])].
(** … a datagram from a new socket to it, and waiting for the reply … *)
Definition asks_with (data : bytes) : list (string * list value) :=
  [("UdpSocket::bind", [v_text "0.0.0.0:0"]); ("conn.connect", [v_text "127.0.0.1:1812"]); ("conn.send", [VBytes data]); ("conn.recv", [])].
(** … and the end of the server *)
Definition stops : list (string * list value) := [("sender.send", [VUnit]); ("task.unwrap", [])].
(** addresses as texts *)
Definition shown (v : value) : value := match v with VAddr _ a => VStr a | _ => v end.
Definition seen (w : world) : list (string * list value) := map (fun e => (ev_op e, map shown (ev_args e))) (rev (w_trace w)).

(** ** Proofs *)
Lemma runner_program_ok objs pr f rng he ans :
  runner_program objs pr f rng he ans = Link (Cx pr (crate_program f) rng he ans) used_modules runner_own objs.
Proof. unfold runner_program, source. now rewrite crate_program_ok, used_modules_ok, (runner_own_ok f). Qed.
Lemma made_request rng user pw req : made rng user pw req -> example_request rng (bytes_of_string "secret") user pw = Ok req.
Proof. unfold made, example_request. cbv zeta. intros ->. reflexivity. Qed.
Lemma packet_new_from rng c secret : packet_new (fun i => rng (i + 0)%nat) c secret = packet_new rng c secret.
Proof. reflexivity. Qed.
Lemma made_secret rng user pw :
  p_secret (fst (rfc2865_add_user_password (rfc2865_add_user_name (packet_new rng AccessRequest (bytes_of_string "secret")) user) pw)) = bytes_of_string "secret".
Proof. unfold rfc2865_add_user_password, Accessors.try_add. destruct (avp_from_user_password _ _ _ _); reflexivity. Qed.
Lemma lab_listens rs tr x : lab rs tr "UdpSocket::bind" [VStr x] = Some (vok (VExt "conn")). Proof. reflexivity. Qed.
Lemma lab_binds rs tr v4 a : lab rs tr "UdpSocket::bind" [VAddr v4 a] = bind_reply (rs (round tr)). Proof. reflexivity. Qed.
Lemma lab_sends rs tr args : lab rs tr "sender.send" args = Some (vok VUnit). Proof. reflexivity. Qed.
Lemma lab_ends rs tr args : lab rs tr "task.unwrap" args = Some VUnit. Proof. reflexivity. Qed.
Lemma lab_else rs tr op args : mem op ["conn.connect"; "conn.send"; "conn.recv"; "timeout"] = true ->
  lab rs tr op args = replies_of (rs (pred (round tr))) [] op args.
Proof.
  intro M. unfold lab. destruct (String.eqb_spec op "UdpSocket::bind") as [->|]; [discriminate M|].
  destruct (String.eqb_spec op "sender.send") as [->|]; [discriminate M|].
  destruct (String.eqb_spec op "task.unwrap") as [->|]; [discriminate M|]. reflexivity.
Qed.

(** ** [test_runner] *)
(** what both theorems need *)
Lemma runner_facts prc fc hec prs fs hes rng rng' local remote n :
  (fc = Openssl -> forall b, hec b = None) -> (fs = Openssl -> forall b, hes b = None) ->
  exists req1 data1 reply1 req2 data2 reply2 req3 data3,
    made rng admin right_password req1 /\ packet_encode prc req1 = Ok data1 /\ serves prs fs rng' hes local remote req1 data1 reply1
    /\ made (from 17 rng) admin wrong_password req2 /\ packet_encode prc req2 = Ok data2 /\ serves prs fs rng' hes local remote req2 data2 reply2
    /\ made (from 34 rng) admin right_password req3 /\ packet_encode prc req3 = Ok data3
    /\ forall objs, assoc "MySecretProvider" objs = Some "provider" ->
       let rs := three (replied n reply1) (replied n reply2) (unanswered n) in
       let w1 := World 34 (ended (sent (answer n reply2) data2 (sent (answer n reply1) data1 (started [])))) in
       let w2 := World 51 (ended (deadline (sent (silence n) data3 (started (w_trace w1))))) in
       (assoc "MyRequestHandler" objs = Some "handler" -> forall i, (N.to_nat MAX_DATAGRAM_SIZE + 6 <= i)%nat ->
          linked (runner_program objs prc fc rng hec (lab rs)) i "" "test_access_request" [] (World 0 []) = RVal VUnit [] w1)
       /\ (assoc "LongTimeTakingHandler" objs = Some "handler" -> forall i, (N.to_nat MAX_DATAGRAM_SIZE + 6 <= i)%nat ->
          linked (runner_program objs prc fc rng hec (lab rs)) i "" "test_socket_timeout" [] w1 = RVal VUnit [] w2).
Proof.
  intros Hc Hs.
  destruct strs as (S1 & S2 & S3).
  assert (EX : forall rng user pw, is_str user -> len user <= 253 -> is_str pw -> ~ In x00 pw -> len pw <= 128 ->
    exists req data reply p, made rng user pw req /\ packet_encode prc req = Ok data /\ serves prs fs rng' hes local remote req data reply
      /\ Client.finish req (firstn (N.to_nat MAX_DATAGRAM_SIZE) reply) = Ok p
      /\ (user = admin /\ pw = right_password -> p_code p = AccessAccept)
      /\ (~ (user = admin /\ pw = right_password) -> p_code p = AccessReject)
      /\ rfc2865_lookup_user_name p = Some (Ok user) /\ rfc2865_lookup_user_password p = None).
  { intros r user pw U1 U2 P1 P2 P3.
    destruct (exchanged prc prs fs hes r rng' local remote user pw Hs U1 U2 P1 P2 P3)
      as (req & data & reply & p & A1 & A2 & _ & A4 & A5 & A6 & A7 & A8 & A9 & A10 & _).
    exists req, data, reply, p. split; [exact A1|]. split; [exact A2|]. split; [split; [exact A4|exact A5]|].
    split; [exact A6|]. split; [exact A7|]. split; [exact A8|]. split; [exact A9|exact A10]. }
  destruct (EX rng admin right_password S1 ltac:(vm_compute; discriminate) S2 (no_nul (bytes_of_string "p@ssw0rd") eq_refl) ltac:(vm_compute; discriminate))
    as (req1 & data1 & reply1 & p1 & M1 & E1 & V1 & F1 & C1 & _ & U1 & P1).
  destruct (EX (from 17 rng) admin wrong_password S1 ltac:(vm_compute; discriminate) S3 (no_nul (bytes_of_string "INVALID-PASS") eq_refl) ltac:(vm_compute; discriminate))
    as (req2 & data2 & reply2 & p2 & M2 & E2 & V2 & F2 & _ & C2 & _ & _).
  destruct (EX (from 34 rng) admin right_password S1 ltac:(vm_compute; discriminate) S2 (no_nul (bytes_of_string "p@ssw0rd") eq_refl) ltac:(vm_compute; discriminate))
    as (req3 & data3 & reply3 & p3 & M3 & E3 & _).
  clear EX. specialize (C1 (conj eq_refl eq_refl)).
  assert (NE : ~ (admin = admin /\ wrong_password = right_password)) by (intros [_ X]; discriminate X). specialize (C2 NE).
  exists req1, data1, reply1, req2, data2, reply2, req3, data3.
  do 8 (split; [eassumption|]). intros objs HP rs w1 w2. split; intros Ho i Hi; rewrite runner_program_ok.
  - apply (run_test_access_request prc rng hec objs rs (lab rs) (lab_listens rs) (lab_binds rs) (lab_else rs) (lab_sends rs) (lab_ends rs) HP
               fc i 0 [] req1 req2 data1 data2 n n reply1 reply2 p1 p2 Ho Hc Hi).
    + rewrite <- (made_request _ _ _ _ M1). unfold example_request. now rewrite (packet_new_from rng).
    + exact (made_request _ _ _ _ M2).
    + reflexivity.
    + reflexivity.
    + exact E1.
    + exact E2.
    + exact F1.
    + exact F2.
    + exact C1.
    + exact U1.
    + exact P1.
    + exact C2.
  - apply (run_test_socket_timeout prc rng hec objs rs (lab rs) (lab_listens rs) (lab_binds rs) (lab_else rs) (lab_sends rs) (lab_ends rs) HP
               fc i _ _ req3 data3 n Ho Hc Hi).
    + exact (made_request _ _ _ _ M3).
    + reflexivity.
    + exact E3.
Qed.
(** With the replies the server of this crate gives to them, both requests of [test_access_request] end as it asserts, for
    any random numbers; when no reply to the request of [test_socket_timeout] comes before its deadline, so does that;
    and the whole test returns. *)
Theorem C83_test_runner : forall prc fc hec prs fs hes rng rng' local remote n,
  (fc = Openssl -> forall b, hec b = None) -> (fs = Openssl -> forall b, hes b = None) ->
  exists req1 data1 reply1 req2 data2 reply2 req3 data3 w,
    made rng admin right_password req1 /\ packet_encode prc req1 = Ok data1 /\ serves prs fs rng' hes local remote req1 data1 reply1
    /\ made (from 17 rng) admin wrong_password req2 /\ packet_encode prc req2 = Ok data2 /\ serves prs fs rng' hes local remote req2 data2 reply2
    /\ made (from 34 rng) admin right_password req3 /\ packet_encode prc req3 = Ok data3
    /\ calls (runner_program e2e_objects prc fc rng hec (lab (three (replied n reply1) (replied n reply2) (unanswered n)))) "" "test_runner" [] (World 0 [])
         (RVal VUnit [] w)
    /\ seen w = listens ++ asks_with data1 ++ asks_with data2 ++ stops
               ++ listens ++ asks_with data3 ++ [("timeout", [v_duration 0])] ++ stops.
Proof.
  intros prc fc hec prs fs hes rng rng' local remote n Hc Hs.
  destruct (runner_facts prc fc hec prs fs hes rng rng' local remote n Hc Hs)
    as (req1 & data1 & reply1 & req2 & data2 & reply2 & req3 & data3 & A1 & A2 & A3 & A4 & A5 & A6 & A7 & A8 & T).
  destruct (T e2e_objects eq_refl) as [T1 T2]. exists req1, data1, reply1, req2, data2, reply2, req3, data3. eexists.
  do 8 (split; [eassumption|]). split.
  - exists (N.to_nat MAX_DATAGRAM_SIZE + 6 + 1)%nat. intros m Hm. specialize (T1 eq_refl). specialize (T2 eq_refl).
    rewrite runner_program_ok in *.
    set (rs := three _ _ _) in *.
    exact (run_test_runner prc rng hec e2e_objects rs (lab rs) (lab_listens rs) (lab_binds rs) (lab_else rs) (lab_sends rs) (lab_ends rs)
             fc (N.to_nat MAX_DATAGRAM_SIZE + 6) 0 [] _ _ _ _ m Hm T1 T2).
  - reflexivity.
Qed.
(** The server of [test_access_request] has [MyRequestHandler], and that of [test_socket_timeout] [LongTimeTakingHandler]:
    each runs in this way when no other struct is a handler.  (What is not one would be seen in the server that is spawned.) *)
Definition only (h : string) : list (string * string) := [(h, "handler"); ("MySecretProvider", "provider")].
Theorem C83_test_handlers : forall prc fc hec prs fs hes rng rng' local remote n,
  (fc = Openssl -> forall b, hec b = None) -> (fs = Openssl -> forall b, hes b = None) ->
  exists data1 reply1 data2 reply2 data3 w1 w2,
    (exists req1, made rng admin right_password req1 /\ packet_encode prc req1 = Ok data1 /\ serves prs fs rng' hes local remote req1 data1 reply1)
    /\ (exists req2, made (from 17 rng) admin wrong_password req2 /\ packet_encode prc req2 = Ok data2 /\ serves prs fs rng' hes local remote req2 data2 reply2)
    /\ (exists req3, made (from 34 rng) admin right_password req3 /\ packet_encode prc req3 = Ok data3)
    /\ calls (runner_program (only "MyRequestHandler") prc fc rng hec (lab (three (replied n reply1) (replied n reply2) (unanswered n))))
         "" "test_access_request" [] (World 0 []) (RVal VUnit [] w1)
    /\ seen w1 = listens ++ asks_with data1 ++ asks_with data2 ++ stops
    /\ calls (runner_program (only "LongTimeTakingHandler") prc fc rng hec (lab (three (replied n reply1) (replied n reply2) (unanswered n))))
         "" "test_socket_timeout" [] w1 (RVal VUnit [] w2)
    /\ seen w2 = seen w1 ++ listens ++ asks_with data3 ++ [("timeout", [v_duration 0])] ++ stops.
Proof.
  intros prc fc hec prs fs hes rng rng' local remote n Hc Hs.
  destruct (runner_facts prc fc hec prs fs hes rng rng' local remote n Hc Hs)
    as (req1 & data1 & reply1 & req2 & data2 & reply2 & req3 & data3 & A1 & A2 & A3 & A4 & A5 & A6 & A7 & A8 & T).
  exists data1, reply1, data2, reply2, data3. eexists. eexists.
  split; [exact (ex_intro _ req1 (conj A1 (conj A2 A3)))|].
  split; [exact (ex_intro _ req2 (conj A4 (conj A5 A6)))|]. split; [exact (ex_intro _ req3 (conj A7 A8))|].
  split; [exists (N.to_nat MAX_DATAGRAM_SIZE + 6)%nat; exact (proj1 (T (only "MyRequestHandler") eq_refl) eq_refl)|].
  split; [reflexivity|].
  split; [exists (N.to_nat MAX_DATAGRAM_SIZE + 6)%nat; exact (proj2 (T (only "LongTimeTakingHandler") eq_refl) eq_refl)|].
  reflexivity.
Qed.
(** The test does test: if the reply to its first request is an Access-Reject that names a user and has no password, as
    that handler sends them, it panics. *)
Theorem C83_test_fails : forall pr f rng he rs n reply req data p user,
  (f = Openssl -> forall b, he b = None) ->
  made rng admin right_password req -> packet_encode pr req = Ok data ->
  rs 0%nat = replied n reply -> len reply <= 65507 -> packet_decode reply (bytes_of_string "secret") = Ok p ->
  p_code p = AccessReject -> rfc2865_lookup_user_name p = Some (Ok user) -> rfc2865_lookup_user_password p = None ->
  calls (runner_program e2e_objects pr f rng he (lab rs)) "" "test_runner" [] (World 0 []) RPanic.
Proof.
  intros pr f rng he rs n reply req data p user H M E R L D C U P.
  assert (SE : p_secret req = bytes_of_string "secret").
  { unfold made in M. pose proof (made_secret rng admin right_password) as X. rewrite M in X. exact X. }
  assert (F : Client.finish req (firstn (N.to_nat MAX_DATAGRAM_SIZE) reply) = Ok p).
  { rewrite firstn_all2 by (unfold len in L; change MAX_DATAGRAM_SIZE with 65507; lia). unfold Client.finish. now rewrite SE, D. }
  exists (N.to_nat MAX_DATAGRAM_SIZE + 6 + 1)%nat. intros m Hm. rewrite runner_program_ok.
  apply (run_test_runner_fails pr rng he e2e_objects rs (lab rs) (lab_listens rs) (lab_binds rs) (lab_else rs) (lab_sends rs) (lab_ends rs) f
           (N.to_nat MAX_DATAGRAM_SIZE + 6) 0 [] m Hm).
  intros i Hi.
  apply (run_test_access_request_fails pr rng he e2e_objects rs (lab rs) (lab_listens rs) (lab_binds rs) (lab_else rs) (lab_sends rs) (lab_ends rs) eq_refl f
           i 0 [] req data n reply p user eq_refl H Hi); try assumption.
  rewrite <- (made_request _ _ _ _ M). unfold example_request. now rewrite (packet_new_from rng).
Qed.

(** ** Cases *)
Example test_runner_passes : exists rs w, calls (runner_program e2e_objects Debug Md5Crate any_rng no_hash_error (lab rs)) "" "test_runner" [] (World 0 []) (RVal VUnit [] w).
Proof.
  destruct (C83_test_runner Debug Md5Crate no_hash_error Release Openssl no_hash_error any_rng any_rng (SockV4 (Ipv4 x00 x00 x00 x00) 1812) peer 50
    ltac:(discriminate) (fun _ _ => eq_refl)) as (? & ? & ? & ? & ? & ? & ? & ? & w & _ & _ & _ & _ & _ & _ & _ & _ & T & _).
  eexists _, w. exact T.
Qed.
Example test_runner_panics : exists rs, calls (runner_program e2e_objects Debug Md5Crate any_rng no_hash_error (lab rs)) "" "test_runner" [] (World 0 []) RPanic.
Proof.
  pose (req := fst (rfc2865_add_user_password (rfc2865_add_user_name (packet_new any_rng AccessRequest (bytes_of_string "secret")) admin) right_password)).
  assert (E : exists data, packet_encode Debug req = Ok data) by (eexists; vm_compute; reflexivity). destruct E as (data & E).
  assert (RE : exists reply, packet_encode Debug (rfc2865_add_user_name (packet_make_response_packet req AccessReject) admin) = Ok reply)
    by (eexists; vm_compute; reflexivity). destruct RE as (reply & RE).
  assert (D : exists p, packet_decode reply (bytes_of_string "secret") = Ok p /\ p_code p = AccessReject
    /\ rfc2865_lookup_user_name p = Some (Ok admin) /\ rfc2865_lookup_user_password p = None /\ len reply <= 65507).
  { vm_compute in RE. injection RE as <-. eexists. split; [vm_compute; reflexivity|]. repeat (split; [vm_compute; reflexivity|]). vm_compute. discriminate. }
  destruct D as (p & D & C & U & P & L). exists (fun _ => replied 50 reply).
  refine (C83_test_fails Debug Md5Crate any_rng no_hash_error _ 50 reply req data p admin ltac:(discriminate) _ E eq_refl L D C U P).
  vm_compute. reflexivity.
Qed.

(** * Assumptions *)
Print Assumptions C83_test_runner.
Print Assumptions C83_test_handlers.
Print Assumptions C83_test_fails.
