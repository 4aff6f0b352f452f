(** * C80: the source text of the examples, run

    examples/server.rs and examples/client.rs, run with the text of the crate and of rfc2865.rs (RustLink.v): what
    their functions do, and the exchange of the two programs. *)
From Coq Require Import String List NArith ZArith Bool Arith Strings.Byte Lia ZifyBool ZifyNat ZifyN.
From Verif Require Import Prelude PreludeFacts Code Utf8Facts Avp AvpFacts Attributes Packet Addr Display Rfc Client Server CodecFacts AuthFacts RoundTrip Spec AvpSpec Utf8
  ExampleApp PropPacket PropEndToEnd Rust RustEval RustModule RustLink Sources SourceApp CodeRun CodeBase CodePacket CodeHash CodeNet
  CodeClient CodeServer CodeListen CodeApp CodeExample CodeExampleMain PropCode PropClientCode PropServerCode.
Import ListNotations.
Local Open Scope string_scope.
Local Open Scope N_scope.
Local Open Scope list_scope.

(** ** Specification *)
(** a program: its file, with the crate and with the module of rfc2865.rs *)
Definition program_of (pr : profile) (f : feature) rng he ans (file : list string) (objects : list (string * string)) : link :=
  Link (source pr f rng he ans) (modules_from source_lines ["rfc2865"]) (program_from [file] f) objects.
Definition server_program pr f rng he ans : link := program_of pr f rng he ans source_example_server server_objects.
Definition client_program pr f rng he ans : link := program_of pr f rng he ans source_example_client [].
(** calling a function of the program ends in this way *)
Definition calls (L : link) (t x : string) (args : list value) (w : world) (o : rout) : Prop :=
  exists k, forall n, (k <= n)%nat -> linked L n t x args w = o.
(** the handler of the example server, given this request *)
Definition handles pr f rng he ans (req : request) (w : world) (o : rout) : Prop :=
  calls (server_program pr f rng he ans) "MyRequestHandler" "handle_radius_request"
    [VStruct "MyRequestHandler" []; VExt "conn"; v_request req] w o.
(** what a socket may answer when asked to send: an [Ok], an [Err], or nothing yet *)
Definition sendable (ans : list event -> string -> list value -> option value) (tr : list event) (to : socket_addr) : Prop :=
  forall d, ans tr "conn.send_to" [VBytes d; v_addr to] = None
    \/ (exists v, ans tr "conn.send_to" [VBytes d; v_addr to] = Some (vok v))
    \/ (exists e, ans tr "conn.send_to" [VBytes d; v_addr to] = Some (verr e)).
(** the handler asks the socket to send [d], and does what the answer says *)
Definition sends_to (ans : list event -> string -> list value -> option value) (args : list value) (d : bytes) (to : socket_addr)
    (k : nat) (tr : list event) (o : rout) : Prop :=
  let a := ans tr "conn.send_to" [VBytes d; v_addr to] in
  let w := World k (Event "conn.send_to" [VBytes d; v_addr to] a :: tr) in
  (a = None /\ o = RWait w)
  \/ (exists v, a = Some (vok v) /\ o = RVal (vok VUnit) args w)
  \/ (exists e, a = Some (verr e) /\ o = RVal (verr e) args w).

Lemma server_program_ok pr f rng he ans :
  server_program pr f rng he ans = Link (Cx pr (crate_program f) rng he ans) used_modules server_own server_objects.
Proof. unfold server_program, program_of, source. now rewrite crate_program_ok, used_modules_ok, (server_own_ok f). Qed.
Lemma client_program_ok pr f rng he ans :
  client_program pr f rng he ans = Link (Cx pr (crate_program f) rng he ans) used_modules client_own [].
Proof. unfold client_program, program_of, source. now rewrite crate_program_ok, used_modules_ok, (client_own_ok f). Qed.
Lemma calls_unique L t x args w o1 o2 : calls L t x args w o1 -> calls L t x args w o2 -> o1 = o2.
Proof. intros [k1 H1] [k2 H2]. rewrite <- (H1 (k1 + k2)%nat), <- (H2 (k1 + k2)%nat) by lia. reflexivity. Qed.

(** ** What the files declare *)
Theorem C80_functions : forall f,
  map (fun d => (fst d, f_name (snd d))) (pg_fns (program_from [source_example_server] f))
    = [("", "main"); ("MyRequestHandler", "handle_radius_request"); ("MySecretProvider", "fetch_secret")]
  /\ map (fun d => (fst d, f_name (snd d))) (pg_fns (program_from [source_example_client] f)) = [("", "main")].
Proof. intros []; split; vm_compute; reflexivity. Qed.

(** ** The server *)
Theorem C80_provider : forall pr f rng he ans a w,
  calls (server_program pr f rng he ans) "MySecretProvider" "fetch_secret" [VStruct "MySecretProvider" []; v_addr a] w
    (RVal (vok (v_bytes (bytes_of_string "secret"))) [VStruct "MySecretProvider" []; v_addr a] w).
Proof. intros. exists 1%nat. intros n Hn. rewrite server_program_ok. now apply run_example_provider. Qed.

Definition answer_of (a : option value) : option (value + value) :=
  match a with
  | Some (VCtor _ c [v]) => Some (if String.eqb c "Ok" then inl v else inr v)
  | _ => None
  end.
Lemma sendable_answer ans tr to : sendable ans tr to ->
  forall d, ans tr "conn.send_to" [VBytes d; v_addr to] = sent_reply (answer_of (ans tr "conn.send_to" [VBytes d; v_addr to])).
Proof. intros S d. destruct (S d) as [->|[[v ->]|[e ->]]]; reflexivity. Qed.
Lemma handles_text pr f rng he ans req k tr : hashes he f -> sendable ans tr (rq_remote_addr req) ->
  handles pr f rng he ans req (World k tr)
    (text_handler (example_reply pr req) (fun d => answer_of (ans tr "conn.send_to" [VBytes d; v_addr (rq_remote_addr req)]))
      [VStruct "MyRequestHandler" []; VExt "conn"; v_request req] k tr).
Proof.
  intros H S. exists 5%nat. intros n Hn. rewrite server_program_ok.
  apply (run_example_handler pr rng he ans f n req); [exact H|exact Hn|]. now apply sendable_answer.
Qed.
Lemma sent_text ans reply to ps k tr : sendable ans tr to ->
  sends_to ans ps reply to k tr (text_sent reply to (answer_of (ans tr "conn.send_to" [VBytes reply; v_addr to])) ps k tr).
Proof.
  intro S. unfold sends_to, text_sent. destruct (S reply) as [->|[[v ->]|[e ->]]]; cbn [answer_of].
  - now left.
  - right; left. now exists v.
  - right; right. now exists e.
Qed.
(** The handler replies to the sender: Access-Accept to "admin" with the password "p@ssw0rd", Access-Reject to anyone
    else; it panics if there is no user name or no password in the request or if one is not UTF-8. *)
Theorem C80_handler : forall pr f rng he ans req k tr,
  (f = Openssl -> forall b, he b = None) -> api_packet (rq_packet req) -> sendable ans tr (rq_remote_addr req) ->
  (exists user pw c reply o,
     rfc2865_lookup_user_name (rq_packet req) = Some (Ok user)
     /\ rfc2865_lookup_user_password (rq_packet req) = Some (Ok pw) /\ is_str pw
     /\ (user = bytes_of_string "admin" /\ pw = bytes_of_string "p@ssw0rd" -> c = AccessAccept)
     /\ (~ (user = bytes_of_string "admin" /\ pw = bytes_of_string "p@ssw0rd") -> c = AccessReject)
     /\ packet_encode pr (packet_make_response_packet (rq_packet req) c) = Ok reply
     /\ handles pr f rng he ans req (World k tr) o
     /\ sends_to ans [VStruct "MyRequestHandler" []; VExt "conn"; v_request req] reply (rq_remote_addr req) k tr o)
  \/ (handles pr f rng he ans req (World k tr) RPanic
      /\ ((forall user, rfc2865_lookup_user_name (rq_packet req) <> Some (Ok user))
          \/ (forall pw, rfc2865_lookup_user_password (rq_packet req) = Some (Ok pw) -> ~ is_str pw))).
Proof.
  intros pr f rng he ans req k tr H A S.
  pose proof (handles_text pr f rng he ans req k tr H S) as T.
  destruct (C48_handler pr req A) as [(user & pw & reply & U & P & V & R & _ & c & E & G1 & G2)|[R N]]; rewrite R in T; cbn [text_handler] in T.
  - left. exists user, pw, c, reply. eexists. repeat (split; [eassumption|]). now apply sent_text.
  - right. now split.
Qed.

(** [main] of the server: bind 0.0.0.0:1812, panic if that fails; then take every datagram, with a buffer of 1500
    octets and with validation, until the interrupt comes; exit with 1 if the socket fails. *)
Definition bound (a : option value) : event := Event "UdpSocket::bind" [v_text "0.0.0.0:1812"] a.
Theorem C80_server_main : forall pr f rng he ln b k,
  ln_other ln [] "UdpSocket::bind" [v_text "0.0.0.0:1812"]
    = match b with Some (IoOk tt) => Some (vok (VExt "conn")) | Some (IoErr e) => Some (verr (VError (bytes_of_string e))) | None => None end ->
  (forall tr args, ln_other ln tr "process::exit" args = None) ->
  calls (server_program pr f rng he (line_of ln)) "" "main" [] (World k [])
    match b with
    | None => RWait (World k [bound None])
    | Some (IoErr _) => RPanic
    | Some (IoOk tt) =>
        let tr := bound (Some (vok (VExt "conn"))) :: flat_map (heard false 1500) (ln_receptions ln) in
        match ln_broken ln, ln_stop ln with
        | Some e, _ =>
            RWait (World k (rev (tr ++ [Event "conn.recv_from" [] (Some (verr (VError (bytes_of_string e))));
                                        Event "process::exit" [VInt Lit 1] None])))
        | None, true => RVal VUnit [] (World k (rev (tr ++ [Event "conn.recv_from" [] None; Event "shutdown.await" [] (Some VUnit)])))
        | None, false => RWait (World k (rev (tr ++ [Event "conn.recv_from" [] None; Event "shutdown.await" [] None])))
        end
    end.
Proof.
  intros pr f rng he ln b k Hb Hx. exists (length (ln_receptions ln) + 5)%nat. intros n Hn. rewrite server_program_ok.
  rewrite (run_example_main pr rng he ln f n b k [] eq_refl Hn); [|destruct b as [[[]|]|]; exact Hb|exact Hx].
  unfold text_server_main, text_run, broken_reply. rewrite loop_trace_heard.
  destruct b as [[[]|e]|]; [|reflexivity|reflexivity].
  change (DEFAULT_SKIP_AUTHENTICITY_VALIDATION) with false. change DEFAULT_BUFFER_SIZE with 1500.
  generalize (flat_map (heard false 1500) (ln_receptions ln)) as evs; intro evs. cbv zeta.
  destruct (ln_broken ln) as [e|]; [|destruct (ln_stop ln)];
    cbn [w_random w_trace vok verr]; rewrite !rev_app_distr; cbn [rev app]; rewrite <- ?app_assoc; reflexivity.
Qed.

(** ** The client *)
(** how [main] ends, given how [send_packet] ends: its result is only logged; [main] has drawn 17 random octets *)
Definition logged (o : rout) : rout :=
  match o with
  | RVal _ _ w => RVal VUnit [] (World 17 (w_trace w))
  | RWait w => RWait (World 17 (w_trace w))
  | o => o
  end.
Lemma text_send_packet_logged pr cl remote req r ps :
  and_log (text_send_packet pr cl remote req r [] 17 []) = logged (text_send_packet pr cl remote req r ps 0 []).
Proof.
  unfold text_send_packet, text_connect, text_send, text_recv, waiting, v_result.
  repeat match goal with |- context [match ?x with _ => _ end] => destruct x end; reflexivity.
Qed.
Lemma example_request_is rng : exists req, example_request rng (bytes_of_string "secret") (bytes_of_string "admin") (bytes_of_string "p@ssw0rd") = Ok req
  /\ api_packet req /\ p_code req = AccessRequest /\ p_secret req = bytes_of_string "secret"
  /\ p_identifier req = rng 16%nat /\ p_authenticator req = map rng (seq 0 16)
  /\ (exists hidden, Packet.p_attributes req = [AVP (n2b 1) (bytes_of_string "admin"); AVP (n2b 2) hidden] /\ 16 <= len hidden <= 128)
  /\ rfc2865_lookup_user_name req = Some (Ok (bytes_of_string "admin"))
  /\ rfc2865_lookup_user_password req = Some (Ok (bytes_of_string "p@ssw0rd")).
Proof.
  apply example_request_packet.
  - discriminate.
  - vm_compute; discriminate.
  - vm_compute. intuition discriminate.
  - apply (from_utf8_iff _ (bytes_of_string "admin")). vm_compute; reflexivity.
Qed.
(** [main] of the client: it makes an Access-Request of the random identifier and authenticator with the user name
    "admin" and the hidden password "p@ssw0rd", and sends it to 127.0.0.1:1812, with timeouts of three and five seconds;
    what comes of it is only logged. *)
Theorem C80_client_main : forall pr f rng he r o, (f = Openssl -> forall b, he b = None) ->
  exists req,
    (p_code req = AccessRequest /\ p_secret req = bytes_of_string "secret" /\ p_identifier req = rng 16%nat
     /\ p_authenticator req = map rng (seq 0 16)
     /\ (exists hidden, Packet.p_attributes req = [AVP (n2b 1) (bytes_of_string "admin"); AVP (n2b 2) hidden])
     /\ rfc2865_lookup_user_password req = Some (Ok (bytes_of_string "p@ssw0rd")))
    /\ (sends pr f rng he r (Client (Some 3) (Some 5)) (SockV4 (Ipv4 x7f x00 x00 x01) 1812) req o ->
        calls (client_program pr f rng he (replies_of r)) "" "main" [] (World 0 []) (logged o)).
Proof.
  intros pr f rng he r o H. destruct (example_request_is rng) as (req & E & _ & C & S & I & A & (hid & AT & _) & _ & P).
  exists req. split.
  { repeat split; try assumption. now exists hid. }
  intro So. rewrite (does_unique _ _ _ _ _ _ _ So (sends_text pr f rng he r _ _ req H)).
  exists (N.to_nat MAX_DATAGRAM_SIZE + 6)%nat. intros n Hn. rewrite client_program_ok.
  rewrite (run_example_client pr rng he r f n 0 [] H Hn). unfold text_client_main.
  replace (example_request (fun i => rng (i + 0)%nat)) with (example_request rng).
  - rewrite E. apply text_send_packet_logged.
  - unfold example_request, packet_new. cbn [Nat.add map seq]. reflexivity.
Qed.

(** ** The exchange of the two programs *)
(** the network answers the client: nothing but that the datagram may be sent … or that it was sent and [reply] came *)
Definition not_sent_yet : replies := Replies (Some (IoOk tt)) (Some (IoOk tt)) None None false.
Definition replied (n : N) (reply : bytes) : replies := Replies (Some (IoOk tt)) (Some (IoOk tt)) (Some (IoOk n)) (Some (IoOk reply)) false.
(** the server's surroundings when no such request is being handled, up to the call of the handler *)
Definition free (secret : bytes) : surroundings := Surroundings (Some (inl secret)) true (Some false) (Some true) None true true None.
Theorem C80_exchange : forall prc fc hec prs fs hes rng rng' local remote n m,
  (fc = Openssl -> forall b, hec b = None) -> (fs = Openssl -> forall b, hes b = None) ->
  let secret := bytes_of_string "secret" in
  let server := SockV4 (Ipv4 x7f x00 x00 x01) 1812 in
  exists req data reply p,
    (* the client program sends [data] to the server, and stops there if it cannot *)
    (exists tr, calls (client_program prc fc rng hec (replies_of not_sent_yet)) "" "main" [] (World 0 []) (RWait (World 17 tr))
       /\ map (fun e => (ev_op e, ev_args e)) (rev tr)
          = [("UdpSocket::bind", [v_addr (SockV4 (Ipv4 x00 x00 x00 x00) 0)]); ("conn.connect", [v_addr server]);
             ("conn.send", [VBytes data]); ("timeout", [v_duration 5])])
    (* the server's task for [data], given the secret of the server program, calls the handler with the request … *)
    /\ len data < 1500
    /\ processes prs fs rng' hes (free secret) (Task data local remote false TReceived)
         (RWait (World 0 (handler_called (Request local remote req) None :: unlocked
                          :: rev (entered remote secret req))))
    (* … and the handler of the server program sends [reply] to the client *)
    /\ (forall k tr ans, (forall d, ans tr "conn.send_to" [VBytes d; v_addr remote] = Some (vok (v_usize m))) ->
          handles prs fs rng' hes ans (Request local remote req) (World k tr)
            (RVal (vok VUnit) [VStruct "MyRequestHandler" []; VExt "conn"; v_request (Request local remote req)]
              (World k (Event "conn.send_to" [VBytes reply; v_addr remote] (Some (vok (v_usize m))) :: tr))))
    (* with this reply, [send_packet] in the client program gives an Access-Accept, and the program ends *)
    /\ (exists args w, sends prc fc rng hec (replied n reply) (Client (Some 3) (Some 5)) server req
           (RVal (vok (v_packet p)) args w))
    /\ p_code p = AccessAccept /\ p_identifier p = p_identifier req /\ response_authentic reply data secret
    /\ (exists w, calls (client_program prc fc rng hec (replies_of (replied n reply))) "" "main" [] (World 0 []) (RVal VUnit [] w)).
Proof.
  intros prc fc hec prs fs hes rng rng' local remote n m Hc Hs secret server.
  destruct (example_request_is rng) as (req & ER & A & C & SE & ID & AU & (hid & AT & LH) & LN & LP).
  assert (WS : wire_size req = 20 + (2 + 5 + (2 + len hid + 0))) by (unfold wire_size; rewrite AT; reflexivity).
  assert (EN : exists data, packet_encode prc req = Ok data).
  { destruct (C06_encode_outcomes_partial prc req A) as [(X & _)|[(_ & X & _)|[(_ & _ & X & _)|(_ & _ & _ & E)]]].
    - lia.
    - exfalso. rewrite AT in X. inversion X as [? ? Q|? ? Q]; subst; [vm_compute in Q; discriminate|].
      inversion Q as [? ? Q'|? ? Q']; subst; cbn in Q'; [lia|inversion Q'].
    - lia.
    - exfalso. rewrite C in X. destruct X as [X|[X|X]]; discriminate.
    - exact E. }
  destruct EN as (data & EN).
  destruct (C05_encode_size_exact _ _ _ A EN) as (_ & LD & _).
  destruct (C03_encode_decode prc req data A EN) as (auth & D & PA); [lia|].
  rewrite (PA (or_introl C)) in D. clear PA auth. rewrite SE in D.
  assert (Dq : packet_decode data secret = Ok req).
  { unfold secret. rewrite D. destruct req; cbn in *; subst; reflexivity. }
  destruct (reply_encodes prs req AccessAccept A) as (reply & RE & RL); [now left|].
  assert (RA : response_authentic reply data secret).
  { destruct (C11_is_authentic_response reply data secret) as (b & Eb & Hb). apply Hb.
    rewrite (C09_reply_authentic prs data secret req AccessAccept _ reply Dq ltac:(discriminate) (or_introl eq_refl) (ass_refl _) RE) in Eb.
    congruence. }
  assert (QA : packet_is_authentic_request data secret = Ok true).
  { unfold secret. rewrite <- SE. apply (C10_request_authentic prc req data A (or_introl (or_introl C))); [rewrite SE; discriminate|exact EN]. }
  destruct (C03_encode_decode prs _ reply (ap_response _ AccessAccept A) RE) as (auth' & D' & _); [lia|].
  change (p_secret (packet_make_response_packet req AccessAccept)) with (p_secret req) in D'.
  assert (ER' : example_request (fun i => rng (i + 0)%nat) (bytes_of_string "secret") (bytes_of_string "admin") (bytes_of_string "p@ssw0rd") = Ok req).
  { rewrite <- ER. unfold example_request, packet_new. cbn [Nat.add map seq]. reflexivity. }
  assert (FR : firstn (N.to_nat MAX_DATAGRAM_SIZE) reply = reply).
  { apply firstn_all2. unfold len in RL. change MAX_DATAGRAM_SIZE with 65507. lia. }
  exists req, data, reply. eexists. split; [|split; [lia|split; [|split; [|split; [|split; [|split; [|split]]]]]]].
  - eexists. split.
    + exists (N.to_nat MAX_DATAGRAM_SIZE + 6)%nat. intros k Hk. rewrite client_program_ok.
      rewrite (run_example_client prc rng hec not_sent_yet fc k 0 [] Hc Hk). unfold text_client_main. rewrite ER'.
      unfold text_send_packet, text_connect, text_send, waiting. cbn [not_sent_yet r_bind r_connect r_send r_recv r_deadline].
      rewrite EN. reflexivity.
    + reflexivity.
  - pose proof (processes_text prs fs rng' hes (free secret) (Task data local remote false TReceived) Hs) as P.
    cbn [t_data t_local t_remote t_skip] in P.
    rewrite (text_validated data local remote false (free secret) _ secret req eq_refl) in P.
    + apply P. lia.
    + split; [reflexivity|]. split; [now right|exact Dq].
  - intros k tr ans Ha.
    pose proof (handles_text prs fs rng' hes ans (Request local remote req) k tr Hs) as T.
    assert (EX : example_reply prs (Request local remote req) = Ok (reply, remote)).
    { unfold example_reply. cbn [rq_packet rq_remote_addr]. cbv zeta. rewrite LN, LP.
      cbn [unwrap_option unwrap_result bind].
      assert (SU : string_from_utf8 (bytes_of_string "p@ssw0rd") = Ok (bytes_of_string "p@ssw0rd")) by (vm_compute; reflexivity).
      rewrite SU. cbn [unwrap_result bind].
      match goal with |- context [if ?c then _ else _] => change c with true end. cbv iota. rewrite RE. reflexivity. }
    rewrite EX in T. cbn [text_handler] in T. cbn [rq_remote_addr] in T. unfold text_sent in T. rewrite Ha in T. cbn [answer_of vok String.eqb] in T.
    apply T. intro d. right; left. eexists. apply Ha.
  - eexists _, _. pose proof (sends_text prc fc rng hec (replied n reply) (Client (Some 3) (Some 5)) server req Hc) as S.
    unfold text_send_packet, text_connect, text_send, text_recv in S. cbn [replied r_bind r_connect r_send r_recv r_deadline] in S.
    rewrite EN in S. rewrite FR in S. unfold Client.finish in S. rewrite D' in S. exact S.
  - reflexivity.
  - reflexivity.
  - exact RA.
  - eexists. exists (N.to_nat MAX_DATAGRAM_SIZE + 6)%nat. intros k Hk. rewrite client_program_ok.
    rewrite (run_example_client prc rng hec (replied n reply) fc k 0 [] Hc Hk). unfold text_client_main. rewrite ER'.
    unfold text_send_packet, text_connect, text_send, text_recv. cbn [replied r_bind r_connect r_send r_recv r_deadline].
    rewrite EN, FR. unfold Client.finish. rewrite D'. reflexivity.
Qed.

(** ** Cases *)
Definition no_hash_error : bytes -> option string := fun _ => None.
Definition any_rng : nat -> byte := fun n => n2b (N.of_nat n * 7).
(** a socket that sends whatever it is asked to *)
Definition sending : list event -> string -> list value -> option value :=
  fun _ op _ => if String.eqb op "conn.send_to" then Some (vok (v_usize 20)) else None.
Example sending_sendable to : sendable sending [] to.
Proof. intro d. right; left. now exists (v_usize 20). Qed.
Definition peer : socket_addr := SockV4 (Ipv4 x0a x00 x00 x02) 40000.
Definition asking (p : packet) : request := Request (SockV4 (Ipv4 x00 x00 x00 x00) 1812) peer p.
(** no user name: the handler panics *)
Example handler_panics : handles Debug Md5Crate any_rng no_hash_error sending
  (asking (packet_new any_rng AccessRequest (bytes_of_string "secret"))) (World 0 []) RPanic.
Proof.
  destruct (C80_handler Debug Md5Crate any_rng no_hash_error sending (asking (packet_new any_rng AccessRequest (bytes_of_string "secret"))) 0 []
    ltac:(reflexivity) (ap_new _ _ _) (sending_sendable _)) as [(user & pw & c & reply & o & U & _)|[R _]]; [discriminate U|exact R].
Qed.
(** another password: the handler replies with an Access-Reject *)
Example handler_rejects : exists req reply w, handles Release Openssl any_rng no_hash_error sending (asking req) (World 0 [])
  (RVal (vok VUnit) [VStruct "MyRequestHandler" []; VExt "conn"; v_request (asking req)] w)
  /\ w_trace w = [Event "conn.send_to" [VBytes reply; v_addr peer] (Some (vok (v_usize 20)))]
  /\ packet_encode Release (packet_make_response_packet req AccessReject) = Ok reply.
Proof.
  destruct (example_request_packet any_rng (bytes_of_string "secret") (bytes_of_string "admin") (bytes_of_string "guess"))
    as (req & _ & A & _ & _ & _ & _ & _ & LU & LP).
  { discriminate. }
  { vm_compute; discriminate. }
  { vm_compute. intuition discriminate. }
  { apply (from_utf8_iff _ (bytes_of_string "admin")). vm_compute; reflexivity. }
  destruct (C80_handler Release Openssl any_rng no_hash_error sending (asking req) 0 [] ltac:(reflexivity) A (sending_sendable _))
    as [(user & pw & c & reply & o & U & P & _ & _ & N & E & R & S)|[_ [N|N]]].
  - cbn [asking rq_packet] in *. rewrite LP in P. injection P as <-.
    rewrite N in E by (intros [_ X]; discriminate X).
    exists req, reply. destruct S as [[X _]|[(v & X & ->)|(e & X & _)]]; [discriminate X| |discriminate X].
    injection X as <-. eexists. split; [exact R|]. split; [reflexivity|exact E].
  - exfalso. exact (N _ LU).
  - exfalso. apply (N _ LP). apply (from_utf8_iff _ (bytes_of_string "guess")). vm_compute; reflexivity.
Qed.
(** one datagram, then the interrupt *)
Definition one_line : line :=
  Line [Reception [x01; x02] peer (IoOk (SockV4 (Ipv4 x00 x00 x00 x00) 1812))] None true
    (fun _ op _ => if String.eqb op "UdpSocket::bind" then Some (vok (VExt "conn")) else None).
Example server_main_ends : exists tr,
  calls (server_program Debug Md5Crate any_rng no_hash_error (line_of one_line)) "" "main" [] (World 0 []) (RVal VUnit [] (World 0 tr))
  /\ length (spawns (rev tr)) = 1%nat.
Proof.
  eexists. split.
  - exact (C80_server_main Debug Md5Crate any_rng no_hash_error one_line (Some (IoOk tt)) 0 eq_refl (fun _ _ => eq_refl)).
  - rewrite rev_involutive. reflexivity.
Qed.
Example address_in_use : calls (server_program Debug Md5Crate any_rng no_hash_error
    (line_of (Line [] None true (fun _ op _ => if String.eqb op "UdpSocket::bind" then Some (verr (VError (bytes_of_string "in use"))) else None))))
  "" "main" [] (World 0 []) RPanic.
Proof. exact (C80_server_main Debug Md5Crate any_rng no_hash_error (Line [] None true _) (Some (IoErr "in use")) 0 eq_refl (fun _ _ => eq_refl)). Qed.

(** * Assumptions *)
Print Assumptions C80_functions.
Print Assumptions C80_provider.
Print Assumptions C80_handler.
Print Assumptions C80_server_main.
Print Assumptions C80_client_main.
Print Assumptions C80_exchange.
