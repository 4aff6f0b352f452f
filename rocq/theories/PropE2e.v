(** * C83: the handlers of the end-to-end test, run

    e2e-test/src/test.rs, run with the text of the crate and of rfc2865.rs: what its handlers do with any request, and
    that the exchanges of its two tests end as the tests assert, for any user name and any password. *)
From Coq Require Import String List NArith ZArith Bool Arith Strings.Byte Lia ZifyBool ZifyNat ZifyN.
From Verif Require Import Prelude PreludeFacts Code Utf8Facts Avp AvpFacts Attributes Packet Addr Display Rfc Client Server CodecFacts AuthFacts RoundTrip Spec AvpSpec Utf8
  ExampleApp E2eApp PropPacket PropAvp PropEndToEnd Rust RustEval RustModule RustLink Sources SourceApp CodeRun CodeBase CodePacket CodeHash CodeNet
  CodeClient CodeServer CodeListen CodeApp CodeExample CodeE2e PropCode PropClientCode PropServerCode PropApp.
Import ListNotations.
Local Open Scope string_scope.
Local Open Scope N_scope.
Local Open Scope list_scope.

(** ** Specification *)
Definition e2e_program pr f rng he ans : link := PropApp.program_of pr f rng he ans source_e2e_test e2e_objects.
(** the handler [t] of the test, given this request *)
Definition test_handles pr f rng he ans (t : string) (req : request) (w : world) (o : rout) : Prop :=
  calls (e2e_program pr f rng he ans) t "handle_radius_request" [VStruct t []; VExt "conn"; v_request req] w o.
(** the request the test makes with [Packet::new], [add_user_name] and [add_user_password] *)
Definition made (rng : nat -> byte) (user pw : bytes) (req : packet) : Prop :=
  rfc2865_add_user_password (rfc2865_add_user_name (packet_new rng AccessRequest (bytes_of_string "secret")) user) pw = (req, Ok tt).
(** the network answers the client: the datagram was sent, nothing came back, and the deadline passed *)
Definition unanswered (n : N) : replies := Replies (Some (IoOk tt)) (Some (IoOk tt)) (Some (IoOk n)) None true.

(** ** Proofs *)
Lemma e2e_program_ok pr f rng he ans :
  e2e_program pr f rng he ans = Link (Cx pr (crate_program f) rng he ans) used_modules e2e_own e2e_objects.
Proof. unfold e2e_program, PropApp.program_of, source. now rewrite crate_program_ok, used_modules_ok, (e2e_own_ok f). Qed.
Lemma test_handles_text pr f rng he ans req k tr : hashes he f -> sendable ans tr (rq_remote_addr req) ->
  test_handles pr f rng he ans "MyRequestHandler" req (World k tr)
    (text_handler (e2e_reply pr req) (fun d => answer_of (ans tr "conn.send_to" [VBytes d; v_addr (rq_remote_addr req)]))
      [VStruct "MyRequestHandler" []; VExt "conn"; v_request req] k tr).
Proof.
  intros H S. exists 5%nat. intros n Hn. rewrite e2e_program_ok.
  apply (run_e2e_handler pr rng he ans f n req); [exact H|exact Hn|]. now apply sendable_answer.
Qed.

(** the reply with the user name in it *)
Notation named_reply p c user := (rfc2865_add_user_name (packet_make_response_packet p c) user).
Lemma named_reply_api p c user : api_packet p -> api_packet (named_reply p c user).
Proof. intro A. exact (ap_step _ _ (ap_response p c A) (as_add _ _)). Qed.
Lemma named_reply_size p c user : wire_size (named_reply p c user) = 22 + len user.
Proof. unfold wire_size. cbn [rfc2865_add_user_name packet_add packet_make_response_packet Packet.p_attributes attributes_add app].
  change (20 + (2 + len user + 0) = 22 + len user). lia. Qed.
Lemma named_reply_encodes pr p c user : api_packet p -> reply_code c -> len user <= 253 ->
  exists bs, packet_encode pr (named_reply p c user) = Ok bs /\ len bs = 22 + len user.
Proof.
  intros A R L. pose proof (named_reply_api p c user A) as A'.
  destruct (C06_encode_outcomes_partial pr _ A') as [(X & _)|[(_ & X & _)|[(_ & _ & X & _)|(_ & _ & _ & bs & E)]]].
  - rewrite named_reply_size. lia.
  - exfalso. change (Exists (fun a => 253 < len (avp_value a)) [AVP (n2b 1) user]) in X.
    inversion X as [? ? Q|? ? Q]; subst; [cbn [avp_value] in Q; lia|inversion Q].
  - rewrite named_reply_size in X. lia.
  - exfalso. destruct X as [X|[X|X]]; change (p_code (named_reply p c user)) with c in X; subst c;
      unfold reply_code in R; intuition discriminate.
  - exists bs. split; [exact E|]. destruct (C05_encode_size_exact _ _ _ A' E) as (_ & Lb & _).
    rewrite Lb. apply named_reply_size.
Qed.
Lemma named_reply_back pr data secret p c user bs : packet_decode data secret = Ok p -> secret <> [] -> reply_code c ->
  len user <= 253 -> packet_encode pr (named_reply p c user) = Ok bs ->
  response_authentic bs data secret
  /\ exists auth, packet_decode bs secret = Ok (Packet c (p_identifier p) auth secret [AVP (n2b 1) user]).
Proof.
  intros D S R L E. pose proof (ap_decode _ _ _ D) as A.
  assert (SE : p_secret p = secret) by (apply packet_decode_ok_iff in D; tauto).
  split.
  - destruct (C11_is_authentic_response bs data secret) as (b & Eb & Hb). apply Hb.
    rewrite (C09_reply_authentic pr data secret p c _ bs D S R (ass_step _ _ _ (ass_refl _) (as_add _ _)) E) in Eb. congruence.
  - pose proof (named_reply_api p c user A) as A'.
    destruct (C05_encode_size_exact _ _ _ A' E) as (_ & Lb & _). rewrite named_reply_size in Lb.
    destruct (C03_encode_decode pr _ bs A' E) as (auth & D' & _); [lia|].
    exists auth. change (p_secret (named_reply p c user)) with (p_secret p) in D'. rewrite SE in D'. exact D'.
Qed.
Lemma decoded_user_name data secret p user : packet_decode data secret = Ok p -> rfc2865_lookup_user_name p = Some (Ok user) ->
  len user <= 253 /\ is_str user.
Proof.
  intros D U. unfold rfc2865_lookup_user_name, packet_lookup in U.
  destruct (attributes_lookup (Packet.p_attributes p) rfc2865_USER_NAME_TYPE) as [a|] eqn:F; [|discriminate]. cbn [option_map] in U.
  injection U as U. destruct (C16_string_decode a) as [[S E]|[_ [m E]]]; rewrite E in U; [|discriminate].
  injection U as <-. split; [|exact S].
  apply find_some in F as [F _]. apply packet_decode_ok_iff in D as (_ & c & (l1 & l2 & body & pad & _ & _ & _ & _ & W) & _).
  pose proof (attrs_wire_values _ _ W) as V. rewrite Forall_forall in V. exact (V _ F).
Qed.

(** ** What the file declares *)
Theorem C83_functions : forall f,
  map (fun d => (fst d, f_name (snd d))) (pg_fns (program_from [source_e2e_test] f))
    = [("MyRequestHandler", "handle_radius_request"); ("LongTimeTakingHandler", "handle_radius_request"); ("MySecretProvider", "fetch_secret")].
Proof. intros []; vm_compute; reflexivity. Qed.
Theorem C83_provider : forall pr f rng he ans a w,
  calls (e2e_program pr f rng he ans) "MySecretProvider" "fetch_secret" [VStruct "MySecretProvider" []; v_addr a] w
    (RVal (vok (v_bytes (bytes_of_string "secret"))) [VStruct "MySecretProvider" []; v_addr a] w).
Proof. intros. exists 1%nat. intros n Hn. rewrite e2e_program_ok. now apply run_e2e_provider. Qed.

(** ** The handler of [test_access_request] *)
(** Given a request that came from the wire, it replies to the sender with an authentic reply that carries the user name of
    the request and nothing else, Access-Accept exactly for "admin" with "p@ssw0rd"; it panics if there is no user name or
    no password in the request or if one is not UTF-8. *)
Theorem C83_handler : forall pr f rng he ans data secret req k tr,
  (f = Openssl -> forall b, he b = None) -> secret <> [] -> packet_decode data secret = Ok (rq_packet req) ->
  sendable ans tr (rq_remote_addr req) ->
  (exists user pw c reply auth o,
     rfc2865_lookup_user_name (rq_packet req) = Some (Ok user)
     /\ rfc2865_lookup_user_password (rq_packet req) = Some (Ok pw) /\ is_str pw
     /\ (user = bytes_of_string "admin" /\ pw = bytes_of_string "p@ssw0rd" -> c = AccessAccept)
     /\ (~ (user = bytes_of_string "admin" /\ pw = bytes_of_string "p@ssw0rd") -> c = AccessReject)
     /\ packet_decode reply secret = Ok (Packet c (p_identifier (rq_packet req)) auth secret [AVP (n2b 1) user])
     /\ response_authentic reply data secret
     /\ test_handles pr f rng he ans "MyRequestHandler" req (World k tr) o
     /\ sends_to ans [VStruct "MyRequestHandler" []; VExt "conn"; v_request req] reply (rq_remote_addr req) k tr o)
  \/ (test_handles pr f rng he ans "MyRequestHandler" req (World k tr) RPanic
      /\ ((forall user, rfc2865_lookup_user_name (rq_packet req) <> Some (Ok user))
          \/ (forall pw, rfc2865_lookup_user_password (rq_packet req) = Some (Ok pw) -> ~ is_str pw))).
Proof.
  intros pr f rng he ans data secret req k tr H S D Sd.
  pose proof (test_handles_text pr f rng he ans req k tr H Sd) as T.
  destruct req as [l rem p]. cbn [rq_packet rq_remote_addr] in *. unfold e2e_reply in T. cbn [rq_packet rq_remote_addr] in T.
  cbv zeta in T.
  destruct (rfc2865_lookup_user_name p) as [u|] eqn:EU.
  2:{ right. split; [exact T|]. left. discriminate. }
  cbn [unwrap_option bind] in T.
  assert (RU : returns u).
  { unfold rfc2865_lookup_user_name in EU. destruct (packet_lookup p _) as [a|]; [|discriminate].
    injection EU as <-. destruct (C16_string_decode a) as [(_ & ->)|(_ & m & ->)]; unfold returns; eauto. }
  destruct RU as [(user & ->)|(e & ->)].
  2:{ right. split; [exact T|]. left. discriminate. }
  cbn [unwrap_result bind] in T.
  destruct (rfc2865_lookup_user_password p) as [w|] eqn:EW.
  2:{ right. split; [exact T|]. right. discriminate. }
  cbn [unwrap_option bind] in T.
  assert (RW : returns w).
  { unfold rfc2865_lookup_user_password in EW. destruct (packet_lookup p _) as [a|]; [|discriminate].
    injection EW as <-. apply user_password_returns. }
  destruct RW as [(pw & ->)|(e & ->)].
  2:{ right. split; [exact T|]. right. discriminate. }
  cbn [unwrap_result bind] in T.
  destruct (string_from_utf8_cases pw) as [(Sp & Ep)|(Sp & m & Ep)]; rewrite Ep in T.
  2:{ right. split; [exact T|]. right. intros pw' X. injection X as <-. exact Sp. }
  cbn [unwrap_result bind] in T. fold (example_code user pw) in T.
  pose proof (example_code_reply user pw) as RC. destruct (decoded_user_name _ _ _ _ D EU) as [LU _].
  destruct (named_reply_encodes pr p _ user (ap_decode _ _ _ D) RC LU) as (reply & E & _).
  rewrite E in T. cbn [unwrap_result bind text_handler] in T.
  destruct (named_reply_back pr data secret p _ user reply D S RC LU E) as (RA & auth & DR).
  left. exists user, pw, (example_code user pw), reply, auth. eexists.
  destruct (example_code_accept user pw) as [G1 G2].
  do 2 (split; [reflexivity|]). split; [exact Sp|]. split; [exact G1|]. split; [exact G2|]. split; [exact DR|]. split; [exact RA|].
  split; [exact T|]. now apply sent_text.
Qed.

(** [test_access_request], for any user and password *)
Lemma exchanged : forall prc prs fs hes rng rng' local remote user pw,
  (fs = Openssl -> forall b, hes b = None) ->
  is_str user -> len user <= 253 -> is_str pw -> ~ In x00 pw -> len pw <= 128 ->
  let secret := bytes_of_string "secret" in
  exists req data reply p,
    made rng user pw req /\ packet_encode prc req = Ok data /\ len data < 1500
    (* the server's task for [data] calls the handler with the request … *)
    /\ processes prs fs rng' hes (free secret) (Task data local remote false TReceived)
         (RWait (World 0 (handler_called (Request local remote req) None :: unlocked
                          :: rev (entered remote secret req))))
    (* … and the handler of the test sends [reply] to the client *)
    /\ (forall k tr ans m, (forall d, ans tr "conn.send_to" [VBytes d; v_addr remote] = Some (vok (v_usize m))) ->
          test_handles prs fs rng' hes ans "MyRequestHandler" (Request local remote req) (World k tr)
            (RVal (vok VUnit) [VStruct "MyRequestHandler" []; VExt "conn"; v_request (Request local remote req)]
              (World k (Event "conn.send_to" [VBytes reply; v_addr remote] (Some (vok (v_usize m))) :: tr))))
    /\ Client.finish req (firstn (N.to_nat MAX_DATAGRAM_SIZE) reply) = Ok p
    /\ (user = bytes_of_string "admin" /\ pw = bytes_of_string "p@ssw0rd" -> p_code p = AccessAccept)
    /\ (~ (user = bytes_of_string "admin" /\ pw = bytes_of_string "p@ssw0rd") -> p_code p = AccessReject)
    /\ rfc2865_lookup_user_name p = Some (Ok user) /\ rfc2865_lookup_user_password p = None
    /\ p_identifier p = p_identifier req /\ response_authentic reply data secret.
Proof.
  intros prc prs fs hes rng rng' local remote user pw Hs SU LU SP Z LP' secret.
  destruct (example_request_packet rng secret user pw ltac:(discriminate) LP' Z SU)
    as (req & ER & A & C & SE & ID & AU & (hid & AT & LH) & LN & LP).
  assert (MD : made rng user pw req).
  { unfold made. unfold example_request in ER. cbv zeta in ER. fold secret.
    destruct (rfc2865_add_user_password _ _) as [q [[]|e| |]]; cbn [unwrap_result bind] in ER; congruence. }
  assert (WS : wire_size req = 20 + (2 + len user + (2 + len hid + 0))) by (unfold wire_size; rewrite AT; reflexivity).
  assert (EN : exists data, packet_encode prc req = Ok data).
  { destruct (C06_encode_outcomes_partial prc req A) as [(X & _)|[(_ & X & _)|[(_ & _ & X & _)|(_ & _ & _ & E)]]].
    - lia.
    - exfalso. rewrite AT in X. inversion X as [? ? Q|? ? Q]; subst; [cbn in Q; lia|].
      inversion Q as [? ? Q'|? ? Q']; subst; cbn in Q'; [lia|inversion Q'].
    - lia.
    - exfalso. rewrite C in X. destruct X as [X|[X|X]]; discriminate.
    - exact E. }
  destruct EN as (data & EN).
  destruct (C05_encode_size_exact _ _ _ A EN) as (_ & LD & _).
  destruct (C03_encode_decode prc req data A EN) as (auth & D & PA); [lia|].
  rewrite (PA (or_introl C)) in D. clear PA auth. rewrite SE in D.
  assert (Dq : packet_decode data secret = Ok req).
  { rewrite D. destruct req; cbn in *; subst; reflexivity. }
  pose proof (example_code_reply user pw) as RC.
  destruct (named_reply_encodes prs req _ user A RC LU) as (reply & RE & RL).
  destruct (named_reply_back prs data secret req _ user reply Dq ltac:(discriminate) RC LU RE) as (RA & auth & DR).
  assert (QA : packet_is_authentic_request data secret = Ok true).
  { rewrite <- SE. apply (C10_request_authentic prc req data A (or_introl (or_introl C))); [rewrite SE; discriminate|exact EN]. }
  assert (FR : firstn (N.to_nat MAX_DATAGRAM_SIZE) reply = reply).
  { apply firstn_all2. unfold len in RL, LU. change MAX_DATAGRAM_SIZE with 65507. lia. }
  destruct (example_code_accept user pw) as [G1 G2].
  exists req, data, reply, (Packet (example_code user pw) (p_identifier req) auth secret [AVP (n2b 1) user]).
  split; [exact MD|]. split; [exact EN|]. split; [lia|].
  split; [|split; [|split; [|split; [exact G1|split; [exact G2|split; [|split; [reflexivity|split; [reflexivity|exact RA]]]]]]]].
  - pose proof (processes_text prs fs rng' hes (free secret) (Task data local remote false TReceived) Hs) as P.
    cbn [t_data t_local t_remote t_skip] in P.
    rewrite (text_validated data local remote false (free secret) _ secret req eq_refl) in P.
    + apply P. lia.
    + split; [reflexivity|]. split; [now right|exact Dq].
  - intros k tr ans m Ha.
    pose proof (test_handles_text prs fs rng' hes ans (Request local remote req) k tr Hs) as T.
    assert (EX : e2e_reply prs (Request local remote req) = Ok (reply, remote)).
    { unfold e2e_reply. cbn [rq_packet rq_remote_addr]. cbv zeta. rewrite LN, LP.
      cbn [unwrap_option unwrap_result bind]. rewrite (string_from_utf8_ok pw SP). cbn [unwrap_result bind].
      fold (example_code user pw). rewrite RE. reflexivity. }
    rewrite EX in T. cbn [text_handler] in T. cbn [rq_remote_addr] in T. unfold text_sent in T. rewrite Ha in T. cbn [answer_of vok String.eqb] in T.
    apply T. intro d. right; left. eexists. apply Ha.
  - rewrite FR. unfold Client.finish. now rewrite SE, DR.
  - change (Some (string_from_utf8 user) = Some (Ok user)). now rewrite string_from_utf8_ok.
Qed.
Theorem C83_exchange : forall prc fc hec prs fs hes rng rng' local remote server user pw n m,
  (fc = Openssl -> forall b, hec b = None) -> (fs = Openssl -> forall b, hes b = None) ->
  is_str user -> len user <= 253 -> is_str pw -> ~ In x00 pw -> len pw <= 128 ->
  let secret := bytes_of_string "secret" in
  exists req data reply p,
    made rng user pw req /\ packet_encode prc req = Ok data /\ len data < 1500
    (* the server's task for [data] calls the handler with the request … *)
    /\ processes prs fs rng' hes (free secret) (Task data local remote false TReceived)
         (RWait (World 0 (handler_called (Request local remote req) None :: unlocked
                          :: rev (entered remote secret req))))
    (* … and the handler of the test sends [reply] to the client *)
    /\ (forall k tr ans, (forall d, ans tr "conn.send_to" [VBytes d; v_addr remote] = Some (vok (v_usize m))) ->
          test_handles prs fs rng' hes ans "MyRequestHandler" (Request local remote req) (World k tr)
            (RVal (vok VUnit) [VStruct "MyRequestHandler" []; VExt "conn"; v_request (Request local remote req)]
              (World k (Event "conn.send_to" [VBytes reply; v_addr remote] (Some (vok (v_usize m))) :: tr))))
    (* with this reply, [send_packet] of a client without timeouts gives what the test asserts *)
    /\ (exists args w, sends prc fc rng hec (replied n reply) (Client None None) server req
           (RVal (vok (v_packet p)) args w))
    /\ (user = bytes_of_string "admin" /\ pw = bytes_of_string "p@ssw0rd" -> p_code p = AccessAccept)
    /\ (~ (user = bytes_of_string "admin" /\ pw = bytes_of_string "p@ssw0rd") -> p_code p = AccessReject)
    /\ rfc2865_lookup_user_name p = Some (Ok user) /\ rfc2865_lookup_user_password p = None
    /\ p_identifier p = p_identifier req /\ response_authentic reply data secret.
Proof.
  intros prc fc hec prs fs hes rng rng' local remote server user pw n m Hc Hs SU LU SP Z LP' secret.
  destruct (exchanged prc prs fs hes rng rng' local remote user pw Hs SU LU SP Z LP')
    as (req & data & reply & p & A1 & A2 & A3 & A4 & A5 & A6 & A7).
  exists req, data, reply, p. split; [exact A1|]. split; [exact A2|]. split; [exact A3|]. split; [exact A4|].
  split; [intros k tr ans Ha; exact (A5 k tr ans m Ha)|]. split; [|exact A7].
  eexists _, _. pose proof (sends_text prc fc rng hec (replied n reply) (Client None None) server req Hc) as S.
  unfold text_send_packet, text_connect, text_send, text_recv in S. cbn [replied r_bind r_connect r_send r_recv r_deadline] in S.
  rewrite A2, A6 in S. exact S.
Qed.

(** ** The handler of [test_socket_timeout] *)
(** While it sleeps it has sent nothing; when it wakes up it sends an Access-Reject without attributes. *)
Theorem C83_slow : forall pr f rng he ans data secret req k tr,
  (f = Openssl -> forall b, he b = None) -> secret <> [] -> packet_decode data secret = Ok (rq_packet req) ->
  let slept a := Event "sleep" [v_duration 30] a :: tr in
  (ans tr "sleep" [v_duration 30] = None ->
     test_handles pr f rng he ans "LongTimeTakingHandler" req (World k tr) (RWait (World k (slept None))))
  /\ (ans tr "sleep" [v_duration 30] = Some VUnit -> sendable ans (slept (Some VUnit)) (rq_remote_addr req) ->
     exists reply auth o, packet_decode reply secret = Ok (Packet AccessReject (p_identifier (rq_packet req)) auth secret [])
       /\ response_authentic reply data secret
       /\ test_handles pr f rng he ans "LongTimeTakingHandler" req (World k tr) o
       /\ sends_to ans [VStruct "LongTimeTakingHandler" []; VExt "conn"; v_request req] reply (rq_remote_addr req) k (slept (Some VUnit)) o).
Proof.
  intros pr f rng he ans data secret req k tr H S D slept. split.
  - intro Hs. exists 5%nat. intros n Hn. rewrite e2e_program_ok. now apply run_slow_handler_asleep.
  - intros Hs Sd. pose proof (ap_decode _ _ _ D) as A.
    assert (SE : p_secret (rq_packet req) = secret) by (apply packet_decode_ok_iff in D; tauto).
    destruct (reply_encodes pr (rq_packet req) AccessReject A) as (reply & RE & RL); [unfold reply_code; tauto|].
    destruct (C03_encode_decode pr _ reply (ap_response _ AccessReject A) RE) as (auth & D' & _); [lia|].
    change (p_secret (packet_make_response_packet (rq_packet req) AccessReject)) with (p_secret (rq_packet req)) in D'. rewrite SE in D'.
    exists reply, auth. eexists. split; [exact D'|]. split.
    + destruct (C11_is_authentic_response reply data secret) as (b & Eb & Hb). apply Hb.
      rewrite (C09_reply_authentic pr data secret _ AccessReject _ reply D S ltac:(unfold reply_code; tauto) (ass_refl _) RE) in Eb. congruence.
    + assert (T : test_handles pr f rng he ans "LongTimeTakingHandler" req (World k tr)
        (text_handler (slow_reply pr req) (fun d => answer_of (ans (slept (Some VUnit)) "conn.send_to" [VBytes d; v_addr (rq_remote_addr req)]))
          [VStruct "LongTimeTakingHandler" []; VExt "conn"; v_request req] k (slept (Some VUnit)))).
      { exists 5%nat. intros n Hn. rewrite e2e_program_ok.
        apply (run_slow_handler pr rng he ans f n req); [exact H|exact Hn|exact Hs|]. now apply sendable_answer. }
      unfold slow_reply in T. rewrite RE in T. cbn [unwrap_result bind text_handler] in T.
      split; [exact T|]. now apply sent_text.
Qed.
(** [test_socket_timeout]: a client whose socket timeout passes before anything came back reports the timeout, whatever it
    sent; with the timeout of the test, zero seconds. *)
Theorem C83_timeout : forall pr f rng he remote user pw n,
  (f = Openssl -> forall b, he b = None) ->
  is_str user -> len user <= 253 -> ~ In x00 pw -> len pw <= 128 ->
  exists req data args w, made rng user pw req /\ packet_encode pr req = Ok data
    /\ sends pr f rng he (unanswered n) (Client None (Some 0)) remote req
         (RVal (verr (v_client_error SocketTimeoutError)) args w)
    /\ map (fun e => (ev_op e, ev_args e)) (rev (w_trace w))
       = [("UdpSocket::bind", [v_addr (local_for remote)]); ("conn.connect", [v_addr remote]);
          ("conn.send", [VBytes data]); ("conn.recv", []); ("timeout", [v_duration 0])].
Proof.
  intros pr f rng he remote user pw n H SU LU Z LP'.
  destruct (example_request_packet rng (bytes_of_string "secret") user pw ltac:(discriminate) LP' Z SU)
    as (req & ER & A & C & SE & ID & AU & (hid & AT & LH) & LN & LP).
  assert (MD : made rng user pw req).
  { unfold made. unfold example_request in ER. cbv zeta in ER.
    destruct (rfc2865_add_user_password _ _) as [q [[]|e| |]]; cbn [unwrap_result bind] in ER; congruence. }
  assert (WS : wire_size req = 20 + (2 + len user + (2 + len hid + 0))) by (unfold wire_size; rewrite AT; reflexivity).
  assert (EN : exists data, packet_encode pr req = Ok data).
  { destruct (C06_encode_outcomes_partial pr req A) as [(X & _)|[(_ & X & _)|[(_ & _ & X & _)|(_ & _ & _ & E)]]].
    - lia.
    - exfalso. rewrite AT in X. inversion X as [? ? Q|? ? Q]; subst; [cbn in Q; lia|].
      inversion Q as [? ? Q'|? ? Q']; subst; cbn in Q'; [lia|inversion Q'].
    - lia.
    - exfalso. rewrite C in X. destruct X as [X|[X|X]]; discriminate.
    - exact E. }
  destruct EN as (data & EN). exists req, data. eexists _, _. split; [exact MD|]. split; [exact EN|].
  pose proof (sends_text pr f rng he (unanswered n) (Client None (Some 0)) remote req H) as T.
  unfold text_send_packet, text_connect, text_send, text_recv, waiting in T.
  cbn [unanswered r_bind r_connect r_send r_recv r_deadline socket_timeout] in T. rewrite EN in T.
  split; [exact T|]. reflexivity.
Qed.

(** ** Cases: the requests of the test itself *)
Example strs : is_str (bytes_of_string "admin") /\ is_str (bytes_of_string "p@ssw0rd") /\ is_str (bytes_of_string "INVALID-PASS").
Proof.
  split; [|split].
  - apply (from_utf8_iff _ (bytes_of_string "admin")). vm_compute; reflexivity.
  - apply (from_utf8_iff _ (bytes_of_string "p@ssw0rd")). vm_compute; reflexivity.
  - apply (from_utf8_iff _ (bytes_of_string "INVALID-PASS")). vm_compute; reflexivity.
Qed.
Lemma no_nul s : forallb (fun b => negb (b2n b =? 0)) s = true -> ~ In x00 s.
Proof. intros H I. rewrite forallb_forall in H. specialize (H _ I). discriminate H. Qed.
Example test_access_request_accepts : exists req reply p args w,
  made any_rng (bytes_of_string "admin") (bytes_of_string "p@ssw0rd") req
  /\ sends Debug Md5Crate any_rng no_hash_error (replied 50 reply) (Client None None) (SockV4 (Ipv4 x7f x00 x00 x01) 1812) req (RVal (vok (v_packet p)) args w)
  /\ p_code p = AccessAccept /\ rfc2865_lookup_user_name p = Some (Ok (bytes_of_string "admin")) /\ rfc2865_lookup_user_password p = None.
Proof.
  destruct strs as (S1 & S2 & _).
  destruct (C83_exchange Debug Md5Crate no_hash_error Debug Md5Crate no_hash_error any_rng any_rng (SockV4 (Ipv4 x00 x00 x00 x00) 1812) peer
    (SockV4 (Ipv4 x7f x00 x00 x01) 1812) (bytes_of_string "admin") (bytes_of_string "p@ssw0rd") 50 27 ltac:(discriminate) ltac:(discriminate)
    S1 ltac:(vm_compute; discriminate) S2 (no_nul (bytes_of_string "p@ssw0rd") eq_refl) ltac:(vm_compute; discriminate))
    as (req & data & reply & p & M & _ & _ & _ & _ & (args & w & So) & G & _ & U & P & _).
  exists req, reply, p, args, w. repeat (split; [eassumption|]). split; [apply G; split; reflexivity|]. now split.
Qed.
Example test_access_request_rejects : exists req reply p args w,
  made any_rng (bytes_of_string "admin") (bytes_of_string "INVALID-PASS") req
  /\ sends Debug Md5Crate any_rng no_hash_error (replied 50 reply) (Client None None) (SockV4 (Ipv4 x7f x00 x00 x01) 1812) req (RVal (vok (v_packet p)) args w)
  /\ p_code p = AccessReject.
Proof.
  destruct strs as (S1 & _ & S3).
  destruct (C83_exchange Debug Md5Crate no_hash_error Debug Md5Crate no_hash_error any_rng any_rng (SockV4 (Ipv4 x00 x00 x00 x00) 1812) peer
    (SockV4 (Ipv4 x7f x00 x00 x01) 1812) (bytes_of_string "admin") (bytes_of_string "INVALID-PASS") 50 27 ltac:(discriminate) ltac:(discriminate)
    S1 ltac:(vm_compute; discriminate) S3 (no_nul (bytes_of_string "INVALID-PASS") eq_refl) ltac:(vm_compute; discriminate))
    as (req & data & reply & p & M & _ & _ & _ & _ & (args & w & So) & _ & G & _).
  exists req, reply, p, args, w. repeat (split; [eassumption|]). apply G. intros [_ X]. discriminate X.
Qed.
(** no password: the handler of the test panics *)
Example test_handler_panics : exists data req, packet_decode data (bytes_of_string "secret") = Ok (rq_packet req)
  /\ test_handles Debug Md5Crate any_rng no_hash_error sending "MyRequestHandler" req (World 0 []) RPanic.
Proof.
  set (p := packet_new any_rng AccessRequest (bytes_of_string "secret")).
  assert (E : exists data, packet_encode Debug p = Ok data) by (eexists; vm_compute; reflexivity).
  destruct E as (data & E). assert (D : packet_decode data (bytes_of_string "secret") = Ok p).
  { vm_compute in E. injection E as <-. vm_compute. reflexivity. }
  exists data, (asking p). split; [exact D|].
  destruct (C83_handler Debug Md5Crate any_rng no_hash_error sending data (bytes_of_string "secret") (asking p) 0 [] ltac:(discriminate) ltac:(discriminate) D (sending_sendable _))
    as [(user & pw & c & reply & au & o & U & _)|[R _]]; [discriminate U|exact R].
Qed.

(** * Assumptions *)
Print Assumptions C83_functions.
Print Assumptions C83_provider.
Print Assumptions C83_handler.
Print Assumptions C83_exchange.
Print Assumptions C83_slow.
Print Assumptions C83_timeout.
