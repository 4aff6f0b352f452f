(** * Final theorems about whole exchanges: C48, C49 *)
From Coq Require Import String List NArith ZArith Bool Arith Strings.Byte Lia ZifyBool ZifyNat ZifyN.
From Verif Require Import Prelude PreludeFacts Md5 Utf8 Tag Avp Code Attributes Packet Addr Spec CodecFacts AuthFacts
  RoundTrip PropPacket AvpSpec Utf8Facts AvpFacts PropAvp Accessors Rfc AccessorSpec AccessorFacts PropAccessors
  Server ServerSpec ServerFacts PropServer Client PropClient ExampleApp Samples.
Import ListNotations.
Local Open Scope N_scope.
Local Open Scope list_scope.

(** ** C48 *)
Definition good_credentials (user pw : bytes) : Prop :=
  user = bytes_of_string "admin" /\ pw = bytes_of_string "p@ssw0rd".

(** What the example handler does with a request: it replies to the sender, unless an attribute is
    missing or not what it must be. *)
Lemma string_from_utf8_ok bs : is_str bs -> string_from_utf8 bs = Ok bs.
Proof. apply string_from_utf8_str. Qed.

Lemma wire_size_response p c : wire_size (packet_make_response_packet p c) = 20.
Proof. reflexivity. Qed.

Lemma reply_encodes pr p c : api_packet p -> reply_code c ->
  exists bs, packet_encode pr (packet_make_response_packet p c) = Ok bs /\ len bs = 20.
Proof.
  intros A R.
  assert (A' : api_packet (packet_make_response_packet p c)) by (apply ap_response, A).
  destruct (C06_encode_outcomes_partial pr _ A') as [(X & _)|[(_ & X & _)|[(_ & _ & X & _)|(_ & _ & _ & bs & E)]]].
  - rewrite wire_size_response. lia.
  - inversion X.
  - rewrite wire_size_response in X. lia.
  - exfalso. destruct X as [X|[X|X]]; cbn [packet_make_response_packet p_code] in X; subst c;
      unfold reply_code in R; intuition discriminate.
  - exists bs. split; [exact E|]. destruct (C05_encode_size_exact _ _ _ A' E) as (_ & L & _).
    rewrite L. apply wire_size_response.
Qed.

Definition example_code (user pw : bytes) : code :=
  if bytes_eqb user (bytes_of_string "admin") && bytes_eqb pw (bytes_of_string "p@ssw0rd")
  then AccessAccept else AccessReject.
Lemma example_code_reply user pw : reply_code (example_code user pw).
Proof. unfold example_code, reply_code. destruct (_ && _); tauto. Qed.
Lemma example_code_accept user pw :
  (good_credentials user pw -> example_code user pw = AccessAccept)
  /\ (~ good_credentials user pw -> example_code user pw = AccessReject).
Proof.
  unfold example_code, good_credentials.
  destruct (bytes_eqb user (bytes_of_string "admin")) eqn:E1;
    destruct (bytes_eqb pw (bytes_of_string "p@ssw0rd")) eqn:E2; cbn [andb]; split; intros H; try reflexivity.
  - apply bytes_eqb_eq in E1. apply bytes_eqb_eq in E2. tauto.
  - exfalso. destruct H as [_ ->]. rewrite (proj2 (bytes_eqb_eq _ _) eq_refl) in E2. discriminate.
  - exfalso. destruct H as [-> _]. rewrite (proj2 (bytes_eqb_eq _ _) eq_refl) in E1. discriminate.
  - exfalso. destruct H as [-> _]. rewrite (proj2 (bytes_eqb_eq _ _) eq_refl) in E1. discriminate.
Qed.

Theorem C48_handler : forall pr r, api_packet (rq_packet r) ->
  (exists user pw reply, rfc2865_lookup_user_name (rq_packet r) = Some (Ok user)
     /\ rfc2865_lookup_user_password (rq_packet r) = Some (Ok pw) /\ is_str pw
     /\ example_reply pr r = Ok (reply, rq_remote_addr r) /\ len reply = 20
     /\ exists c, packet_encode pr (packet_make_response_packet (rq_packet r) c) = Ok reply
        /\ (good_credentials user pw -> c = AccessAccept)
        /\ (~ good_credentials user pw -> c = AccessReject))
  \/ (example_reply pr r = Panic
      /\ ((forall user, rfc2865_lookup_user_name (rq_packet r) <> Some (Ok user))
          \/ (forall pw, rfc2865_lookup_user_password (rq_packet r) = Some (Ok pw) -> ~ is_str pw))).
Proof.
  intros pr [l rem p] A. cbn [rq_packet rq_remote_addr] in *. unfold example_reply. cbn [rq_packet rq_remote_addr].
  cbv zeta.
  destruct (rfc2865_lookup_user_name p) as [u|] eqn:EU.
  2:{ right. split; [reflexivity|]. left. discriminate. }
  cbn [unwrap_option bind].
  assert (RU : returns u).
  { unfold rfc2865_lookup_user_name in EU. destruct (packet_lookup p _) as [a|]; [|discriminate].
    injection EU as <-. destruct (C16_string_decode a) as [(_ & ->)|(_ & m & ->)]; unfold returns; eauto. }
  destruct RU as [(user & ->)|(e & ->)].
  2:{ right. split; [reflexivity|]. left. discriminate. }
  cbn [unwrap_result bind].
  destruct (rfc2865_lookup_user_password p) as [w|] eqn:EW.
  2:{ right. split; [reflexivity|]. right. discriminate. }
  cbn [unwrap_option bind].
  assert (RW : returns w).
  { unfold rfc2865_lookup_user_password in EW. destruct (packet_lookup p _) as [a|]; [|discriminate].
    injection EW as <-. apply user_password_returns. }
  destruct RW as [(pw & ->)|(e & ->)].
  2:{ right. split; [reflexivity|]. right. discriminate. }
  cbn [unwrap_result bind].
  destruct (string_from_utf8_cases pw) as [(S & ->)|(S & m & ->)].
  2:{ right. split; [reflexivity|]. right. intros pw' X. injection X as <-. exact S. }
  cbn [unwrap_result bind]. fold (example_code user pw).
  destruct (reply_encodes pr p _ A (example_code_reply user pw)) as (bs & E & L).
  left. exists user, pw, bs. rewrite E. cbn [unwrap_result bind].
  split; [reflexivity|]. split; [reflexivity|]. split; [exact S|]. split; [reflexivity|].
  split; [exact L|]. exists (example_code user pw). split; [exact E|]. apply example_code_accept.
Qed.

Lemma fetched_once ops s tid a f a' f' : reachable ops s ->
  In (EFetched tid a f) (sv_log s) -> In (EFetched tid a' f') (sv_log s) -> f = f'.
Proof.
  intros R H H'.
  assert (IN : forall e, event_tid e = tid -> In e (sv_log s) -> In e (story s tid)).
  { intros e E I. unfold story, events_of. rewrite <- in_rev. apply filter_In. split; [exact I|].
    rewrite E. apply Nat.eqb_refl. }
  apply IN in H; [|reflexivity]. apply IN in H'; [|reflexivity].
  destruct (C37_story _ _ tid R) as [A B].
  destruct (Nat.lt_ge_cases tid (accepted ops)) as [L|L]; [|rewrite (B L) in H; destruct H].
  destruct (A L) as (d & l & r & k & n & rest & _ & LS & _).
  assert (J : In (EFetched tid a f) (story s tid ++ rest)) by (apply in_or_app; auto).
  assert (J' : In (EFetched tid a' f') (story s tid ++ rest)) by (apply in_or_app; auto).
  clear - LS J J'. inversion LS; subst;
    match goal with X : _ = story _ _ ++ _ |- _ => rewrite <- X in J, J' end;
    cbn [In] in J, J'; intuition congruence.
Qed.

(** The client received a datagram: it has returned what that decodes to. *)
Lemma run_received pr cl remote req ms : forall st d,
  (forall r, st <> CDone r) ->
  In (NReceived d) (snd (client_run pr cl remote req st ms)) ->
  fst (client_run pr cl remote req st ms) = CDone (finish req (firstn (N.to_nat MAX_DATAGRAM_SIZE) d)).
Proof.
  assert (Done : forall r ms, client_run pr cl remote req (CDone r) ms = (CDone r, [])).
  { intros r l. induction l as [|m l IH]; cbn; [reflexivity|]. rewrite IH. reflexivity. }
  assert (Step : forall st m d, (forall r, st <> CDone r) ->
    let '(st', evs) := client_poll pr cl remote req st m in
    (In (NReceived d) evs -> st' = CDone (finish req (firstn (N.to_nat MAX_DATAGRAM_SIZE) d)))).
  { intros st m d N.
    assert (PR : forall dl, let '(st', evs) := poll_recv remote req dl m in
       In (NReceived d) evs -> st' = CDone (finish req (firstn (N.to_nat MAX_DATAGRAM_SIZE) d))).
    { intros dl. unfold poll_recv. generalize (N.to_nat MAX_DATAGRAM_SIZE). intros k. destruct (m_recv m) as [[x|e]|]; [intros [H|[]]; injection H as ->; reflexivity|intros []|destruct (expired dl m); intros []]. }
    assert (PS : forall data dl, let '(st', evs) := poll_send remote req data dl m in
       In (NReceived d) evs -> st' = CDone (finish req (firstn (N.to_nat MAX_DATAGRAM_SIZE) d))).
    { intros data dl. unfold poll_send. specialize (PR dl).
      destruct (m_send m) as [[x|e]|]; [| |destruct (expired dl m)]; [|intros []|intros []|intros []].
      destruct (poll_recv remote req dl m) as [st' evs]. intros [H|H]; [discriminate|auto]. }
    assert (PC : forall dl, let '(st', evs) := poll_connect pr cl remote req dl m in
       In (NReceived d) evs -> st' = CDone (finish req (firstn (N.to_nat MAX_DATAGRAM_SIZE) d))).
    { intros dl. unfold poll_connect, start_request.
      destruct (m_connect m) as [[x|e]|]; [| |destruct (expired dl m)]; [|intros []|intros []|intros []].
      destruct (packet_encode pr req) as [data|e| |]; try (intros [H|[]]; discriminate).
      specialize (PS data (deadline_of (socket_timeout cl) m)).
      destruct (poll_send _ _ _ _ _) as [st' evs]. intros [H|H]; [discriminate|auto]. }
    destruct st as [|dl|data dl|dl|r]; cbn [client_poll]; [|apply PC|apply PS|apply PR|contradiction (N r); reflexivity].
    unfold poll_bind. destruct (m_bind m) as [[x|e]|]; [|intros []|intros []].
    specialize (PC (deadline_of (connection_timeout cl) m)).
    destruct (poll_connect _ _ _ _ _ _) as [st' evs]. intros [H|H]; [discriminate|auto]. }
  clear - Done Step. revert Step. generalize (N.to_nat MAX_DATAGRAM_SIZE). intros k Step.
  induction ms as [|m ms IH]; intros st d N; cbn [client_run]; [intros []|].
  specialize (Step st m d N). destruct (client_poll pr cl remote req st m) as [st' evs].
  destruct (client_run pr cl remote req st' ms) as [st'' evs'] eqn:E. cbn [fst snd].
  intros H. apply in_app_or in H. destruct H as [H|H].
  - specialize (Step H). subst st'. rewrite Done in E. inversion E. reflexivity.
  - destruct st' as [|dl|data dl|dl|r].
    1-4: match type of E with client_run _ _ _ _ ?st _ = _ =>
           assert (N' : forall r, st <> CDone r) by discriminate;
           specialize (IH st d N'); rewrite E in IH; exact (IH H) end.
    rewrite Done in E. injection E as <- <-. destruct H.
Qed.

Lemma example_request_packet rng secret user pw :
  secret <> [] -> len pw <= 128 -> ~ In x00 pw -> is_str user ->
  exists req, example_request rng secret user pw = Ok req
    /\ api_packet req /\ p_code req = AccessRequest /\ p_secret req = secret
    /\ p_identifier req = rng 16%nat /\ p_authenticator req = map rng (seq 0 16)
    /\ (exists hidden, p_attributes req = [AVP (n2b 1) user; AVP (n2b 2) hidden] /\ 16 <= len hidden <= 128)
    /\ rfc2865_lookup_user_name req = Some (Ok user)
    /\ rfc2865_lookup_user_password req = Some (Ok pw).
Proof.
  intros S L Z U.
  set (auth := map rng (seq 0 16)).
  assert (LA : len auth = 16) by reflexivity.
  destruct (C22_user_password_hiding (n2b 2) pw secret auth L S LA)
    as (a & _ & _ & E & T & _ & _ & _ & _ & B).
  destruct (C23_user_password_roundtrip_partial (n2b 2) pw secret auth L S LA Z) as (a' & E' & D).
  rewrite E in E'. injection E' as <-. destruct a as [t v]. cbn [avp_typ avp_value] in *. subst t.
  exists (Packet AccessRequest (rng 16%nat) auth secret [AVP (n2b 1) user; AVP (n2b 2) v]).
  split.
  { unfold example_request. cbv zeta. unfold rfc2865_add_user_password, rfc2865_add_user_name, try_add.
    change (packet_get_authenticator _) with auth. change (packet_get_secret _) with secret.
    unfold rfc2865_USER_PASSWORD_TYPE, rfc2865_USER_NAME_TYPE. rewrite E. reflexivity. }
  split.
  { apply (ap_step (packet_add (packet_new rng AccessRequest secret) (AVP (n2b 1) user)));
      [apply (ap_step (packet_new rng AccessRequest secret)); [apply ap_new|apply as_add]|].
    exact (as_add (packet_add (packet_new rng AccessRequest secret) (AVP (n2b 1) user)) (AVP (n2b 2) v)). }
  repeat split; try reflexivity.
  - exists v. auto.
  - unfold rfc2865_lookup_user_name. cbn [packet_lookup attributes_lookup p_attributes].
    change (Some (string_from_utf8 user) = Some (Ok user)). rewrite string_from_utf8_ok by exact U. reflexivity.
  - change (Some (avp_encode_user_password (AVP (n2b 2) v) secret auth) = Some (Ok pw)). rewrite D. reflexivity.
Qed.

(** The whole exchange. [rng] stands for the random authenticator and identifier; the schedule of
    the server, its other clients and its settings are arbitrary, and so is the behaviour of the
    network towards the client. *)
Theorem C48_exchange : forall pr rng secret user pw,
  secret <> [] -> is_str user -> len user <= 253 ->
  is_str pw -> ~ In x00 pw -> len pw <= 128 ->
  exists req data reply,
    example_request rng secret user pw = Ok req
    /\ packet_encode pr req = Ok data /\ len data <= 405
    (* the server *)
    /\ (forall ops s tid local remote skip n,
          reachable ops s -> taken ops tid data local remote skip n -> len data <= n ->
          In (EFetched tid remote (FOk secret)) (sv_log s) ->
          (forall r, In (EInvoked tid r) (sv_log s) -> example_reply pr r = Ok (reply, remote))
          /\ (~ unfinished s tid -> (exists r, In (EInvoked tid r) (sv_log s))
              \/ exists newer older tid', sv_log s = newer ++ EEnded tid DuplicateRequest :: older
                 /\ tid' <> tid
                 /\ busy older (socket_addr_to_string remote) (p_identifier req) tid'))
    (* the reply *)
    /\ len reply = 20 /\ response_authentic reply data secret
    (* the client *)
    /\ (forall cl remote ms, In (NReceived reply) (trace pr cl remote req ms) ->
          exists p, returned pr cl remote req ms (Ok p)
            /\ p_identifier p = p_identifier req
            /\ (good_credentials user pw -> p_code p = AccessAccept)
            /\ (~ good_credentials user pw -> p_code p = AccessReject)).
Proof.
  intros pr rng secret user pw S U LU W Z LW.
  destruct (example_request_packet rng secret user pw S LW Z U)
    as (req & ER & A & C & SE & ID & AU & (hid & AT & LH) & LN & LP).
  assert (WS : wire_size req = 20 + (2 + len user + (2 + len hid + 0))) by (unfold wire_size; rewrite AT; reflexivity).
  assert (EN : exists data, packet_encode pr req = Ok data).
  { destruct (C06_encode_outcomes_partial pr req A) as [(X & _)|[(_ & X & _)|[(_ & _ & X & _)|(_ & _ & _ & E)]]].
    - lia.
    - exfalso. rewrite AT in X. inversion X as [? ? Q|? ? Q]; subst; cbn in Q; [lia|].
      inversion Q as [? ? Q'|? ? Q']; subst; cbn in Q'; [lia|inversion Q'].
    - lia.
    - exfalso. rewrite C in X. destruct X as [X|[X|X]]; discriminate.
    - exact E. }
  destruct EN as (data & EN).
  destruct (C05_encode_size_exact _ _ _ A EN) as (_ & LD & _).
  destruct (C03_encode_decode pr req data A EN) as (auth & D & PA); [lia|].
  rewrite (PA (or_introl C)) in D. clear PA auth. rewrite SE in D.
  assert (Dq : packet_decode data secret = Ok req).
  { rewrite D. destruct req; cbn in *; subst; reflexivity. }
  destruct (reply_encodes pr req (example_code user pw) A (example_code_reply user pw)) as (reply & RE & RL).
  exists req, data, reply. split; [exact ER|]. split; [exact EN|]. split; [lia|].
  assert (EX : forall local remote, example_reply pr (Request local remote req) = Ok (reply, remote)).
  { intros local remote. unfold example_reply. cbn [rq_packet rq_remote_addr]. cbv zeta.
    rewrite LN, LP. cbn [unwrap_option unwrap_result bind]. rewrite string_from_utf8_ok by exact W.
    cbn [unwrap_result bind]. fold (example_code user pw). rewrite RE. reflexivity. }
  split; [|split; [exact RL|split]].
  - intros ops s tid local remote skip n R T LDn F.
    assert (TR : truncated n data = data) by (unfold truncated; apply firstn_all2; unfold len in *; lia).
    split.
    + intros r I. destruct (C36_handler_input _ _ _ _ R I) as (d & k & m & secret' & T' & F' & _ & D' & _).
      destruct (taken_det _ _ _ _ _ _ _ _ _ _ _ _ T T') as (<- & E1 & E2 & <- & <-).
      assert (secret' = secret) as ->.
      { rewrite <- E2 in F'.
        assert (X : FOk secret' = FOk secret) by (eapply fetched_once; [exact R|exact F'|exact F]). congruence. }
      rewrite TR, Dq in D'. injection D' as D'. destruct r as [l0 r0 p0].
      cbn [rq_local_addr rq_remote_addr rq_packet] in *. subst. apply EX.
    + intros NU. destruct (C39_handled_or_busy ops s tid data local remote skip n secret req R T NU F) as [I|B].
      * split; [exact S|]. rewrite TR. split; [exact Dq|]. intros _.
        destruct (C12_is_authentic_request data secret) as (b & Eb & Hb). apply Hb.
        rewrite <- SE in Eb. rewrite (C10_request_authentic pr req data A (or_introl (or_introl C))) in Eb;
          [congruence|congruence|exact EN].
      * left. eauto.
      * right. exact B.
  - destruct (C11_is_authentic_response reply data secret) as (b & Eb & Hb). apply Hb.
    rewrite (C09_reply_authentic pr data secret req (example_code user pw) _ reply Dq S (example_code_reply user pw)
      (ass_refl _) RE) in Eb. congruence.
  - intros cl remote ms I. unfold trace, send_packet in I.
    pose proof (run_received pr cl remote req ms CBinding reply ltac:(discriminate) I) as X.
    assert (FR : firstn (N.to_nat MAX_DATAGRAM_SIZE) reply = reply).
    { apply firstn_all2. unfold len in RL. change MAX_DATAGRAM_SIZE with 65507. lia. }
    rewrite FR in X. unfold finish in X.
    destruct (C03_encode_decode pr _ reply (ap_response _ (example_code user pw) A) RE) as (auth' & D' & _); [lia|].
    change (p_secret (packet_make_response_packet req (example_code user pw))) with (p_secret req) in D'.
    rewrite D' in X. eexists. split; [exact X|].
    cbn [p_identifier p_code packet_make_response_packet]. split; [reflexivity|].
    apply example_code_accept.
Qed.

(** Where the password cannot be hidden, the example client stops with a panic and makes no request. *)
Theorem C48_client_refuses : forall rng secret user pw,
  (secret = [] \/ 128 < len pw <-> example_request rng secret user pw = Panic)
  /\ (secret <> [] /\ len pw <= 128 <-> exists req, example_request rng secret user pw = Ok req).
Proof.
  intros rng secret user pw.
  assert (X : (secret = [] \/ 128 < len pw) /\ example_request rng secret user pw = Panic
    \/ (secret <> [] /\ len pw <= 128) /\ exists req, example_request rng secret user pw = Ok req).
  { unfold example_request. cbv zeta. unfold rfc2865_add_user_password, try_add, avp_from_user_password.
    destruct (128 <? len pw) eqn:L; [left; split; [right; lia|reflexivity]|].
    destruct secret as [|b secret]; [left; split; [left; reflexivity|reflexivity]|].
    right. split; [split; [discriminate|lia]|].
    change (len (packet_get_secret (rfc2865_add_user_name (packet_new rng AccessRequest (b :: secret)) user)) =? 0) with (N.pos (Pos.of_succ_nat (List.length secret)) =? 0).
    cbn [N.eqb]. change (len (packet_get_authenticator (rfc2865_add_user_name (packet_new rng AccessRequest (b :: secret)) user)) =? 16) with true.
    cbn [negb]. destruct (len pw =? 0); eexists; reflexivity. }
  destruct X as [[A ->]|[[A1 A2] [req ->]]].
  - split; [tauto|]. split; [intros [S L]; destruct A; [contradiction|lia]|intros [? ?]; discriminate].
  - split; [|split; [eauto|tauto]]. split; [intros [S|L]; [contradiction|lia]|discriminate].
Qed.

(** a run in which the reply reaches the client, and the credentials are right *)
Definition example_rng : nat -> byte := fun i => n2b (N.of_nat i * 7).
Example C48_example : exists req data reply p,
  example_request example_rng (bytes_of_string "secret") (bytes_of_string "admin")
    (bytes_of_string "p@ssw0rd") = Ok req
  /\ packet_encode Release req = Ok data
  /\ (exists s, reachable [ORun; ORecv data client_a (Some server_addr);
                           OFetch 0 (FOk (bytes_of_string "secret")); OValidate 0; OLock 0; OCheck 0;
                           OInvoke 0] s
      /\ In (EInvoked 0 (Request server_addr client_a req)) (sv_log s))
  /\ example_reply Release (Request server_addr client_a req) = Ok (reply, client_a)
  /\ returned Release sample_client sample_remote req [all_ready 0 reply] (Ok p)
  /\ p_code p = AccessAccept.
Proof.
  eexists. eexists. eexists. eexists. split; [vm_compute; reflexivity|]. split; [vm_compute; reflexivity|].
  split; [eexists; split; [vm_compute; reflexivity|cbn [sv_log In]; tauto]|].
  split; [vm_compute; reflexivity|]. split; [vm_compute; reflexivity|reflexivity].
Qed.
(** a request the example handler cannot cope with: authentic, but without attributes *)
Example C48_example_panic : exists p,
  packet_decode ([x01; x05; x00; x14] ++ repeat x11 16) (bytes_of_string "secret") = Ok p
  /\ packet_is_authentic_request ([x01; x05; x00; x14] ++ repeat x11 16) (bytes_of_string "secret") = Ok true
  /\ example_handler Release (Request server_addr client_a p) true = HPanic.
Proof. eexists. split; [vm_compute; reflexivity|]. split; vm_compute; reflexivity. Qed.

(** ** C49 *)
(** REFUTED: the client does not read what the server wrote, since the password was hidden with
    the authenticator of the request and is read with that of the reply. *)
Theorem C49_tunnel_password_in_reply_refuted : exists pr request secret p r bs q,
  packet_decode request secret = Ok p /\ secret <> []
  /\ rfc2868_add_tunnel_password (packet_make_response_packet p AccessAccept) x01 x02 None
       (bytes_of_string "hello") = (r, Ok tt)
  /\ packet_encode pr r = Ok bs /\ response_authentic bs request secret
  /\ packet_decode bs secret = Ok q
  /\ exists w, rfc2868_lookup_tunnel_password q = Some (Ok w) /\ fst w <> bytes_of_string "hello".
Proof.
  exists Release, sample_request, sample_secret. eexists. eexists. eexists. eexists.
  split; [vm_compute; reflexivity|]. split; [discriminate|]. split; [vm_compute; reflexivity|].
  split; [vm_compute; reflexivity|].
  split; [split; [vm_compute; discriminate|split; [vm_compute; discriminate|split; [discriminate|vm_compute; reflexivity]]]|].
  split; [vm_compute; reflexivity|]. eexists. split; [vm_compute; reflexivity|]. vm_compute. discriminate.
Qed.

(** What holds: the password is recovered if the attribute is read with the authenticator of the
    request, as RFC 2868 section 3.5 has it. Missing: the accessor does not do that. *)
Theorem C49_request_authenticator_partial : forall pr request secret p c r0 r1 t pw,
  packet_decode request secret = Ok p -> secret <> [] -> reply_code c ->
  len pw <= 240 -> ~ In x00 pw ->
  exists r bs q a,
    rfc2868_add_tunnel_password (packet_make_response_packet p c) r0 r1 t pw = (r, Ok tt)
    /\ packet_encode pr r = Ok bs /\ packet_decode bs secret = Ok q
    /\ p_attributes q = [a] /\ packet_lookup q (n2b 69) = Some a
    /\ avp_encode_tunnel_password a secret (octets request 4 20) = Ok (pw, Tag (n2b (tag_octet t)))
    /\ rfc2868_lookup_tunnel_password q = Some (avp_encode_tunnel_password a secret (octets bs 4 20)).
Proof.
  intros pr request secret p c r0 r1 t pw D S RC L Z.
  pose proof D as D0. apply C01_decode_ok_iff in D0 as (SE & cc & W & _).
  destruct W as (l1 & l2 & body & padding & EQ & LA & _).
  assert (AU : p_authenticator p = octets request 4 20).
  { rewrite EQ. unfold octets. cbn [app skipn Nat.sub]. rewrite firstn_app, firstn_all2 by (unfold len in LA; lia).
    replace (16 - length (p_authenticator p))%nat with 0%nat by (unfold len in LA; lia). symmetry. apply app_nil_r. }
  destruct (C24_tunnel_password_roundtrip_partial r0 r1 (n2b 69) t pw secret (p_authenticator p) L S LA Z)
    as (a & EA & DA).
  destruct (from_tunnel_password_cases r0 r1 (n2b 69) t pw secret (p_authenticator p))
    as [(X & _)|[(_ & X & _)|(_ & _ & EA')]]; try contradiction.
  cbv zeta in EA'. rewrite EA in EA'. injection EA' as EA'.
  assert (TY : avp_typ a = n2b 69) by (rewrite EA'; reflexivity).
  assert (LV : len (avp_value a) <= 243).
  { rewrite EA'. cbn [avp_value app]. rewrite !len_cons, enc_concat_len. lia. }
  clear EA'.
  set (m := packet_make_response_packet p c).
  assert (AM : api_packet m) by (apply ap_response; eapply ap_decode; exact D).
  set (r := packet_add m a).
  assert (AR : api_packet r) by (eapply ap_step; [exact AM|apply as_add]).
  assert (AT : p_attributes r = [a]) by reflexivity.
  assert (WS : wire_size r = 20 + (2 + len (avp_value a) + 0)) by reflexivity.
  assert (SR : p_secret r = secret) by (exact SE).
  assert (EN : exists bs, packet_encode pr r = Ok bs).
  { destruct (C06_encode_outcomes_partial pr r AR) as [(X & _)|[(_ & X & _)|[(_ & _ & X & _)|(_ & _ & _ & E)]]].
    - lia.
    - exfalso. rewrite AT in X. inversion X as [? ? Q|? ? Q]; subst; [lia|inversion Q].
    - lia.
    - exfalso. change (p_code r) with c in X. unfold reply_code, unsendable_code in *.
      destruct X as [X|[X|X]]; subst c; intuition discriminate.
    - exact E. }
  destruct EN as (bs & EN). destruct (C05_encode_size_exact _ _ _ AR EN) as (_ & LB & _).
  destruct (C03_encode_decode pr r bs AR EN) as (auth & DQ & _); [lia|]. rewrite SR in DQ.
  exists r, bs. eexists. exists a. split.
  { unfold rfc2868_add_tunnel_password, try_add.
    change (packet_get_secret m) with (p_secret p).
    change (packet_get_authenticator m) with (p_authenticator p).
    rewrite SE. unfold rfc2868_TUNNEL_PASSWORD_TYPE. rewrite EA. reflexivity. }
  split; [exact EN|]. split; [exact DQ|]. split; [exact AT|].
  assert (LK : packet_lookup (Packet (p_code r) (p_identifier r) auth secret (p_attributes r)) (n2b 69) = Some a).
  { rewrite AT. unfold packet_lookup, attributes_lookup. cbn [p_attributes find]. rewrite TY. reflexivity. }
  split; [exact LK|]. split; [rewrite <- AU; exact DA|].
  unfold rfc2868_lookup_tunnel_password. change rfc2868_TUNNEL_PASSWORD_TYPE with (n2b 69). rewrite LK.
  cbn [option_map packet_get_secret packet_get_authenticator p_secret p_authenticator].
  do 2 f_equal.
  apply C01_decode_ok_iff in DQ as (_ & c' & W & _). destruct W as (x1 & x2 & body' & pad' & EQ' & LA' & _).
  cbn [p_authenticator] in *. rewrite EQ'. unfold octets. cbn [app skipn Nat.sub].
  rewrite firstn_app, firstn_all2 by (unfold len in LA'; lia).
  replace (16 - length auth)%nat with 0%nat by (unfold len in LA'; lia). symmetry. apply app_nil_r.
Qed.

(** The client reads the right password only if the two key streams happen to agree. *)
Lemma xor_zip_agree m : forall m' p k, length m' = length m -> length p = length m ->
  firstn k (xor_zip m' (xor_zip m p)) = firstn k p -> firstn k m' = firstn k m.
Proof.
  induction m as [|x m IH]; intros [|x' m'] [|y p] [|k]; cbn [length xor_zip firstn]; intros L L' E;
    try discriminate; try reflexivity.
  injection E as E1 E2. f_equal.
  - apply (f_equal (byte_xor x')) in E1. rewrite byte_xor_invol in E1.
    apply (f_equal (byte_xor y)) in E1. rewrite (byte_xor_comm x y), (byte_xor_comm x' y), !byte_xor_invol in E1.
    congruence.
  - apply (IH m' p k); [lia|lia|exact E2].
Qed.
Lemma before_first_zero_prefix l : firstn (length (before_first_zero l)) l = before_first_zero l.
Proof.
  induction l as [|b l IH]; cbn [before_first_zero]; [reflexivity|].
  destruct (Byte.eqb b x00); cbn [length firstn]; [reflexivity|]. rewrite IH. reflexivity.
Qed.
Lemma dec_loop_prefix secret cs : forall buff acc, exists rest,
  password_dec_loop secret buff cs acc = acc ++ rest.
Proof.
  induction cs as [|c cs IH]; intros buff acc; cbn [password_dec_loop]; cbv zeta.
  - exists []. symmetry. apply app_nil_r.
  - destruct (IH c (acc ++ xor_zip (md5 (secret ++ buff)) c)) as (rest & E). rewrite E, <- app_assoc. eauto.
Qed.
Lemma firstn_min_app {A} (k : nat) (a b c : list A) : length a = 16%nat ->
  firstn k (a ++ b) = c -> firstn (Nat.min 16 k) a = firstn (Nat.min 16 k) c.
Proof.
  intros L E. rewrite <- E. rewrite firstn_firstn. replace (Nat.min (Nat.min 16 k) k) with (Nat.min 16 k) by lia.
  rewrite firstn_app, L. replace (Nat.min 16 k - 16)%nat with 0%nat by lia. symmetry. apply app_nil_r.
Qed.
Theorem C49_coincidence : forall r0 r1 typ t pw secret auth auth' a t',
  avp_from_tunnel_password r0 r1 typ t pw secret auth = Ok a ->
  avp_encode_tunnel_password a secret auth' = Ok (pw, t') ->
  exists salt, octets (avp_value a) 1 3 = salt
    /\ firstn (Nat.min 16 (length pw)) (md5 (secret ++ auth' ++ salt))
       = firstn (Nat.min 16 (length pw)) (md5 (secret ++ auth ++ salt)).
Proof.
  intros r0 r1 typ t pw secret auth auth' a t' EA DA.
  destruct (from_tunnel_password_cases r0 r1 typ t pw secret auth)
    as [(_ & e & X)|[(_ & _ & X)|(_ & S & X)]]; try congruence.
  cbv zeta in X. rewrite EA in X. injection X as ->. clear EA.
  set (b1 := n2b (N.lor (b2n r0) 128)) in *.
  exists [b1; r1]. split; [reflexivity|].
  unfold avp_encode_tunnel_password in DA. cbn [avp_value] in DA. cbv zeta in DA.
  set (body := concat (enc_blocks secret (auth ++ [b1; r1]) (pw_blocks pw))) in *.
  change (n2b (tag_octet t) :: [b1; r1] ++ body) with (n2b (tag_octet t) :: b1 :: r1 :: body) in DA.
  destruct (_ || _) in DA; [discriminate|].
  replace (@index avp_error (n2b (tag_octet t) :: b1 :: r1 :: body) 1) with (@Ok avp_error byte b1) in DA by reflexivity.
  cbn [bind] in DA. destruct (negb _) in DA; [discriminate|]. destruct (len secret =? 0); [discriminate|].
  destruct (negb _) in DA; [discriminate|].
  replace (@index avp_error (n2b (tag_octet t) :: b1 :: r1 :: body) 0)
      with (@Ok avp_error byte (n2b (tag_octet t))) in DA by reflexivity.
  cbn [bind] in DA.
  rewrite (slice_app [n2b (tag_octet t)] [b1; r1] body) in DA by reflexivity. cbn [bind] in DA.
  rewrite (slice_from_app [n2b (tag_octet t); b1; r1] body) in DA by reflexivity. cbn [bind] in DA.
  injection DA as DA _.
  destruct (enc_blocks_len secret (pw_blocks pw) (pw_blocks_forall pw) (auth ++ [b1; r1])) as [F _].
  unfold body in DA. rewrite chunks_concat_blocks in DA by exact F.
  destruct (pw_blocks_concat pw) as (k & C & _). pose proof (pw_blocks_forall pw) as FB.
  destruct (pw_blocks pw) as [|p ps]; [cbn in DA; subst pw; reflexivity|].
  cbn [enc_blocks password_dec_loop] in DA. cbv zeta in DA. cbn [app] in DA.
  match type of DA with before_first_zero (password_dec_loop _ ?b ?cs ?acc) = _ =>
    destruct (dec_loop_prefix secret cs b acc) as (rest & E); rewrite E in DA end.
  pose proof (before_first_zero_prefix (xor_zip (md5 (secret ++ auth' ++ [b1; r1]))
    (xor_octets p (md5 (secret ++ auth ++ [b1; r1]))) ++ rest)) as P.
  rewrite DA in P. rewrite <- xor_zip_octets, (xor_zip_comm p) in P.
  pose proof (Forall_inv FB) as LP. unfold len in LP.
  assert (LM : forall x, length (md5 x) = 16%nat).
  { intros x. pose proof (len_md5 x) as X. unfold len in X. lia. }
  apply firstn_min_app in P.
  2:{ rewrite !xor_zip_length, !LM. lia. }
  cbn [concat] in C.
  assert (C' : firstn (length pw) (p ++ concat ps) = pw).
  { rewrite C, firstn_app, Nat.sub_diag, firstn_all. apply app_nil_r. }
  apply firstn_min_app in C'; [|lia]. rewrite <- C' in P.
  apply xor_zip_agree in P; [|rewrite !LM; reflexivity|rewrite LM; lia].
  exact P.
Qed.

(** * Assumptions *)
Print Assumptions C48_handler.
Print Assumptions C48_exchange.
Print Assumptions C48_client_refuses.
Print Assumptions C49_tunnel_password_in_reply_refuted.
Print Assumptions C49_request_authenticator_partial.
Print Assumptions C49_coincidence.
