(** * More about the server: the order of handler calls (C35), what counts as a duplicate (C58),
      retransmissions (C60), forged requests (C61), what stops the server (C74) *)
From Coq Require Import String List NArith ZArith Bool Arith Strings.Byte Lia ZifyBool ZifyNat ZifyN.
From Verif Require Import Prelude PreludeFacts Md5 Avp Code Packet Addr Server Spec CodecFacts AuthFacts
  RoundTrip PropPacket ServerSpec ServerFacts Samples PropServer.
Import ListNotations.
Local Open Scope N_scope.
Local Open Scope list_scope.

(** The moment of a handler call. *)
Lemma invoked_split ops s tid r newer older : reachable ops s ->
  sv_log s = newer ++ EInvoked tid r :: older ->
  exists before after s1 t p, ops = before ++ OInvoke tid :: after /\ reachable before s1
    /\ sv_log s1 = older /\ nth_error (sv_tasks s1) tid = Some t /\ t_state t = TInserted p
    /\ r = Request (t_local t) (t_remote t) p.
Proof.
  intros R. revert newer older. revert ops s R.
  apply (rev_ind_ops (fun ops s => forall newer older, sv_log s = newer ++ EInvoked tid r :: older ->
    exists before after s1 t p, ops = before ++ OInvoke tid :: after /\ reachable before s1
      /\ sv_log s1 = older /\ nth_error (sv_tasks s1) tid = Some t /\ t_state t = TInserted p
      /\ r = Request (t_local t) (t_remote t) p)).
  - intros newer older H. destruct newer; discriminate.
  - intros ops s o s' R IH X newer older H.
    assert (IH' : forall newer', sv_log s = newer' ++ EInvoked tid r :: older ->
      exists before after s1 t p, ops ++ [o] = before ++ OInvoke tid :: after /\ reachable before s1
      /\ sv_log s1 = older /\ nth_error (sv_tasks s1) tid = Some t /\ t_state t = TInserted p
      /\ r = Request (t_local t) (t_remote t) p).
    { intros newer' H'. destruct (IH _ _ H') as (b & a & s1 & t & p & -> & Y).
      exists b, (a ++ [o]), s1, t, p. split; [rewrite <- app_assoc; reflexivity|exact Y]. }
    clear IH.
    assert (OK : forall evs, sv_log s' = evs ++ sv_log s -> ~ In (EInvoked tid r) evs ->
      exists before after s1 t p, ops ++ [o] = before ++ OInvoke tid :: after /\ reachable before s1
      /\ sv_log s1 = older /\ nth_error (sv_tasks s1) tid = Some t /\ t_state t = TInserted p
      /\ r = Request (t_local t) (t_remote t) p).
    { intros evs E N. rewrite E in H. clear E. revert newer H. induction evs as [|e evs IHe]; intros newer H.
      - apply (IH' newer H).
      - destruct newer as [|e' newer]; cbn [app] in H.
        + exfalso. injection H as -> _. apply N. left. reflexivity.
        + injection H as <- H. apply (IHe (fun Z => N (or_intror Z)) newer H). }
    destruct o; cbn [exec] in X;
      try (destruct (sv_run s); [|discriminate]; injection X as <-; apply (OK []); [reflexivity|intros []]; fail);
      try (destruct (sv_run s); [discriminate|]; injection X as <-; apply (OK []); [reflexivity|intros []]; fail).
    { destruct (sv_run s) as [buf|]; [|discriminate]. injection X as <-. unfold exec_recv in OK.
      unfold exec_recv in H. destruct (recv_into buf datagram). destruct local.
      - eapply (OK [_]); [reflexivity|]. intros Z. in_list Z.
      - apply (OK []); [reflexivity|]. intros Z. in_list Z. }
    all: unfold exec_task in X; destruct (nth_error (sv_tasks s) tid0) as [t|] eqn:Ht; [|discriminate];
      destruct (t_state t) as [|secret|p|p|p|p|p|p|rr] eqn:Hst; try discriminate.
    all: repeat match type of X with
       | context [match ?o with FOk _ => _ | FErr => _ | FPanic => _ end] => destruct o
       | context [match ?o with HOk => _ | HErr => _ | HPanic => _ end] => destruct o
       | context [match packet_decode ?a ?b with _ => _ end] => destruct (packet_decode a b)
       | context [match packet_is_authentic_request ?a ?b with _ => _ end] =>
           destruct (packet_is_authentic_request a b) as [[|]|?| |]
       | context [if set_contains ?a ?b then _ else _] => destruct (set_contains a b) eqn:SC
       | context [if ?b then _ else _] => destruct b
       | context [match sv_lock ?x with _ => _ end] => destruct (sv_lock x)
       end; try discriminate.
    all: injection X as <-.
    all: try (eapply OK; [cbn [move_end move sv_log app];
           first [reflexivity
                 |match goal with |- ?a :: ?b :: sv_log _ = _ => instantiate (1 := [a; b]) end; reflexivity
                 |match goal with |- ?a :: sv_log _ = _ => instantiate (1 := [a]) end; reflexivity
                 |match goal with |- sv_log _ = _ => instantiate (1 := []) end; reflexivity]
             |let Z := fresh in intros Z; in_list Z]; fail).
    cbn [move_end move sv_log app] in H. destruct newer as [|e newer]; cbn [app] in H.
    + injection H as -> <- <-. exists ops, [], s, t, p. split; [reflexivity|]. auto.
    + injection H as _ H. apply (IH' newer H).
Qed.

(** ** C35, over the whole history: when the handler is called, every earlier call for that client
    address and identifier has returned (without a panic) and its processing was completed. *)
Theorem C35_calls_serialised : forall ops s newer older tid r tid' r',
  reachable ops s -> sv_log s = newer ++ EInvoked tid r :: older ->
  In (EInvoked tid' r') older -> same_key r r' ->
  (In (EReturned tid' HOk) older \/ In (EReturned tid' HErr) older) /\ In (EEnded tid' Completed) older.
Proof.
  intros ops s newer older tid r tid' r' R L I [K1 K2].
  destruct (invoked_split _ _ _ _ _ _ R L) as (b & a & s1 & t & p & -> & R1 & <- & Ht & Hst & ->).
  destruct (invoked_task _ _ _ _ R1 I) as (u & sc & q & d & n & Hu & T & -> & V & F & C).
  cbn [rq_remote_addr rq_packet] in K1, K2.
  pose proof (reachable_inv _ _ R1) as Iv.
  assert (Cl : claim s1 tid = Some (key_of (t_remote t) p)).
  { unfold claim, claim_of. rewrite Ht, Hst. reflexivity. }
  assert (NC : claim s1 tid' <> Some (key_of (t_remote u) q)).
  { intros Cl'. assert (E : tid = tid').
    { apply (inv_uniq _ Iv _ _ _ Cl). rewrite Cl'. unfold key_of. congruence. }
    subst tid'. rewrite Ht in Hu. injection Hu as <-.
    destruct C as [C|[([C|C] & _)|[(C & _)|[(C & _)|(C & _)]]]]; congruence. }
  assert (Done : t_state u = TEnded Completed).
  { destruct C as [C|[([C|C] & _)|[(C & _)|[(_ & _ & C)|(_ & _ & C)]]]]; auto; exfalso; try (exact (NC C));
      apply NC; unfold claim, claim_of; rewrite Hu, C; reflexivity. }
  destruct (inv_log _ Iv _ _ Hu) as (dd & Hd). unfold history in Hd. rewrite Done in Hd.
  cbv zeta beta iota in Hd. destruct Hd as (sc' & q' & o & _ & O & Hd).
  assert (LL : forall e, event_tid e = tid' -> In e (events_of tid' (sv_log s1)) -> In e (sv_log s1)).
  { intros e E. apply in_events_of, E. }
  rewrite Hd in LL. split; [|apply LL; [reflexivity|left; reflexivity]].
  destruct O as [-> | ->]; [left|right]; (apply LL; [reflexivity|right; left; reflexivity]).
Qed.
Example C35_example_serialised : exists s older,
  reachable (ORun :: up_to_handler 0 client_a ++ [OReturn 0 HErr; OLock 0; ORemove 0] ++ up_to_handler 1 client_a) s
  /\ sv_log s = [] ++ EInvoked 1 (sample_call client_a) :: older
  /\ In (EInvoked 0 (sample_call client_a)) older.
Proof. do 2 eexists. split; [vm_compute; reflexivity|]. split; [reflexivity|]. cbn [In]. tauto. Qed.

(** ** C58: which requests count as duplicates *)
(** A datagram that differs from the one being handled (another authenticator, other attributes). *)
Definition other_request : bytes := nb [0x01; 0x00; 0x00; 0x1a] ++ repeat (n2b 0x5a) 16 ++ nb [0x01; 0x06; 0x62; 0x6f; 0x62; 0x21].
(** REFUTED: a new request that merely reuses the identifier of one that is still being handled is
    dropped, although its Request Authenticator and its attributes are different (RFC 5080 section
    2.2.2 compares the authenticator too). *)
Theorem C58_new_request_not_a_duplicate_refuted : exists ops s p q,
  reachable ops s
  /\ in_handler s 0 (Request server_addr client_a p)
  /\ taken ops 1 other_request server_addr client_a false 1500
  /\ valid_request false (truncated 1500 other_request) sample_secret q
  /\ p_authenticator q <> p_authenticator p /\ p_attributes q <> p_attributes p
  /\ story s 1 = [ESpawned 1 other_request server_addr client_a;
                  EFetched 1 client_a (FOk sample_secret); EEnded 1 DuplicateRequest].
Proof.
  exists (ORun :: up_to_handler 0 client_a ++
          [ORecv other_request client_a (Some server_addr);
           OFetch 1 (FOk sample_secret); OValidate 1; OLock 1; OCheck 1]).
  eexists. exists sample_packet. eexists.
  split; [vm_compute; reflexivity|]. split; [split; [|split]|].
  - cbn [sv_log In]. tauto.
  - intros o X. in_list X.
  - intros X. in_list X.
  - split; [|split; [|split; [|split]]].
    + exists (ORun :: up_to_handler 0 client_a). eexists. repeat split; reflexivity.
    + split; [discriminate|]. split; [vm_compute; reflexivity|]. intros _.
      destruct (authentic_request_cases (truncated 1500 other_request) sample_secret) as [(_ & A)|(A & _)]; [exact A|].
      vm_compute in A. discriminate.
    + vm_compute. discriminate.
    + vm_compute. discriminate.
    + vm_compute. reflexivity.
Qed.
(** What is true: only the address and the identifier count. Whatever a valid request contains, it
    is not handled if a request with that key was being handled when it was taken and still is... *)
Theorem C58_contents_do_not_matter : forall ops s tid' r' d local remote more s' secret p,
  reachable ops s -> in_handler s tid' r' ->
  exec_all s (ORecv d remote (Some local) :: more) = Some s' -> in_handler s' tid' r' ->
  let tid := accepted ops in
  In (EFetched tid remote (FOk secret)) (sv_log s') ->
  valid_request (skip_setting ops) (truncated (buffer_setting ops) d) secret p ->
  same_key (Request local remote p) r' ->
  ~ unfinished s' tid -> In (EEnded tid DuplicateRequest) (sv_log s').
Proof.
  intros ops s tid' r' d local remote more s' secret p R H X H' tid F V K U.
  assert (T : taken (ops ++ ORecv d remote (Some local) :: more) tid d local remote (skip_setting ops) (buffer_setting ops)).
  { exists ops, more. auto. }
  assert (R' : reachable (ops ++ ORecv d remote (Some local) :: more) s').
  { unfold reachable in *. rewrite exec_all_app, R. exact X. }
  destruct (C39_handled_or_busy _ _ _ _ _ _ _ _ _ _ R' T U F V) as [I|(nw & ol & t' & L & _)].
  2: { rewrite L. apply in_app_iff. right. left. reflexivity. }
  exfalso. apply in_split in I as (nw & ol & L).
  destruct H as (I0 & _). destruct H' as (_ & NR & NA).
  destruct (exec_all_log _ _ _ X) as [evs E].
  assert (I1 : In (EInvoked tid' r') ol).
  { assert (NI : ~ In (EInvoked tid (Request local remote p)) (sv_log s)).
    { intros Y. destruct (event_task _ _ (reachable_inv _ _ R) Y) as (t & _ & Ht & _).
      cbn [event_tid] in Ht. destruct (reachable_settings _ _ R) as (_ & _ & Len).
      assert (tid < length (sv_tasks s))%nat by (apply nth_error_Some; congruence). unfold tid in *. lia. }
    rewrite E in L. clear - L NI I0. revert nw L. induction evs as [|e evs IH]; intros nw L.
    - exfalso. apply NI. cbn [app] in L. rewrite L. apply in_app_iff. right. left. reflexivity.
    - destruct nw as [|e' nw]; cbn [app] in L.
      + injection L as _ <-. apply in_app_iff. right. exact I0.
      + injection L as _ L. exact (IH _ L). }
  destruct (C35_calls_serialised _ _ _ _ _ _ _ _ R' L I1 K) as ([D|D] & _);
    eapply NR; rewrite L; apply in_app_iff; right; right; exact D.
Qed.
(** ... and only those are dropped as duplicates. *)
Theorem C58_other_key_is_handled_partial : forall ops s tid d local remote skip n secret p,
  reachable ops s -> taken ops tid d local remote skip n -> ~ unfinished s tid ->
  In (EFetched tid remote (FOk secret)) (sv_log s) ->
  valid_request skip (truncated n d) secret p ->
  (forall tid' r', tid' <> tid -> In (EInvoked tid' r') (sv_log s) -> ~ same_key (Request local remote p) r') ->
  In (EInvoked tid (Request local remote p)) (sv_log s).
Proof.
  intros ops s tid d l r k n secret p R T U F V N.
  destruct (C39_handled_or_busy _ _ _ _ _ _ _ _ _ _ R T U F V) as [I|(nw & ol & t' & L & NE & r' & I & K1 & K2 & _)];
    [exact I|exfalso].
  apply (N t' r' NE).
  - rewrite L. apply in_app_iff. right. right. exact I.
  - split; cbn [rq_remote_addr rq_packet]; congruence.
Qed.

(** ** C60: retransmissions *)
(** REFUTED: the same datagram from the same client can be handled twice: the server keeps no
    record of a request after it was answered. *)
Theorem C60_handled_once_refuted : exists ops s,
  reachable ops s
  /\ taken ops 0 sample_request server_addr client_a false 1500
  /\ taken ops 1 sample_request server_addr client_a false 1500
  /\ In (EInvoked 0 (sample_call client_a)) (sv_log s)
  /\ In (EInvoked 1 (sample_call client_a)) (sv_log s).
Proof.
  exists (ORun :: up_to_handler 0 client_a ++ [OReturn 0 HOk; OLock 0; ORemove 0] ++ up_to_handler 1 client_a).
  eexists. split; [vm_compute; reflexivity|]. split; [|split; [|split]].
  - exists [ORun]. eexists. repeat split; reflexivity.
  - exists (ORun :: up_to_handler 0 client_a ++ [OReturn 0 HOk; OLock 0; ORemove 0]). eexists. repeat split; reflexivity.
  - cbn [sv_log In]. tauto.
  - cbn [sv_log In]. tauto.
Qed.
(** What is true: between two calls for the same datagram the first has returned; in particular a
    retransmission that arrives while the request is being handled is not handled. *)
Theorem C60_not_before_return_partial : forall ops s newer middle older tid tid' local remote p,
  reachable ops s ->
  sv_log s = newer ++ EInvoked tid (Request local remote p)
             :: middle ++ EInvoked tid' (Request local remote p) :: older ->
  In (EReturned tid' HOk) middle \/ In (EReturned tid' HErr) middle.
Proof.
  intros ops s newer middle older tid tid' local remote p R L.
  assert (I : In (EInvoked tid' (Request local remote p)) (middle ++ EInvoked tid' (Request local remote p) :: older)).
  { apply in_app_iff. right. left. reflexivity. }
  destruct (C35_calls_serialised _ _ _ _ _ _ _ _ R L I) as (D & _); [split; reflexivity|].
  assert (L2 : sv_log s = (newer ++ EInvoked tid (Request local remote p) :: middle)
                          ++ EInvoked tid' (Request local remote p) :: older).
  { rewrite L, <- app_assoc. reflexivity. }
  destruct (invoked_split _ _ _ _ _ _ R L2) as (b & a & s1 & t & q & _ & R1 & E1 & Ht & Hst & _).
  assert (N : forall o, ~ In (EReturned tid' o) older).
  { intros o X. rewrite <- E1 in X. destruct (event_task _ _ (reachable_inv _ _ R1) X) as (t1 & dd & Ht1 & Hd & X').
    cbn [event_tid] in Ht1, Hd, X'. rewrite Ht in Ht1. injection Ht1 as <-.
    unfold history in Hd. rewrite Hst in Hd. cbv zeta beta iota in Hd. destruct Hd as (sc & _ & Hd).
    rewrite Hd in X'. in_list X'. }
  destruct D as [D|D]; [left|right]; (apply in_app_iff in D as [D|[D|D]];
    [exact D|discriminate D|destruct (N _ D)]).
Qed.

(** ** C61: requests that were made without the secret *)
Definition schedule_of (d : bytes) (local remote : socket_addr) (secret : bytes) : list op :=
  [ORun; ORecv d remote (Some local); OFetch 0 (FOk secret); OValidate 0; OLock 0; OCheck 0; OInvoke 0].
(** Every well-formed Access-Request or Status-Server is handed to the handler, whatever the
    secret of the client is: nothing in it depends on the secret. *)
Theorem C61_forged_request_is_handled : forall d any_secret q local remote secret,
  packet_decode d any_secret = Ok q -> len d <= 1500 ->
  p_code q = AccessRequest \/ p_code q = StatusServer ->
  secret <> [] ->
  exists s p, reachable (schedule_of d local remote secret) s
    /\ in_handler s 0 (Request local remote p)
    /\ p_secret p = secret /\ p_code p = p_code q /\ p_identifier p = p_identifier q
    /\ p_authenticator p = p_authenticator q /\ p_attributes p = p_attributes q.
Proof.
  intros d any_secret q local remote secret D L C S.
  apply C01_decode_ok_iff in D. destruct D as (_ & o & W & RC).
  set (p := Packet (p_code q) (p_identifier q) (p_authenticator q) secret (p_attributes q)).
  assert (D : packet_decode d secret = Ok p).
  { apply C01_decode_ok_iff. split; [reflexivity|]. exists o. split; [exact W|exact RC]. }
  assert (A : packet_is_authentic_request d secret = Ok true).
  { destruct (authentic_request_cases d secret) as [(X & _)|(_ & X)]; [exact X|exfalso; apply X].
    destruct W as (l1 & l2 & body & padding & -> & La & Ll & _).
    split; [rewrite !len_app, La; change (len [o; p_identifier q; l1; l2]) with 4; lia|].
    split; [exact S|]. exists o. eexists. split; [reflexivity|].
    destruct C as [C|C]; rewrite C in RC; (destruct RC as [RC|(Y & _)]; [|discriminate Y]);
      cbn [code_number] in RC; [left|right; left]; symmetry; exact RC. }
  exists (Server false 1500 (Some (fst (recv_into (zeros (N.to_nat 1500)) d)))
            [Task d local remote false (THandling p)] [key_of remote p] None
            [EInvoked 0 (Request local remote p); EFetched 0 remote (FOk secret); ESpawned 0 d local remote]), p.
  split; [|split; [|repeat split]].
  - unfold reachable, schedule_of. cbn [exec_all exec server_listen sv_run sv_skip sv_buf_size sv_tasks sv_undergoing sv_lock sv_log].
    unfold exec_recv, DEFAULT_BUFFER_SIZE.
    assert (Z : length (zeros (N.to_nat 1500)) = N.to_nat 1500) by (unfold zeros; apply repeat_length).
    generalize dependent (zeros (N.to_nat 1500)). intros buf Z.
    assert (X : firstn (N.to_nat (N.min (len buf) (len d))) (fst (recv_into buf d)) = d).
    { assert (Y : N.to_nat (N.min (len buf) (len d)) = length d) by (unfold len in *; lia).
      unfold recv_into. cbv zeta. cbn [fst]. rewrite Y, firstn_all. rewrite firstn_app, Nat.sub_diag, firstn_all.
      cbn [firstn]. apply app_nil_r. }
    destruct (recv_into buf d) as [buf' size] eqn:RI.
    assert (size = N.min (len buf) (len d)) as -> by (unfold recv_into in RI; injection RI as _ <-; reflexivity).
    cbn [fst] in X. rewrite X. cbn [fst].
    unfold DEFAULT_SKIP_AUTHENTICITY_VALIDATION.
    cbn [app length exec_task nth_error sv_tasks sv_undergoing sv_lock sv_log t_state t_remote].
    replace (len secret =? 0) with false by (destruct secret; [congruence|rewrite len_cons; lia]).
    unfold move. cbn [sv_skip sv_buf_size sv_run sv_tasks set_nth with_state t_data t_local t_remote t_skip exec_task nth_error
      t_state sv_log app sv_undergoing sv_lock].
    rewrite A, D.
    cbn [sv_skip sv_buf_size sv_run sv_tasks set_nth with_state t_data t_local t_remote t_skip exec_task nth_error
      t_state sv_log app sv_undergoing sv_lock set_contains existsb set_insert].
    reflexivity.
  - split; [|split].
    + cbn [sv_log In]. tauto.
    + intros o' X. in_list X.
    + intros X. in_list X.
Qed.
(** REFUTED, as a user would expect it: the same datagram is accepted from two clients with
    different secrets. *)
Theorem C61_forgery_refuted : exists d local remote secret1 secret2 s1 s2 p1 p2, secret1 <> secret2
  /\ reachable (schedule_of d local remote secret1) s1 /\ in_handler s1 0 (Request local remote p1)
  /\ reachable (schedule_of d local remote secret2) s2 /\ in_handler s2 0 (Request local remote p2).
Proof.
  assert (D : packet_decode sample_request sample_secret = Ok sample_packet) by (vm_compute; reflexivity).
  destruct (C61_forged_request_is_handled _ _ _ server_addr client_a (bytes_of_string "one") D) as (s1 & p1 & R1 & H1 & _);
    [vm_compute; discriminate|left; reflexivity|discriminate|].
  destruct (C61_forged_request_is_handled _ _ _ server_addr client_a (bytes_of_string "two") D) as (s2 & p2 & R2 & H2 & _);
    [vm_compute; discriminate|left; reflexivity|discriminate|].
  exists sample_request, server_addr, client_a, (bytes_of_string "one"), (bytes_of_string "two"), s1, s2, p1, p2.
  split; [discriminate|]. auto.
Qed.
(** What is true: while validation is on, the handler only sees Accounting-Request,
    Disconnect-Request and CoA-Request packets whose authenticator was computed with the secret
    (C13, C14: making another one takes a collision of MD5), and no other codes at all. *)
Theorem C61_hashed_requests_partial : forall ops s tid r,
  reachable ops s -> In (EInvoked tid r) (sv_log s) -> ~ In (OSetSkip true) ops ->
  exists d n, taken ops tid d (rq_local_addr r) (rq_remote_addr r) false n
    /\ (p_code (rq_packet r) = AccessRequest \/ p_code (rq_packet r) = StatusServer
        \/ ((p_code (rq_packet r) = AccountingRequest \/ p_code (rq_packet r) = DisconnectRequest
             \/ p_code (rq_packet r) = CoARequest)
            /\ p_authenticator (rq_packet r) = md5 (request_hash_input (truncated n d) (p_secret (rq_packet r))))).
Proof.
  intros ops s tid r R I NS.
  destruct (invoked_task _ _ _ _ R I) as (t & secret & p & d & n & Ht & T & -> & V & _).
  cbn [rq_local_addr rq_remote_addr rq_packet].
  assert (K : t_skip t = false).
  { destruct T as (b & a & E & _ & K & _). rewrite K. unfold skip_setting.
    assert (NS' : ~ In (OSetSkip true) b) by (intros X; apply NS; rewrite E; apply in_app_iff; left; exact X).
    clear - NS'. assert (G : forall l acc, ~ In (OSetSkip true) l -> acc = false ->
      fold_left (fun b o => match o with OSetSkip b' => b' | _ => b end) l acc = false).
    { induction l as [|o l IH]; intros acc N E; [exact E|]. cbn [fold_left]. apply IH; [intros X; apply N; right; exact X|].
      destruct o; auto. destruct b0; [exfalso; apply N; left; reflexivity|reflexivity]. }
    apply G; [exact NS'|reflexivity]. }
  rewrite K in T, V. exists d, n. split; [exact T|]. destruct V as (S & D & A). specialize (A eq_refl).
  apply C01_decode_ok_iff in D. destruct D as (<- & o & W & RC).
  destruct A as (_ & _ & c & rest & E & A). destruct W as (l1 & l2 & body & padding & W & La & _).
  rewrite W in E. cbn [app] in E. injection E as <- _.
  assert (Num : forall c n, b2n o = n -> code_number c = n -> reported_code o (p_code p) -> p_code p = c).
  { intros c n' B N [RC'|(_ & X)]; [|exfalso; apply (X c); congruence].
    revert N. rewrite <- B, <- RC'. destruct c, (p_code p); cbn [code_number]; intros X; try reflexivity; discriminate X. }
  destruct A as [A|[A|[A H]]].
  - left. exact (Num AccessRequest _ A eq_refl RC).
  - right. left. exact (Num StatusServer _ A eq_refl RC).
  - right. right. split.
    + destruct A as [A|[A|A]]; [left; exact (Num AccountingRequest _ A eq_refl RC)
        |right; left; exact (Num DisconnectRequest _ A eq_refl RC)|right; right; exact (Num CoARequest _ A eq_refl RC)].
    + rewrite <- H. rewrite W. unfold octets. cbn [app skipn]. unfold len in La.
      rewrite firstn_app. replace (20 - 4 - length (p_authenticator p))%nat with 0%nat by lia.
      cbn [firstn]. rewrite app_nil_r. symmetry. apply firstn_all2. lia.
Qed.

(** * Assumptions *)
(** ** C74: what stops a running server *)
(** After [run] was called, and as long as the shutdown trigger has not completed and [recv_from]
    has not failed, the server takes the next datagram, whatever has happened in between. *)
Lemma still_running : forall ops s s', sv_run s <> None -> exec_all s ops = Some s' ->
  ~ In OShutdown ops -> ~ In ORecvError ops -> sv_run s' <> None.
Proof.
  induction ops as [|o ops IH]; intros s s' Q E N1 N2; cbn [exec_all] in E; [injection E as <-; exact Q|].
  destruct (exec s o) as [s1|] eqn:X; [|discriminate].
  apply (IH s1 s'); [|exact E|intros Z; apply N1; now right|intros Z; apply N2; now right].
  destruct o; cbn [exec] in X; try (apply exec_task_frame in X as (_ & _ & -> & _); exact Q).
  - destruct (sv_run s); [discriminate|now destruct Q].
  - destruct (sv_run s); [discriminate|now destruct Q].
  - destruct (sv_run s); [discriminate|now destruct Q].
  - destruct N1. now left.
  - destruct (sv_run s) as [buf|]; [|discriminate]. injection X as <-. unfold exec_recv.
    destruct (recv_into buf datagram). destruct local; discriminate.
  - destruct N2. now left.
Qed.
Definition takes (s : server) (ops : list op) : Prop :=
  forall datagram remote local, exists s',
    exec s (ORecv datagram remote (Some local)) = Some s'
    /\ In (ESpawned (accepted ops) datagram local remote) (sv_log s').
Theorem C74_only_shutdown_stops_partial : forall before ops s,
  reachable (before ++ ORun :: ops) s -> ~ In OShutdown ops -> ~ In ORecvError ops ->
  takes s (before ++ ORun :: ops).
Proof.
  intros before ops s R N1 N2 d remote local. pose proof R as R0. unfold reachable in R. rewrite exec_all_app in R.
  destruct (exec_all server_listen before) as [s0|]; [|discriminate]. cbn [exec_all] in R.
  destruct (exec s0 ORun) as [s1|] eqn:X; [|discriminate].
  assert (Q : sv_run s1 <> None).
  { cbn [exec] in X. destruct (sv_run s0); [discriminate|]. injection X as <-. discriminate. }
  pose proof (still_running _ _ _ Q R N1 N2) as Q'. cbn [exec].
  destruct (sv_run s) as [buf|]; [|now destruct Q']. eexists. split; [reflexivity|]. unfold exec_recv.
  destruct (recv_into buf d). left. f_equal. apply (reachable_settings _ _ R0).
Qed.
(** REFUTED for socket errors: the first error that [recv_from] reports ends [run] (the [?] in
    server.rs:123), although the trigger has not completed, and nothing is taken any more. A UDP
    socket reports errors that a peer can cause (on some systems an ICMP message about an earlier
    reply makes the next [recv_from] fail). *)
Theorem C74_only_shutdown_stops_refuted :
  ~ (forall before ops s, reachable (before ++ ORun :: ops) s -> ~ In OShutdown ops ->
       takes s (before ++ ORun :: ops)).
Proof.
  intros H. specialize (H [] [ORecvError] _ eq_refl).
  destruct (H (fun Z => match Z with or_introl e => ltac:(discriminate e) | or_intror f => f end) [] client_a server_addr)
    as (s' & X & _). discriminate X.
Qed.
(** After a receive error nothing is taken until [run] is called again. *)
Theorem C74_stopped_by_receive_error : forall before ops s,
  reachable (before ++ ORecvError :: ops) s -> ~ In ORun ops ->
  forall datagram remote local, exec s (ORecv datagram remote local) = None.
Proof.
  intros before ops s R N d remote local. unfold reachable in R. rewrite exec_all_app in R.
  destruct (exec_all server_listen before) as [s0|]; [|discriminate]. cbn [exec_all] in R.
  destruct (exec s0 ORecvError) as [s1|] eqn:X; [|discriminate].
  assert (Q : sv_run s1 = None).
  { cbn [exec] in X. destruct (sv_run s0); [|discriminate]. injection X as <-. reflexivity. }
  clear X. revert s1 Q R. induction ops as [|o ops IH]; intros s1 Q R; cbn [exec_all] in R.
  - injection R as <-. cbn [exec]. now rewrite Q.
  - destruct (exec s1 o) as [s2|] eqn:X; [|discriminate].
    apply (IH (fun Z => N (or_intror Z)) s2); [|exact R].
    destruct o; cbn [exec] in X; rewrite ?Q in X; try discriminate;
      try (apply exec_task_frame in X as (_ & _ & -> & _); exact Q);
      try (injection X as <-; reflexivity).
    destruct N. now left.
Qed.
(** Garbage, a datagram without local address, an unknown client, a panicking provider and a
    panicking handler later, it still runs. *)
Example C74_example : exists s,
  reachable (ORun :: up_to_handler 0 client_a ++
             [OReturn 0 HPanic; ORecv [] client_a None; ORecv (zeros 3) client_a (Some server_addr); OFetch 1 FPanic;
              ORecv (zeros 30) client_a (Some server_addr); OFetch 2 FErr;
              ORecv (zeros 30) client_a (Some server_addr); OFetch 3 (FOk sample_secret); OValidate 3;
              ORecv sample_request client_a (Some server_addr); OAbort 4]) s
  /\ sv_run s <> None /\ map (fun t => t_state t) (sv_tasks s) =
     [TEnded Panicked; TEnded Panicked; TEnded SecretUnavailable; TEnded NotAuthentic; TEnded Aborted].
Proof. eexists. split; [vm_compute; reflexivity|]. split; [discriminate|]. reflexivity. Qed.

Print Assumptions C35_calls_serialised.
Print Assumptions C58_new_request_not_a_duplicate_refuted.
Print Assumptions C58_contents_do_not_matter.
Print Assumptions C58_other_key_is_handled_partial.
Print Assumptions C60_handled_once_refuted.
Print Assumptions C60_not_before_return_partial.
Print Assumptions C61_forged_request_is_handled.
Print Assumptions C61_forgery_refuted.
Print Assumptions C61_hashed_requests_partial.

(** * Assumptions *)
Print Assumptions C35_calls_serialised.
Print Assumptions C58_new_request_not_a_duplicate_refuted.
Print Assumptions C58_contents_do_not_matter.
Print Assumptions C58_other_key_is_handled_partial.
Print Assumptions C60_handled_once_refuted.
Print Assumptions C60_not_before_return_partial.
Print Assumptions C61_forged_request_is_handled.
Print Assumptions C61_forgery_refuted.
Print Assumptions C61_hashed_requests_partial.
Print Assumptions C74_only_shutdown_stops_partial.
Print Assumptions C74_only_shutdown_stops_refuted.
Print Assumptions C74_stopped_by_receive_error.
