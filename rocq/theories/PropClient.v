(** * Final theorems about the client: C44-C47 *)
From Coq Require Import String List NArith ZArith Bool Arith Strings.Byte Lia ZifyBool ZifyNat ZifyN.
From Verif Require Import Prelude PreludeFacts Md5 Avp Code Packet Addr Display Spec CodecFacts AuthFacts
  RoundTrip PropPacket Client Samples.
Import ListNotations.
Local Open Scope N_scope.
Local Open Scope list_scope.

(** ** Specification *)
(** What a call of [send_packet] has done to the network, and how it stands, after it was polled
    at the moments [ms]. *)
Definition trace pr cl remote req (ms : list moment) : list net_event :=
  snd (send_packet pr cl remote req ms).
Definition returned pr cl remote req (ms : list moment) (r : res client_error packet) : Prop :=
  fst (send_packet pr cl remote req ms) = CDone r.

(** The event [e] happens when the call is polled at the moment [m]. *)
Definition happens_at pr cl remote req (ms : list moment) (e : net_event) (m : moment) : Prop :=
  exists before later, ms = before ++ m :: later
    /\ ~ In e (trace pr cl remote req before) /\ In e (trace pr cl remote req (before ++ [m])).

(** The local end of the call's socket: any address, of the kind of the peer's address, and any port. *)
Definition any_local (remote : socket_addr) : socket_addr :=
  match remote with
  | SockV4 _ _ => SockV4 (Ipv4 x00 x00 x00 x00) 0
  | SockV6 _ _ _ _ => SockV6 (Ipv6 x00 x00 x00 x00 x00 x00 x00 x00 x00 x00 x00 x00 x00 x00 x00 x00) 0 0 0
  end.

(** Every way a call may end. *)
Inductive outcome pr cl remote req (ms : list moment)
  : list net_event -> res client_error packet -> Prop :=
| oc_bind_failed m e :
    In m ms -> m_bind m = Some (IoErr e) ->
    outcome pr cl remote req ms [] (Err (FailedUdpSocketBindingError e))
| oc_connect_failed m e :
    In m ms -> m_connect m = Some (IoErr e) ->
    outcome pr cl remote req ms [NBound (any_local remote)]
      (Err (FailedEstablishingUdpConnectionError (socket_addr_to_string remote) e))
| oc_connect_timeout d m0 m :
    connection_timeout cl = Some d ->
    happens_at pr cl remote req ms (NBound (any_local remote)) m0 ->
    In m ms -> m_connect m = None -> m_now m0 + d <= m_now m ->
    outcome pr cl remote req ms [NBound (any_local remote)] (Err ConnectionTimeoutError)
| oc_encode_failed e :
    packet_encode pr req = Err e ->
    outcome pr cl remote req ms [NBound (any_local remote); NConnected remote]
      (Err (FailedRadiusPacketEncodingError (packet_error_display e)))
| oc_encode_panicked :
    packet_encode pr req = Panic ->
    outcome pr cl remote req ms [NBound (any_local remote); NConnected remote] Panic
| oc_send_failed data m e :
    packet_encode pr req = Ok data -> In m ms -> m_send m = Some (IoErr e) ->
    outcome pr cl remote req ms [NBound (any_local remote); NConnected remote]
      (Err (FailedSendingRadiusPacketError (socket_addr_to_string remote) e))
| oc_send_timeout data d m0 m :
    packet_encode pr req = Ok data -> socket_timeout cl = Some d ->
    happens_at pr cl remote req ms (NConnected remote) m0 ->
    In m ms -> m_send m = None -> m_now m0 + d <= m_now m ->
    outcome pr cl remote req ms [NBound (any_local remote); NConnected remote]
      (Err SocketTimeoutError)
| oc_receive_failed data m e :
    packet_encode pr req = Ok data -> In m ms -> m_recv m = Some (IoErr e) ->
    outcome pr cl remote req ms [NBound (any_local remote); NConnected remote; NSent data]
      (Err (FailedReceivingResponseError (socket_addr_to_string remote) e))
| oc_receive_timeout data d m0 m :
    packet_encode pr req = Ok data -> socket_timeout cl = Some d ->
    happens_at pr cl remote req ms (NConnected remote) m0 ->
    In m ms -> m_recv m = None -> m_now m0 + d <= m_now m ->
    outcome pr cl remote req ms [NBound (any_local remote); NConnected remote; NSent data]
      (Err SocketTimeoutError)
| oc_bad_reply data m d e :
    packet_encode pr req = Ok data -> In m ms -> m_recv m = Some (IoOk d) ->
    packet_decode (firstn (N.to_nat 65507) d) (p_secret req) = Err e ->
    outcome pr cl remote req ms
      [NBound (any_local remote); NConnected remote; NSent data; NReceived d]
      (Err (FailedDecodingRadiusResponseError (packet_error_display e)))
| oc_reply data m d p :
    packet_encode pr req = Ok data -> In m ms -> m_recv m = Some (IoOk d) ->
    packet_decode d (p_secret req) = Ok p ->
    outcome pr cl remote req ms
      [NBound (any_local remote); NConnected remote; NSent data; NReceived d] (Ok p).

(** ** Proofs *)
Lemma client_run_app pr cl remote req a : forall st b,
  client_run pr cl remote req st (a ++ b) =
  let '(st1, e1) := client_run pr cl remote req st a in
  let '(st2, e2) := client_run pr cl remote req st1 b in (st2, e1 ++ e2).
Proof.
  induction a as [|m a IH]; intros st b; cbn [app client_run].
  - destruct (client_run _ _ _ _ st b). reflexivity.
  - destruct (client_poll _ _ _ _ st m) as [st1 e1]. rewrite IH.
    destruct (client_run _ _ _ _ st1 a) as [st2 e2]. destruct (client_run _ _ _ _ st2 b) as [st3 e3].
    rewrite app_assoc. reflexivity.
Qed.
Lemma send_snoc pr cl remote req ms m :
  send_packet pr cl remote req (ms ++ [m]) =
  let '(st1, e1) := send_packet pr cl remote req ms in
  let '(st2, e2) := client_poll pr cl remote req st1 m in (st2, e1 ++ e2).
Proof.
  unfold send_packet. rewrite client_run_app. destruct (client_run _ _ _ _ CBinding ms) as [st1 e1].
  cbn [client_run]. destruct (client_poll _ _ _ _ st1 m) as [st2 e2]. rewrite app_nil_r. reflexivity.
Qed.
Lemma trace_prefix pr cl remote req a b :
  exists rest, trace pr cl remote req (a ++ b) = trace pr cl remote req a ++ rest.
Proof.
  unfold trace, send_packet. rewrite client_run_app. destruct (client_run _ _ _ _ CBinding a) as [st e].
  destruct (client_run _ _ _ _ st b) as [st' e']. cbn [snd]. eauto.
Qed.

Lemma decode_prefix d secret p n : 4096 <= n ->
  (packet_decode (firstn (N.to_nat n) d) secret = Ok p -> packet_decode d secret = Ok p).
Proof.
  intros Hn D. pose proof D as D'. apply packet_decode_ok_iff in D' as (_ & c & W & _).
  destruct W as (l1 & l2 & body & padding & E & W1 & W2 & W3 & _).
  set (t := firstn (N.to_nat n) d) in *.
  assert (X : d = t ++ skipn (N.to_nat n) d) by (symmetry; apply firstn_skipn).
  assert (L : declared_length t = 20 + len body).
  { rewrite E. cbn [app declared_length]. exact W2. }
  assert (LT : 20 + len body <= len t).
  { rewrite E. cbn [app]. rewrite !len_cons, !len_app. lia. }
  pose proof (C02_decode_ignores_padding _ _ _ (skipn (N.to_nat (declared_length t)) d) D) as Y.
  assert (Z : declared_packet t = firstn (N.to_nat (declared_length t)) d).
  { unfold declared_packet. unfold t at 2. rewrite firstn_firstn, Nat.min_l; [reflexivity|]. lia. }
  rewrite Z, firstn_skipn in Y. exact Y.
Qed.

(** The invariant: what is known in each state. *)
Definition in_phase pr cl remote req (ms : list moment) (st : client_state) (evs : list net_event)
  : Prop :=
  match st with
  | CBinding => evs = []
  | CConnecting dl => evs = [NBound (any_local remote)]
      /\ exists m0, happens_at pr cl remote req ms (NBound (any_local remote)) m0
                    /\ dl = deadline_of (connection_timeout cl) m0
  | CSending data dl => evs = [NBound (any_local remote); NConnected remote]
      /\ packet_encode pr req = Ok data
      /\ exists m0, happens_at pr cl remote req ms (NConnected remote) m0
                    /\ dl = deadline_of (socket_timeout cl) m0
  | CReceiving dl => exists data, evs = [NBound (any_local remote); NConnected remote; NSent data]
      /\ packet_encode pr req = Ok data
      /\ exists m0, happens_at pr cl remote req ms (NConnected remote) m0
                    /\ dl = deadline_of (socket_timeout cl) m0
  | CDone r => outcome pr cl remote req ms evs r
  end.

Lemma happens_at_snoc pr cl remote req ms m e m0 :
  happens_at pr cl remote req ms e m0 -> happens_at pr cl remote req (ms ++ [m]) e m0.
Proof.
  intros (b & l & -> & H). exists b, (l ++ [m]). rewrite <- app_assoc. auto.
Qed.
Lemma outcome_snoc pr cl remote req ms m evs r :
  outcome pr cl remote req ms evs r -> outcome pr cl remote req (ms ++ [m]) evs r.
Proof.
  intros H; inversion H; subst; econstructor; eauto using happens_at_snoc; apply in_app_iff; left; eassumption.
Qed.
Lemma expired_some t m dl m0 : dl = deadline_of t m0 -> expired dl m = true ->
  exists d, t = Some d /\ m_now m0 + d <= m_now m.
Proof.
  intros -> E. unfold deadline_of, expired in E. destruct t as [d|]; [|discriminate]. exists d. split; [reflexivity|lia].
Qed.

Section Step.
  Variables (pr : profile) (cl : client) (remote : socket_addr) (req : packet).
  Hypothesis noFuel : packet_encode pr req <> OutOfFuel.
  Variables (ms : list moment) (m : moment).
  Let ms' := ms ++ [m].
  Lemma in_last : In m ms'.
  Proof. apply in_app_iff. right. left. reflexivity. Qed.

  Lemma recv_phase data m0 dl : packet_encode pr req = Ok data ->
    happens_at pr cl remote req ms' (NConnected remote) m0 -> dl = deadline_of (socket_timeout cl) m0 ->
    in_phase pr cl remote req ms' (fst (poll_recv remote req dl m))
      ([NBound (any_local remote); NConnected remote; NSent data] ++ snd (poll_recv remote req dl m)).
  Proof.
    intros E H D. unfold poll_recv. destruct (m_recv m) as [[d|e]|] eqn:R.
    - cbn [fst snd app in_phase]. unfold finish. change (N.to_nat MAX_DATAGRAM_SIZE) with (N.to_nat 65507).
      destruct (packet_decode_total (firstn (N.to_nat 65507) d) (p_secret req)) as [[p P]|[e P]]; rewrite P.
      + eapply oc_reply; eauto using in_last. apply decode_prefix in P; [exact P|lia].
      + eapply oc_bad_reply; eauto using in_last.
    - eapply oc_receive_failed; eauto using in_last.
    - destruct (expired dl m) eqn:X; cbn [fst snd app in_phase].
      + destruct (expired_some _ _ _ _ D X) as (d & Hd & L). eapply oc_receive_timeout; eauto using in_last.
      + exists data. split; [reflexivity|]. split; [exact E|]. eauto.
  Qed.
  Lemma send_phase data m0 dl : packet_encode pr req = Ok data ->
    happens_at pr cl remote req ms' (NConnected remote) m0 -> dl = deadline_of (socket_timeout cl) m0 ->
    in_phase pr cl remote req ms' (fst (poll_send remote req data dl m))
      ([NBound (any_local remote); NConnected remote] ++ snd (poll_send remote req data dl m)).
  Proof.
    intros E H D. unfold poll_send. destruct (m_send m) as [[d|e]|] eqn:R.
    - pose proof (recv_phase data m0 dl E H D) as P. destruct (poll_recv _ _ _ _) as [st evs]. exact P.
    - eapply oc_send_failed; eauto using in_last.
    - destruct (expired dl m) eqn:X; cbn [fst snd app in_phase].
      + destruct (expired_some _ _ _ _ D X) as (d & Hd & L). eapply oc_send_timeout; eauto using in_last.
      + eauto 6.
  Qed.
  Lemma request_phase : happens_at pr cl remote req ms' (NConnected remote) m ->
    in_phase pr cl remote req ms' (fst (start_request pr cl remote req m))
      ([NBound (any_local remote); NConnected remote] ++ snd (start_request pr cl remote req m)).
  Proof.
    intros H. unfold start_request. destruct (packet_encode pr req) as [data|e| |] eqn:E.
    - eapply send_phase; eauto.
    - apply oc_encode_failed, E.
    - apply oc_encode_panicked, E.
    - congruence.
  Qed.
  Lemma connect_phase m0 dl : happens_at pr cl remote req ms' (NBound (any_local remote)) m0 ->
    dl = deadline_of (connection_timeout cl) m0 ->
    (In (NConnected remote) (snd (poll_connect pr cl remote req dl m)) ->
     happens_at pr cl remote req ms' (NConnected remote) m) ->
    in_phase pr cl remote req ms' (fst (poll_connect pr cl remote req dl m))
      ([NBound (any_local remote)] ++ snd (poll_connect pr cl remote req dl m)).
  Proof.
    intros H D C. unfold poll_connect in *. destruct (m_connect m) as [[d|e]|] eqn:R.
    - pose proof request_phase as P. destruct (start_request pr cl remote req m) as [st evs].
      apply P, C. left. reflexivity.
    - eapply oc_connect_failed; eauto using in_last.
    - destruct (expired dl m) eqn:X; cbn [fst snd app in_phase].
      + destruct (expired_some _ _ _ _ D X) as (d & Hd & L). eapply oc_connect_timeout; eauto using in_last.
      + eauto.
  Qed.
End Step.

Lemma client_invariant pr cl remote req ms : packet_encode pr req <> OutOfFuel ->
  in_phase pr cl remote req ms (fst (send_packet pr cl remote req ms)) (trace pr cl remote req ms).
Proof.
  intros NF. induction ms as [|m ms IH] using rev_ind; [reflexivity|].
  assert (T : trace pr cl remote req ms = snd (send_packet pr cl remote req ms)) by reflexivity.
  assert (T' : forall e, In e (snd (client_poll pr cl remote req (fst (send_packet pr cl remote req ms)) m)) ->
     ~ In e (trace pr cl remote req ms) -> happens_at pr cl remote req (ms ++ [m]) e m).
  { intros e I N. exists ms, []. split; [reflexivity|]. split; [exact N|]. unfold trace. rewrite send_snoc.
    destruct (send_packet pr cl remote req ms) as [st1 e1]. cbn [fst] in I.
    destruct (client_poll _ _ _ _ st1 m) as [st2 e2]. cbn [snd] in *. apply in_app_iff. right. exact I. }
  assert (G : in_phase pr cl remote req (ms ++ [m])
                (fst (client_poll pr cl remote req (fst (send_packet pr cl remote req ms)) m))
                (trace pr cl remote req ms
                 ++ snd (client_poll pr cl remote req (fst (send_packet pr cl remote req ms)) m))).
  { destruct (fst (send_packet pr cl remote req ms)) as [|dl|data dl|dl|r] eqn:S; cbn [in_phase client_poll] in *.
    - rewrite IH in *. cbn [app].
      assert (HB : m_bind m = Some (IoOk tt) -> happens_at pr cl remote req (ms ++ [m]) (NBound (any_local remote)) m).
      { intros B. apply T'; [|intros []]. unfold poll_bind. rewrite B.
        destruct (poll_connect _ _ _ _ _ _). left. reflexivity. }
      assert (HC : In (NConnected remote) (snd (poll_bind pr cl remote req m)) ->
                   happens_at pr cl remote req (ms ++ [m]) (NConnected remote) m).
      { intros C. apply T'; [exact C|intros []]. }
      unfold poll_bind in *. destruct (m_bind m) as [[[]|e]|] eqn:B.
      + pose proof (connect_phase pr cl remote req NF ms m m _ (HB eq_refl) eq_refl) as P.
        destruct (poll_connect pr cl remote req (deadline_of (connection_timeout cl) m) m) as [st evs].
        cbn [fst snd app] in *. apply P. intros C. apply HC. right. exact C.
      + cbn [fst snd in_phase]. eapply oc_bind_failed; [|exact B]. apply in_last.
      + reflexivity.
    - destruct IH as (E & m0 & H & D). rewrite E in *.
      apply (connect_phase pr cl remote req NF ms m m0 dl); [apply happens_at_snoc, H|exact D|].
      intros C. apply T'; [exact C|]. intros [X|[]]; discriminate.
    - destruct IH as (E & EN & m0 & H & D). rewrite E in *.
      eapply send_phase; eauto using happens_at_snoc.
    - destruct IH as (data & E & EN & m0 & H & D). rewrite E in *.
      eapply recv_phase; eauto using happens_at_snoc.
    - cbn [fst snd]. rewrite app_nil_r. apply outcome_snoc, IH. }
  unfold trace in *. rewrite send_snoc. destruct (send_packet pr cl remote req ms) as [st1 e1].
  cbn [fst snd] in *. destruct (client_poll pr cl remote req st1 m) as [st2 e2]. exact G.
Qed.
Lemma encode_no_fuel pr req : api_packet req -> packet_encode pr req <> OutOfFuel.
Proof.
  intros A. apply api_packet_auth in A.
  assert (X : encode_proceeds pr req -> packet_encode pr req <> OutOfFuel).
  { intros [(_ & ->)|(_ & bs & -> & _)]; discriminate. }
  destruct (encode_exact pr req A) as [(_ & ->)|[(_ & _ & ->)|[(_ & _ & P)|(_ & _ & D & R)]]]; try discriminate; auto.
  destruct pr; [rewrite D by reflexivity; discriminate|auto].
Qed.

(** ** C44 *)
(** The network sees a prefix of: bind, connect, one datagram sent, one datagram received. *)
Theorem C44_trace : forall pr cl remote req ms, api_packet req ->
  exists data d rest,
    [NBound (any_local remote); NConnected remote; NSent data; NReceived d]
    = trace pr cl remote req ms ++ rest
    /\ (In (NSent data) (trace pr cl remote req ms) -> packet_encode pr req = Ok data).
Proof.
  intros pr cl remote req ms A. apply (encode_no_fuel pr) in A.
  pose proof (client_invariant pr cl remote req ms A) as I.
  destruct (fst (send_packet pr cl remote req ms)) as [|dl|data dl|dl|r]; cbn [in_phase] in I.
  - rewrite I. exists [], []. eexists. split; [reflexivity|intros []].
  - destruct I as [-> _]. exists [], []. eexists. split; [reflexivity|]. intros [X|[]]; discriminate.
  - destruct I as [-> _]. exists [], []. eexists. split; [reflexivity|]. intros [X|[X|[]]]; discriminate.
  - destruct I as (data & -> & E & _). exists data, []. eexists. split; [reflexivity|]. auto.
  - inversion I; subst.
    1: exists [], []; eexists; split; [reflexivity|intros []].
    1-2: exists [], []; eexists; split; [reflexivity|]; intros [X|[]]; discriminate.
    1-4: exists [], []; eexists; split; [reflexivity|]; intros [X|[X|[]]]; discriminate.
    1-2: exists data, []; eexists; split; [reflexivity|]; auto.
    1-2: exists data, d; exists []; split; [reflexivity|]; auto.
Qed.
Theorem C44_at_most_one_datagram : forall pr cl remote req ms, api_packet req ->
  (List.length (filter (fun e => match e with NSent _ => true | _ => false end)
                  (trace pr cl remote req ms)) <= 1)%nat.
Proof.
  intros pr cl remote req ms A. destruct (C44_trace pr cl remote req ms A) as (data & d & rest & E & _).
  apply (f_equal (fun l => List.length (filter (fun e => match e with NSent _ => true | _ => false end) l))) in E.
  rewrite filter_app, app_length in E. cbn [filter List.length] in E. lia.
Qed.

(** ** C45 *)
Theorem C45_outcomes : forall pr cl remote req ms r, api_packet req ->
  returned pr cl remote req ms r -> outcome pr cl remote req ms (trace pr cl remote req ms) r.
Proof.
  intros pr cl remote req ms r A R. apply (encode_no_fuel pr) in A.
  pose proof (client_invariant pr cl remote req ms A) as I. unfold returned in R. rewrite R in I. exact I.
Qed.
Theorem C45_no_timeout_configured : forall pr cl remote req ms, api_packet req ->
  (connection_timeout cl = None -> ~ returned pr cl remote req ms (Err ConnectionTimeoutError))
  /\ (socket_timeout cl = None -> ~ returned pr cl remote req ms (Err SocketTimeoutError)).
Proof.
  intros pr cl remote req ms A. split; intros N R; apply C45_outcomes in R; auto; inversion R; congruence.
Qed.

Lemma happens_at_unique pr cl remote req ms e m1 m2 :
  happens_at pr cl remote req ms e m1 -> happens_at pr cl remote req ms e m2 -> m1 = m2.
Proof.
  intros (b1 & l1 & E1 & N1 & I1) (b2 & l2 & E2 & N2 & I2).
  assert (C : forall b l m b' l' m', ms = b ++ m :: l -> ms = b' ++ m' :: l' ->
     (length b < length b')%nat -> exists rest, b' = (b ++ [m]) ++ rest).
  { intros b l m b' l' m' X E L. rewrite X in E. clear - E L. revert b' E L. induction b as [|x b IH]; intros [|y b'] E L; cbn [app length] in *; try lia.
    - injection E as -> E. exists b'. reflexivity.
    - injection E as -> E. destruct (IH b' E) as [rest ->]; [lia|]. exists rest. reflexivity. }
  destruct (Nat.lt_trichotomy (length b1) (length b2)) as [L|[L|L]].
  - exfalso. destruct (C _ _ _ _ _ _ E1 E2 L) as [rest ->].
    destruct (trace_prefix pr cl remote req (b1 ++ [m1]) rest) as [t T]. apply N2. rewrite T.
    apply in_app_iff. left. exact I1.
  - rewrite E1 in E2. revert L E2. clear. revert b2. induction b1 as [|x b1 IH]; intros [|y b2] L E; cbn in *; try lia.
    + congruence.
    + injection E as -> E. apply (IH b2); [lia|exact E].
  - exfalso. destruct (C _ _ _ _ _ _ E2 E1 L) as [rest ->].
    destruct (trace_prefix pr cl remote req (b2 ++ [m2]) rest) as [t T]. apply N1. rewrite T.
    apply in_app_iff. left. exact I2.
Qed.

(** With a socket timeout the call does not wait for ever: polled once the deadline (counted from
    the moment the connection was established) has passed, it returns. *)
Theorem C45_socket_timeout_bounds_the_wait : forall pr cl remote req ms m0 d m, api_packet req ->
  socket_timeout cl = Some d -> happens_at pr cl remote req ms (NConnected remote) m0 ->
  m_now m0 + d <= m_now m ->
  exists r, returned pr cl remote req (ms ++ [m]) r.
Proof.
  intros pr cl remote req ms m0 d m A Hd H L. apply (encode_no_fuel pr) in A.
  pose proof (client_invariant pr cl remote req ms A) as I. unfold returned. rewrite send_snoc.
  assert (T : trace pr cl remote req ms = snd (send_packet pr cl remote req ms)) by reflexivity.
  assert (C : In (NConnected remote) (trace pr cl remote req ms)).
  { destruct H as (b & l & -> & _ & C). destruct (trace_prefix pr cl remote req (b ++ [m0]) l) as [t X].
    rewrite <- app_assoc in X. cbn [app] in X. rewrite X. apply in_app_iff. left. exact C. }
  rewrite T in C. rewrite T in I.
  destruct (send_packet pr cl remote req ms) as [st evs]. cbn [fst snd] in *.
  assert (RC : forall dl, dl = deadline_of (socket_timeout cl) m0 -> exists r, fst (poll_recv remote req dl m) = CDone r).
  { intros dl ->. unfold poll_recv, deadline_of, expired. rewrite Hd. destruct (m_recv m) as [[x|e]|]; cbn [fst]; eauto.
    assert (X : (m_now m0 + d <=? m_now m) = true) by lia. rewrite X. cbn [fst]. eauto. }
  destruct st as [|dl|data dl|dl|r]; cbn [in_phase client_poll] in *.
  - subst evs. destruct C.
  - destruct I as [-> _]. destruct C as [C|[]]. discriminate.
  - destruct I as (-> & _ & m1 & H1 & D). assert (m1 = m0) by (eapply happens_at_unique; eauto). subst m1.
    unfold poll_send. destruct (m_send m) as [[x|e]|]; cbn [fst]; eauto.
    + destruct (RC dl D) as [r R]. destruct (poll_recv remote req dl m). cbn [fst] in *. eauto.
    + rewrite D. unfold deadline_of, expired. rewrite Hd.
      assert (X : (m_now m0 + d <=? m_now m) = true) by lia. rewrite X. cbn [fst]. eauto.
  - destruct I as (data & -> & _ & m1 & H1 & D). assert (m1 = m0) by (eapply happens_at_unique; eauto). subst m1.
    destruct (RC dl D) as [r R]. destruct (poll_recv remote req dl m). cbn [fst] in *. eauto.
  - cbn [fst]. eauto.
Qed.
Theorem C45_connection_timeout_bounds_the_wait : forall pr cl remote req ms m0 d m, api_packet req ->
  connection_timeout cl = Some d -> happens_at pr cl remote req ms (NBound (any_local remote)) m0 ->
  m_now m0 + d <= m_now m ->
  (exists r, returned pr cl remote req (ms ++ [m]) r)
  \/ In (NConnected remote) (trace pr cl remote req (ms ++ [m])).
Proof.
  intros pr cl remote req ms m0 d m A Hd H L. apply (encode_no_fuel pr) in A.
  pose proof (client_invariant pr cl remote req ms A) as I. unfold returned, trace. rewrite send_snoc.
  assert (T : trace pr cl remote req ms = snd (send_packet pr cl remote req ms)) by reflexivity.
  assert (C : In (NBound (any_local remote)) (trace pr cl remote req ms)).
  { destruct H as (b & l & -> & _ & C). destruct (trace_prefix pr cl remote req (b ++ [m0]) l) as [t X].
    rewrite <- app_assoc in X. cbn [app] in X. rewrite X. apply in_app_iff. left. exact C. }
  rewrite T in C. rewrite T in I.
  destruct (send_packet pr cl remote req ms) as [st evs]. cbn [fst snd] in *.
  destruct st as [|dl|data dl|dl|r]; cbn [in_phase client_poll] in *.
  - subst evs. destruct C.
  - destruct I as (-> & m1 & H1 & D). assert (m1 = m0) by (eapply happens_at_unique; eauto). subst m1.
    unfold poll_connect. destruct (m_connect m) as [[x|e]|].
    + right. destruct (start_request pr cl remote req m). cbn [snd app In]. tauto.
    + left. cbn [fst]. eauto.
    + left. rewrite D. unfold deadline_of, expired. rewrite Hd.
      assert (X : (m_now m0 + d <=? m_now m) = true) by lia. rewrite X. cbn [fst]. eauto.
  - right. destruct I as (-> & _). destruct (poll_send _ _ _ _ _). cbn [snd]. apply in_app_iff. left. cbn [In]. tauto.
  - right. destruct I as (x & -> & _). destruct (poll_recv _ _ _ _). cbn [snd]. apply in_app_iff. left. cbn [In]. tauto.
  - left. cbn [fst]. eauto.
Qed.

(** ** C46 *)
Theorem C46_returned_packet : forall pr cl remote req ms p, api_packet req ->
  returned pr cl remote req ms (Ok p) ->
  exists data d m, packet_encode pr req = Ok data
    /\ trace pr cl remote req ms
       = [NBound (any_local remote); NConnected remote; NSent data; NReceived d]
    /\ In m ms /\ m_recv m = Some (IoOk d)
    /\ packet_decode d (p_secret req) = Ok p.
Proof.
  intros pr cl remote req ms p A R. apply C45_outcomes in R; [|exact A]. inversion R; subst. eauto 9.
Qed.

(** ** C47 *)
(** Whatever datagram arrives is accepted if it decodes. *)
Definition all_ready (now : N) (reply : bytes) : moment :=
  Moment now (Some (IoOk tt)) (Some (IoOk tt)) (Some (IoOk tt)) (Some (IoOk reply)).
Theorem C47_any_decodable_reply_is_returned : forall pr cl remote req data now d p,
  packet_encode pr req = Ok data -> len d <= 65507 -> packet_decode d (p_secret req) = Ok p ->
  returned pr cl remote req [all_ready now d] (Ok p).
Proof.
  intros pr cl remote req data now d p E L D. unfold returned, send_packet, all_ready.
  cbn [client_run client_poll]. unfold poll_bind, poll_connect, start_request, poll_send, poll_recv, finish.
  cbn [m_bind m_connect m_send m_recv]. rewrite E. cbn [fst].
  rewrite firstn_all2; [|unfold len in L; change MAX_DATAGRAM_SIZE with 65507; lia].
  rewrite D. reflexivity.
Qed.

(** REFUTED: a forged reply (wrong authenticator, wrong identifier) is returned as the answer. *)
Definition forged_reply : bytes := [x02; x63; x00; x14] ++ repeat x41 16.
Theorem C47_only_authentic_replies_refuted : exists pr cl remote req ms data d p,
  packet_encode pr req = Ok data
  /\ trace pr cl remote req ms
     = [NBound (any_local remote); NConnected remote; NSent data; NReceived d]
  /\ returned pr cl remote req ms (Ok p)
  /\ p_code p = AccessAccept /\ p_identifier p <> p_identifier req
  /\ ~ response_authentic d data (p_secret req).
Proof.
  exists Release, (Client (Some 3) (Some 5)), (SockV4 (Ipv4 x7f x00 x00 x01) 1812), sample_packet.
  exists [all_ready 0 forged_reply]. eexists. exists forged_reply. eexists.
  split; [vm_compute; reflexivity|]. split; [vm_compute; reflexivity|].
  split; [vm_compute; reflexivity|]. split; [reflexivity|]. split; [intros H; vm_compute in H; discriminate|].
  intros (_ & _ & _ & H). vm_compute in H. discriminate.
Qed.

(** ** Examples *)
Definition sample_client : client := Client (Some 3) (Some 5).
Definition sample_remote : socket_addr := SockV4 (Ipv4 x7f x00 x00 x01) 1812.
Lemma sample_packet_api : api_packet sample_packet.
Proof. apply (ap_decode sample_request sample_secret). vm_compute. reflexivity. Qed.
Definition nothing (now : N) : moment := Moment now None None None None.
(** the reply of RFC 2865 arrives after some time *)
Example C46_example : exists p,
  returned Release sample_client sample_remote sample_packet
    [nothing 0; Moment 1 (Some (IoOk tt)) None None None;
     Moment 2 None (Some (IoOk tt)) (Some (IoOk tt)) None; nothing 6;
     Moment 9 None None None (Some (IoOk sample_response))] (Ok p)
  /\ p_code p = AccessAccept
  /\ trace Release sample_client sample_remote sample_packet
       [nothing 0; Moment 1 (Some (IoOk tt)) None None None;
        Moment 2 None (Some (IoOk tt)) (Some (IoOk tt)) None; nothing 6]
     = [NBound (SockV4 (Ipv4 x00 x00 x00 x00) 0); NConnected sample_remote; NSent sample_request].
Proof. eexists. split; [vm_compute; reflexivity|]. split; vm_compute; reflexivity. Qed.
(** the reply does not arrive *)
Example C45_example_timeout :
  let ms := [Moment 1 (Some (IoOk tt)) (Some (IoOk tt)) (Some (IoOk tt)) None; nothing 5] in
  happens_at Release sample_client sample_remote sample_packet ms (NConnected sample_remote)
    (Moment 1 (Some (IoOk tt)) (Some (IoOk tt)) (Some (IoOk tt)) None)
  /\ (forall r, ~ returned Release sample_client sample_remote sample_packet ms r)
  /\ returned Release sample_client sample_remote sample_packet (ms ++ [nothing 6]) (Err SocketTimeoutError).
Proof.
  cbv zeta. split; [|split].
  - exists [], [nothing 5]. split; [reflexivity|]. split; [intros []|]. vm_compute. tauto.
  - intros r H. vm_compute in H. discriminate.
  - vm_compute. reflexivity.
Qed.

(** * Assumptions *)
Print Assumptions C44_trace.
Print Assumptions C44_at_most_one_datagram.
Print Assumptions C45_outcomes.
Print Assumptions C45_no_timeout_configured.
Print Assumptions C45_socket_timeout_bounds_the_wait.
Print Assumptions C45_connection_timeout_bounds_the_wait.
Print Assumptions C46_returned_packet.
Print Assumptions C47_any_decodable_reply_is_returned.
Print Assumptions C47_only_authentic_replies_refuted.
