(** * C77: the source text of radius/src/client.rs, run

    The other properties of the client are proved about [Client.v], where [send_packet] is a future polled at
    moments chosen by the runtime.  The theorems C77 say that this is what the text of client.rs means: run by the
    interpreter of [RustEval.v], it does the same, whatever the network answers. *)
From Coq Require Import String List NArith ZArith Bool Arith Strings.Byte Lia ZifyBool ZifyNat ZifyN.
From Verif Require Import Prelude Code Avp Attributes Packet Addr Display Client Rust RustEval SourceNet CodeRun CodeBase CodePacket CodeHash CodeClient CodecFacts PropCode.
Import ListNotations.
Local Open Scope string_scope.
Local Open Scope N_scope.
Local Open Scope list_scope.

(** ** Specification *)
(** The run of the text and the future of the model end in the same way.
    - the future is done: the text has returned the same packet or the same error, or has panicked, too;
    - the future is not done: the text waits. *)
Definition same_outcome (st : client_state) (o : rout) : Prop :=
  match st with
  | CDone (Ok p) => exists ps w, o = RVal (vok (v_packet p)) ps w
  | CDone (Err e) => exists ps w, o = RVal (verr (v_client_error e)) ps w
  | CDone Panic => o = RPanic
  | CDone OutOfFuel => False
  | CBinding | CConnecting _ | CSending _ _ | CReceiving _ => exists w, o = RWait w
  end.
(** An event on the network, as the model and as the run of the text record it *)
Inductive same_event : net_event -> event -> Prop :=
| same_bound a : same_event (NBound a) (Event "UdpSocket::bind" [v_addr a] (Some (vok (VExt "conn"))))
| same_connected a : same_event (NConnected a) (Event "conn.connect" [v_addr a] (Some (vok VUnit)))
| same_sent d n : same_event (NSent d) (Event "conn.send" [VBytes d] (Some (vok (v_usize n))))
| same_received d : same_event (NReceived d) (Event "conn.recv" [] (Some (vok (VBytes d)))).
(** the operations that succeeded: [Ok(_)] was the answer *)
Definition succeeded (e : event) : bool :=
  match ev_answer e with Some (VCtor "" "Ok" _) => true | _ => false end.
Definition trace_of (o : rout) : option (list event) :=
  match o with RVal _ _ w | RWait w => Some (rev (w_trace w)) | _ => None end.
(** what has happened on the network; the trace of a run that panicked is not known *)
Definition same_events (l : list net_event) (o : rout) : Prop :=
  match trace_of o with
  | Some tr => Forall2 same_event l (filter succeeded tr)
  | None => o = RPanic
  end.
Definition agrees (m : client_state * list net_event) (o : rout) : Prop :=
  same_outcome (fst m) o /\ same_events (snd m) o.

(** The network of one call of [send_packet] is given by [replies] ([CodeClient.v]): the answers of its operations, if
    they come at all, and whether the deadline passes that is waited for; [replies_of] gives them to the interpreter. *)
(** calling the text of [Client::send_packet] *)
Definition sends (pr : profile) (f : feature) rng he (r : replies) (cl : client) (remote : socket_addr) (req : packet) (o : rout) : Prop :=
  does (source pr f rng he (replies_of r)) "Client" "send_packet" [v_client cl; v_addr remote; v_packet req] (World 0 []) o.

(** ** Proofs *)
Section Model.
Context (pr : profile) (cl : client) (remote : socket_addr) (req : packet) (ps : list value).

Definition agrees_from (tr : list event) (m : client_state * list net_event) (o : rout) : Prop :=
  same_outcome (fst m) o
  /\ match o with
     | RVal _ _ w | RWait w => exists new, w_trace w = new ++ tr /\ Forall2 same_event (snd m) (filter succeeded (rev new))
     | _ => o = RPanic
     end.
Lemma agrees_from_start m o : agrees_from [] m o -> agrees m o.
Proof.
  intros [H1 H2]. split; [exact H1|]. unfold same_events, trace_of.
  destruct o; try exact H2; destruct H2 as (new & E & F); rewrite E, app_nil_r; exact F.
Qed.
Lemma agrees_more tr e n m o : same_event n e ->
  agrees_from (e :: tr) m o -> agrees_from tr (fst m, n :: snd m) o.
Proof.
  intros He [H1 H2]. split; [exact H1|]. cbn [fst snd].
  assert (S : succeeded e = true) by (now destruct He).
  destruct o; try exact H2; destruct H2 as (new & E & F); exists (new ++ [e]);
    rewrite <- app_assoc; (split; [exact E|]); rewrite rev_app_distr; cbn [rev app filter]; rewrite S; now constructor.
Qed.
Lemma agrees_one tr st e v w : same_outcome st (RVal v ps w) -> succeeded e = false -> w_trace w = e :: tr -> agrees_from tr (st, []) (RVal v ps w).
Proof. intros H S E. split; [exact H|]. exists [e]. split; [exact E|]. cbn [rev app filter]. rewrite S. constructor. Qed.
Lemma agrees_two tr st e1 e2 v w : same_outcome st (RVal v ps w) -> succeeded e1 = false -> succeeded e2 = false ->
  w_trace w = e1 :: e2 :: tr -> agrees_from tr (st, []) (RVal v ps w).
Proof. intros H S1 S2 E. split; [exact H|]. exists [e1; e2]. split; [exact E|]. cbn [rev app filter]. rewrite S1, S2. constructor. Qed.
Lemma run_more st m ms st' evs : client_poll pr cl remote req st m = (st', evs) ->
  client_run pr cl remote req st (m :: ms) = (fst (client_run pr cl remote req st' ms), evs ++ snd (client_run pr cl remote req st' ms)).
Proof. intro H. cbn [client_run]. rewrite H. now destruct (client_run pr cl remote req st' ms). Qed.
Lemma run_done r ms : client_run pr cl remote req (CDone r) ms = (CDone r, []).
Proof. induction ms as [|m ms IH]; [reflexivity|]. rewrite (run_more _ _ _ (CDone r) []) by reflexivity. now rewrite IH. Qed.
Definition set_deadline (timeout deadline : option N) : Prop := timeout = None -> deadline = None.
Lemma waiting_waits (r : replies) timeout e k tr : r_deadline r = false ->
  exists new, waiting r timeout e ps k tr = RWait (World k (new ++ tr)) /\ filter succeeded (rev new) = [].
Proof.
  intros D. unfold waiting, deadline_reply. rewrite D.
  destruct timeout; [eexists [_]|exists []]; split; reflexivity.
Qed.
Lemma agrees_waiting r timeout e k tr e0 st : r_deadline r = false -> succeeded e0 = false ->
  (forall w, same_outcome st (RWait w)) ->
  agrees_from tr (st, []) (waiting r timeout e ps k (e0 :: tr)).
Proof.
  intros D S H. destruct (waiting_waits r timeout e k (e0 :: tr) D) as (new & -> & E).
  split; [apply H|]. exists (new ++ [e0]). split; [now rewrite <- app_assoc|].
  rewrite rev_app_distr. cbn [rev app filter]. rewrite S. cbn [snd]. rewrite E. constructor.
Qed.
Lemma agrees_timeout r timeout e k tr e0 : r_deadline r = true -> timeout <> None -> succeeded e0 = false ->
  agrees_from tr (CDone (Err e), []) (waiting r timeout e ps k (e0 :: tr)).
Proof.
  intros D T S. unfold waiting, deadline_reply. destruct timeout as [d|]; [|easy]. rewrite D.
  eapply agrees_two; [eexists _, _; reflexivity| |exact S|reflexivity]. reflexivity.
Qed.
Lemma finish_total d : Client.finish req d <> OutOfFuel.
Proof.
  unfold Client.finish. destruct (packet_decode_total d (p_secret req)) as [[p ->]|[e ->]]; discriminate.
Qed.
Lemma agrees_decoded tr d k e : same_event (NReceived d) e ->
  agrees_from tr (CDone (Client.finish req (firstn (N.to_nat MAX_DATAGRAM_SIZE) d)), [NReceived d])
    (v_result v_client_error v_packet (Client.finish req (firstn (N.to_nat MAX_DATAGRAM_SIZE) d)) ps (World k (e :: tr))).
Proof.
  intros He. assert (S : succeeded e = true) by (now inversion He).
  pose proof (finish_total (firstn (N.to_nat MAX_DATAGRAM_SIZE) d)) as NF.
  unfold v_result. destruct (Client.finish _ _) as [p|x| |] eqn:E; (split; [|try reflexivity]).
  - eexists _, _. reflexivity.
  - exists [e]. split; [reflexivity|]. cbn [rev app filter snd]. rewrite S. constructor; [exact He|constructor].
  - eexists _, _. reflexivity.
  - exists [e]. split; [reflexivity|]. cbn [rev app filter snd]. rewrite S. constructor; [exact He|constructor].
  - reflexivity.
  - easy.
  - easy.
Qed.
Ltac innermost x := lazymatch x with context [match ?y with _ => _ end] => first [innermost y | destruct y] end.
Lemma encode_total : packet_encode pr req <> OutOfFuel.
Proof.
  assert (L : forall l acc, attributes_encode_loop pr l acc <> OutOfFuel).
  { induction l as [|a l IH]; intro acc; cbn [attributes_encode_loop]; [discriminate|].
    destruct (253 <? len (avp_value a)); [discriminate|]. unfold uadd, bind.
    destruct (_ <? _); [apply IH|]. destruct pr; [discriminate|apply IH]. }
  unfold packet_encode, packet_marshal_binary, attributes_encode, slice_to, slice_from, splice, uadd, bind, map_err.
  pose proof (L (Packet.p_attributes req) []) as L1.
  destruct (attributes_encode_loop pr (Packet.p_attributes req) []); [|discriminate|discriminate|easy].
  repeat match goal with |- ?x <> _ => innermost x end; discriminate.
Qed.

(** from the moments to the answers *)
Lemma answers_recv ms d : set_deadline (socket_timeout cl) d ->
  exists rv dl, forall b c s k tr, agrees_from tr (client_run pr cl remote req (CReceiving d) ms)
    (text_recv cl remote req (Replies b c s rv dl) ps k tr).
Proof.
  intro Hd. induction ms as [|m ms (rv & dl & IH)].
  - exists None, false. intros. cbn [client_run]. unfold text_recv. cbn [r_recv].
    apply agrees_waiting; [reflexivity|reflexivity|]. intro w. now exists w.
  - destruct (m_recv m) as [[x|e]|] eqn:Em.
    + exists (Some (IoOk x)), false. intros.
      rewrite (run_more _ _ _ (CDone (Client.finish req (firstn (N.to_nat MAX_DATAGRAM_SIZE) x))) [NReceived x])
        by (cbn [client_poll]; unfold poll_recv; now rewrite Em).
      rewrite run_done. unfold text_recv. cbn [r_recv fst snd app]. apply agrees_decoded. constructor.
    + exists (Some (IoErr e)), false. intros.
      rewrite (run_more _ _ _ (CDone (Err (FailedReceivingResponseError (socket_addr_to_string remote) e))) [])
        by (cbn [client_poll]; unfold poll_recv; now rewrite Em).
      rewrite run_done. unfold text_recv. cbn [r_recv fst snd app].
      eapply agrees_one; [eexists _, _; reflexivity| |reflexivity]; reflexivity.
    + destruct (expired d m) eqn:Ex.
      * exists None, true. intros.
        rewrite (run_more _ _ _ (CDone (Err SocketTimeoutError)) [])
          by (cbn [client_poll]; unfold poll_recv; now rewrite Em, Ex).
        rewrite run_done. unfold text_recv. cbn [r_recv fst snd app].
        apply agrees_timeout; [reflexivity| |reflexivity]. intro T. rewrite (Hd T) in Ex. discriminate.
      * exists rv, dl. intros.
        rewrite (run_more _ _ _ (CReceiving d) []) by (cbn [client_poll]; unfold poll_recv; now rewrite Em, Ex).
        cbn [app]. rewrite <- surjective_pairing. apply IH.
Qed.
Lemma run_send_ok data d m ms : m_send m = Some (IoOk tt) ->
  client_run pr cl remote req (CSending data d) (m :: ms)
  = (fst (client_run pr cl remote req (CReceiving d) (m :: ms)), NSent data :: snd (client_run pr cl remote req (CReceiving d) (m :: ms))).
Proof.
  intro Em. cbn [client_run client_poll]. unfold poll_send. rewrite Em.
  destruct (poll_recv remote req d m) as [st evs]. now destruct (client_run pr cl remote req st ms).
Qed.
Lemma answers_send ms data d : set_deadline (socket_timeout cl) d ->
  exists s rv dl, forall b c k tr, agrees_from tr (client_run pr cl remote req (CSending data d) ms)
    (text_send cl remote req (Replies b c s rv dl) data ps k tr).
Proof.
  intro Hd. induction ms as [|m ms (s & rv & dl & IH)].
  - exists None, None, false. intros. cbn [client_run]. unfold text_send. cbn [r_send].
    apply agrees_waiting; [reflexivity|reflexivity|]. intro w. now exists w.
  - destruct (m_send m) as [[[]|e]|] eqn:Em.
    + destruct (answers_recv (m :: ms) d Hd) as (rv' & dl' & R). exists (Some (IoOk 0)), rv', dl'. intros.
      rewrite (run_send_ok data d m ms Em). unfold text_send. cbn [r_send].
      eapply agrees_more; [|apply R]. constructor.
    + exists (Some (IoErr e)), None, false. intros.
      rewrite (run_more _ _ _ (CDone (Err (FailedSendingRadiusPacketError (socket_addr_to_string remote) e))) [])
        by (cbn [client_poll]; unfold poll_send; now rewrite Em).
      rewrite run_done. unfold text_send. cbn [r_send fst snd app].
      eapply agrees_one; [eexists _, _; reflexivity| |reflexivity]; reflexivity.
    + destruct (expired d m) eqn:Ex.
      * exists None, None, true. intros.
        rewrite (run_more _ _ _ (CDone (Err SocketTimeoutError)) [])
          by (cbn [client_poll]; unfold poll_send; now rewrite Em, Ex).
        rewrite run_done. unfold text_send. cbn [r_send fst snd app].
        apply agrees_timeout; [reflexivity| |reflexivity]. intro T. rewrite (Hd T) in Ex. discriminate.
      * exists s, rv, dl. intros.
        rewrite (run_more _ _ _ (CSending data d) []) by (cbn [client_poll]; unfold poll_send; now rewrite Em, Ex).
        cbn [app]. rewrite <- surjective_pairing. apply IH.
Qed.
(** connected: what follows *)
Definition text_encode (r : replies) k tr : rout :=
  match packet_encode pr req with
  | Ok data => text_send cl remote req r data ps k tr
  | Err e => RVal (verr (v_client_error (FailedRadiusPacketEncodingError (packet_error_display e)))) ps (World k tr)
  | Panic => RPanic
  | OutOfFuel => RNoFuel
  end.
Lemma run_connect_ok d m ms : m_connect m = Some (IoOk tt) ->
  client_run pr cl remote req (CConnecting d) (m :: ms)
  = match packet_encode pr req with
    | Ok data => let r := client_run pr cl remote req (CSending data (deadline_of (socket_timeout cl) m)) (m :: ms) in
                 (fst r, NConnected remote :: snd r)
    | Err e => (CDone (Err (FailedRadiusPacketEncodingError (packet_error_display e))), [NConnected remote])
    | Panic => (CDone Panic, [NConnected remote])
    | OutOfFuel => (CDone OutOfFuel, [NConnected remote])
    end.
Proof.
  intro Em. cbn [client_run client_poll]. unfold poll_connect, start_request. rewrite Em.
  destruct (packet_encode pr req) as [data|e| |]; [|now rewrite run_done..].
  destruct (poll_send remote req data (deadline_of (socket_timeout cl) m) m) as [st evs]. now destruct (client_run pr cl remote req st ms).
Qed.
Lemma answers_connect ms d : set_deadline (connection_timeout cl) d ->
  exists c s rv dl, forall b k tr, agrees_from tr (client_run pr cl remote req (CConnecting d) ms)
    (text_connect pr cl remote req (Replies b c s rv dl) ps k tr).
Proof.
  intro Hd. induction ms as [|m ms (c & s & rv & dl & IH)].
  - exists None, None, None, false. intros. cbn [client_run]. unfold text_connect. cbn [r_connect].
    apply agrees_waiting; [reflexivity|reflexivity|]. intro w. now exists w.
  - destruct (m_connect m) as [[[]|e]|] eqn:Em.
    + pose proof encode_total as NF.
      assert (X : exists s rv dl, forall b c k tr, c = Some (IoOk tt) -> agrees_from tr
        match packet_encode pr req with
        | Ok data => client_run pr cl remote req (CSending data (deadline_of (socket_timeout cl) m)) (m :: ms)
        | Err e => (CDone (Err (FailedRadiusPacketEncodingError (packet_error_display e))), [])
        | Panic => (CDone Panic, [])
        | OutOfFuel => (CDone OutOfFuel, [])
        end (text_encode (Replies b c s rv dl) k tr)).
      { unfold text_encode. destruct (packet_encode pr req) as [data|e| |].
        - destruct (answers_send (m :: ms) data (deadline_of (socket_timeout cl) m)) as (s' & rv' & dl' & S).
          { intro T. now rewrite T. }
          exists s', rv', dl'. intros. apply S.
        - exists None, None, false. intros. split; [eexists _, _; reflexivity|]. exists []. split; [reflexivity|constructor].
        - exists None, None, false. intros. split; reflexivity.
        - easy. }
      destruct X as (s' & rv' & dl' & X). exists (Some (IoOk tt)), s', rv', dl'. intros.
      rewrite (run_connect_ok d m ms Em). unfold text_connect. cbn [r_connect].
      specialize (X b _ k (Event "conn.connect" [v_addr remote] (connect_reply (Replies b (Some (IoOk tt)) s' rv' dl')) :: tr) eq_refl).
      unfold text_encode in X. destruct (packet_encode pr req) as [data|e| |]; cbv zeta;
        (eapply (agrees_more _ _ (NConnected remote)) in X; [exact X|constructor]).
    + exists (Some (IoErr e)), None, None, false. intros.
      rewrite (run_more _ _ _ (CDone (Err (FailedEstablishingUdpConnectionError (socket_addr_to_string remote) e))) [])
        by (cbn [client_poll]; unfold poll_connect; now rewrite Em).
      rewrite run_done. unfold text_connect. cbn [r_connect fst snd app].
      eapply agrees_one; [eexists _, _; reflexivity| |reflexivity]; reflexivity.
    + destruct (expired d m) eqn:Ex.
      * exists None, None, None, true. intros.
        rewrite (run_more _ _ _ (CDone (Err ConnectionTimeoutError)) [])
          by (cbn [client_poll]; unfold poll_connect; now rewrite Em, Ex).
        rewrite run_done. unfold text_connect. cbn [r_connect fst snd app].
        apply agrees_timeout; [reflexivity| |reflexivity]. intro T. rewrite (Hd T) in Ex. discriminate.
      * exists c, s, rv, dl. intros.
        rewrite (run_more _ _ _ (CConnecting d) []) by (cbn [client_poll]; unfold poll_connect; now rewrite Em, Ex).
        cbn [app]. rewrite <- surjective_pairing. apply IH.
Qed.
Lemma run_bind_ok m ms : m_bind m = Some (IoOk tt) ->
  client_run pr cl remote req CBinding (m :: ms)
  = let r := client_run pr cl remote req (CConnecting (deadline_of (connection_timeout cl) m)) (m :: ms) in
    (fst r, NBound (local_for remote) :: snd r).
Proof.
  intro Em. cbn [client_run client_poll]. unfold poll_bind. rewrite Em.
  destruct (poll_connect pr cl remote req (deadline_of (connection_timeout cl) m) m) as [st evs].
  now destruct (client_run pr cl remote req st ms).
Qed.
Lemma answers_bind ms : exists r, forall k tr,
  agrees_from tr (client_run pr cl remote req CBinding ms) (text_send_packet pr cl remote req r ps k tr).
Proof.
  induction ms as [|m ms (r & IH)].
  - exists (Replies None None None None false). intros. cbn [client_run]. unfold text_send_packet. cbn [r_bind].
    split; [eexists; reflexivity|]. exists [Event "UdpSocket::bind" [v_addr (local_for remote)] None]. split; [reflexivity|constructor].
  - destruct (m_bind m) as [[[]|e]|] eqn:Em.
    + destruct (answers_connect (m :: ms) (deadline_of (connection_timeout cl) m)) as (c & s & rv & dl & X).
      { intro T. now rewrite T. }
      exists (Replies (Some (IoOk tt)) c s rv dl). intros. rewrite (run_bind_ok m ms Em). unfold text_send_packet. cbn [r_bind].
      cbv zeta. eapply agrees_more; [|apply X]. constructor.
    + exists (Replies (Some (IoErr e)) None None None false). intros.
      rewrite (run_more _ _ _ (CDone (Err (FailedUdpSocketBindingError e))) [])
        by (cbn [client_poll]; unfold poll_bind; now rewrite Em).
      rewrite run_done. unfold text_send_packet. cbn [r_bind fst snd app].
      eapply agrees_one; [eexists _, _; reflexivity| |reflexivity]; reflexivity.
    + exists r. intros.
      rewrite (run_more _ _ _ CBinding []) by (cbn [client_poll]; unfold poll_bind; now rewrite Em).
      cbn [app]. rewrite <- surjective_pairing. apply IH.
Qed.

(** from the answers to the moments *)
Definition moment_of (now : N) (r : replies) : moment :=
  Moment now (r_bind r) (r_connect r) (match r_send r with Some (IoOk _) => Some (IoOk tt) | Some (IoErr e) => Some (IoErr e) | None => None end) (r_recv r).
Definition late : N := match connection_timeout cl with Some d => d | None => 0 end + match socket_timeout cl with Some d => d | None => 0 end.
Definition moments_of (r : replies) : list moment :=
  moment_of 0 r :: if r_deadline r then [moment_of late r] else [].
Definition positive (timeout : option N) : Prop := timeout <> Some 0.
Definition possible (r : replies) : Prop :=
  r_deadline r = true \/ positive (connection_timeout cl) /\ positive (socket_timeout cl).
(** an operation that is not ready at any of the moments *)
Lemma not_ready r timeout st e (poll : moment -> client_state * list net_event) k tr e0 :
  possible r -> timeout = connection_timeout cl \/ timeout = socket_timeout cl -> succeeded e0 = false ->
  (forall m, client_poll pr cl remote req st m = poll m) ->
  (forall now, poll (moment_of now r)
     = if expired (deadline_of timeout (moment_of 0 r)) (moment_of now r) then (CDone (Err e), []) else (st, [])) ->
  (forall w, same_outcome st (RWait w)) ->
  agrees_from tr (client_run pr cl remote req st (moments_of r)) (waiting r timeout e ps k (e0 :: tr)).
Proof.
  intros P T S0 Hp Hm Hw. unfold moments_of.
  destruct timeout as [d|].
  - unfold deadline_of, expired in Hm. cbn [m_now moment_of] in Hm.
    destruct (r_deadline r) eqn:D.
    + assert (R : client_run pr cl remote req st [moment_of 0 r; moment_of late r] = (CDone (Err e), [])).
      { destruct (0 + d <=? 0) eqn:Z.
        - erewrite run_more; [|rewrite Hp, Hm, Z; reflexivity]. now rewrite run_done.
        - erewrite run_more; [|rewrite Hp, Hm, Z; reflexivity].
          assert (L : (0 + d <=? late) = true).
          { unfold late. apply N.leb_le. destruct T as [<-|<-]; destruct (connection_timeout cl), (socket_timeout cl); lia. }
          erewrite run_more; [|rewrite Hp, Hm, L; reflexivity]. reflexivity. }
      rewrite R. now apply agrees_timeout.
    + destruct P as [P|[P1 P2]]; [congruence|].
      assert (Z : (0 + d <=? 0) = false).
      { apply N.leb_gt. assert (d <> 0) by (intros ->; destruct T as [T|T]; [now apply P1|now apply P2]). lia. }
      erewrite run_more; [|rewrite Hp, Hm, Z; reflexivity]. cbn [client_run fst snd app]. now apply agrees_waiting.
  - unfold deadline_of, expired in Hm.
    assert (R : client_run pr cl remote req st (moment_of 0 r :: (if r_deadline r then [moment_of late r] else [])) = (st, [])).
    { erewrite run_more; [|rewrite Hp, Hm; reflexivity]. destruct (r_deadline r); [|reflexivity].
      erewrite run_more; [|rewrite Hp, Hm; reflexivity]. reflexivity. }
    rewrite R. unfold waiting. split; [apply Hw|]. exists [e0]. split; [reflexivity|]. cbn [rev app filter]. rewrite S0. constructor.
Qed.
Lemma moments_recv r k tr : possible r ->
  agrees_from tr (client_run pr cl remote req (CReceiving (deadline_of (socket_timeout cl) (moment_of 0 r))) (moments_of r))
    (text_recv cl remote req r ps k tr).
Proof.
  intro P. unfold text_recv. destruct (r_recv r) as [[x|e]|] eqn:E.
  - unfold moments_of. erewrite run_more; [|cbn [client_poll]; unfold poll_recv, moment_of; cbn [m_recv]; rewrite E; reflexivity].
    rewrite run_done. cbn [fst snd app]. apply agrees_decoded. unfold recv_reply. rewrite E. constructor.
  - unfold moments_of. erewrite run_more; [|cbn [client_poll]; unfold poll_recv, moment_of; cbn [m_recv]; rewrite E; reflexivity].
    rewrite run_done. cbn [fst snd app]. unfold recv_reply. rewrite E. eapply agrees_one; [eexists _, _; reflexivity| |reflexivity]; reflexivity.
  - unfold recv_reply. rewrite E. eapply not_ready; [exact P|now right|reflexivity|intro m; reflexivity| |intro w; now exists w].
    intro now. cbn [client_poll]. unfold poll_recv. assert (M : m_recv (moment_of now r) = None) by (unfold moment_of; cbn [m_recv]; now rewrite E). rewrite M. reflexivity.
Qed.
Lemma moments_send r data k tr : possible r ->
  agrees_from tr (client_run pr cl remote req (CSending data (deadline_of (socket_timeout cl) (moment_of 0 r))) (moments_of r))
    (text_send cl remote req r data ps k tr).
Proof.
  intro P. unfold text_send. destruct (r_send r) as [[x|e]|] eqn:E.
  - pose proof (moments_recv r k (Event "conn.send" [VBytes data] (send_reply r) :: tr) P) as R. unfold moments_of in *.
    rewrite (run_send_ok data) by (unfold moment_of; cbn [m_send]; now rewrite E).
    eapply agrees_more; [|exact R]. unfold send_reply. rewrite E. constructor.
  - unfold moments_of. erewrite run_more; [|cbn [client_poll]; unfold poll_send, moment_of; cbn [m_send]; rewrite E; reflexivity].
    rewrite run_done. cbn [fst snd app]. unfold send_reply. rewrite E. eapply agrees_one; [eexists _, _; reflexivity| |reflexivity]; reflexivity.
  - unfold send_reply. rewrite E. eapply not_ready; [exact P|now right|reflexivity|intro m; reflexivity| |intro w; now exists w].
    intro now. cbn [client_poll]. unfold poll_send. assert (M : m_send (moment_of now r) = None) by (unfold moment_of; cbn [m_send]; now rewrite E). rewrite M. reflexivity.
Qed.
Lemma moments_connect r k tr : possible r ->
  agrees_from tr (client_run pr cl remote req (CConnecting (deadline_of (connection_timeout cl) (moment_of 0 r))) (moments_of r))
    (text_connect pr cl remote req r ps k tr).
Proof.
  intro P. unfold text_connect. destruct (r_connect r) as [[[]|e]|] eqn:E.
  - unfold moments_of. rewrite (run_connect_ok _ (moment_of 0 r)) by (unfold moment_of; cbn [m_connect]; exact E). pose proof encode_total as NF.
    assert (C : same_event (NConnected remote) (Event "conn.connect" [v_addr remote] (connect_reply r))) by (unfold connect_reply; rewrite E; constructor).
    destruct (packet_encode pr req) as [data|e| |]; [| | |easy].
    + cbv zeta. eapply agrees_more; [exact C|]. apply (moments_send r data k (_ :: tr) P).
    + split; [eexists _, _; reflexivity|]. eexists [_]. split; [reflexivity|]. cbn [rev app filter].
      unfold connect_reply in *. rewrite E in *. constructor; [exact C|constructor].
    + split; reflexivity.
  - unfold moments_of. erewrite run_more; [|cbn [client_poll]; unfold poll_connect, moment_of; cbn [m_connect]; rewrite E; reflexivity].
    rewrite run_done. cbn [fst snd app]. unfold connect_reply. rewrite E. eapply agrees_one; [eexists _, _; reflexivity| |reflexivity]; reflexivity.
  - unfold connect_reply. rewrite E. eapply not_ready; [exact P|now left|reflexivity|intro m; reflexivity| |intro w; now exists w].
    intro now. cbn [client_poll]. unfold poll_connect. assert (M : m_connect (moment_of now r) = None) by (unfold moment_of; cbn [m_connect]; now rewrite E). rewrite M. reflexivity.
Qed.
Lemma moments_agree r k tr : possible r ->
  agrees_from tr (client_run pr cl remote req CBinding (moments_of r)) (text_send_packet pr cl remote req r ps k tr).
Proof.
  intro P. unfold text_send_packet. destruct (r_bind r) as [[[]|e]|] eqn:E.
  - unfold moments_of. rewrite run_bind_ok by (unfold moment_of; cbn [m_bind]; exact E). cbv zeta.
    eapply agrees_more; [|apply moments_connect; exact P]. unfold bind_reply. rewrite E. constructor.
  - unfold moments_of. erewrite run_more; [|cbn [client_poll]; unfold poll_bind, moment_of; cbn [m_bind]; rewrite E; reflexivity].
    rewrite run_done. cbn [fst snd app]. unfold bind_reply. rewrite E. eapply agrees_one; [eexists _, _; reflexivity| |reflexivity]; reflexivity.
  - assert (R : client_run pr cl remote req CBinding (moments_of r) = (CBinding, [])).
    { unfold moments_of. erewrite run_more; [|cbn [client_poll]; unfold poll_bind, moment_of; cbn [m_bind]; rewrite E; reflexivity].
      destruct (r_deadline r); [|reflexivity].
      erewrite run_more; [|cbn [client_poll]; unfold poll_bind, moment_of; cbn [m_bind]; rewrite E; reflexivity]. reflexivity. }
    rewrite R. unfold bind_reply. rewrite E. split; [eexists; reflexivity|]. eexists [_]. split; [reflexivity|constructor].
Qed.
End Model.
Lemma sends_text pr f rng he r cl remote req : (f = Openssl -> forall b, he b = None) ->
  sends pr f rng he r cl remote req
    (text_send_packet pr cl remote req r [v_client cl; v_addr remote; v_packet req] 0 []).
Proof.
  intros H. exists (N.to_nat MAX_DATAGRAM_SIZE + 5)%nat. intros n Hn.
  unfold source. rewrite <- crate_program_ok. now apply run_client_send_packet.
Qed.

(** ** C77 *)
(** [Client::new] and the constant *)
Theorem C77_source_client_new : forall pr f rng he ans w,
  (forall connection_timeout socket_timeout,
     does (source pr f rng he ans) "Client" "new" [v_option v_duration connection_timeout; v_option v_duration socket_timeout] w
       (RVal (v_client (Client connection_timeout socket_timeout)) [v_option v_duration connection_timeout; v_option v_duration socket_timeout] w))
  /\ does (source pr f rng he ans) "Client" "MAX_DATAGRAM_SIZE" [] w (RVal (v_usize MAX_DATAGRAM_SIZE) [] w).
Proof.
  intros pr f rng he ans w. split; intros; exists 1%nat; intros n Hn; unfold source; rewrite <- crate_program_ok.
  - now apply run_client_new.
  - now apply run_MAX_DATAGRAM_SIZE.
Qed.

(** The text of [send_packet], with any answers, does what the future of the model does when it is polled at some
    moments.  (A deadline of zero is over at once in the model; so it must pass in the run of the text, too.) *)
Theorem C77_source_send_packet : forall pr f rng he cl remote req r,
  (f = Openssl -> forall b, he b = None) ->
  (r_deadline r = true \/ connection_timeout cl <> Some 0 /\ socket_timeout cl <> Some 0) ->
  exists ms o, sends pr f rng he r cl remote req o /\ agrees (send_packet pr cl remote req ms) o.
Proof.
  intros pr f rng he cl remote req r H P. exists (moments_of cl r). eexists. split; [now apply sends_text|].
  apply agrees_from_start. now apply moments_agree.
Qed.
(** Whatever the future of the model does, polled at any moments, the text does with some answers. *)
Theorem C77_source_send_packet_complete : forall pr f rng he cl remote req ms,
  (f = Openssl -> forall b, he b = None) ->
  exists r o, sends pr f rng he r cl remote req o /\ agrees (send_packet pr cl remote req ms) o.
Proof.
  intros pr f rng he cl remote req ms H.
  destruct (answers_bind pr cl remote req [v_client cl; v_addr remote; v_packet req] ms) as [r A].
  exists r. eexists. split; [now apply sends_text|]. apply agrees_from_start. apply A.
Qed.
(** The operations the text asks for, in this order, each at most once: [bind] of the unspecified address of the
    family of the server, [connect] to the server, [send] of the encoded request, [recv]; an operation only if the
    one before succeeded; a deadline only while [connect], [send] or [recv] has no answer, and the right one. *)
Definition asks (pr : profile) (cl : client) (remote : socket_addr) (req : packet) : list (string * list value) :=
  [("UdpSocket::bind", [v_addr (local_for remote)]); ("conn.connect", [v_addr remote])]
  ++ match packet_encode pr req with Ok data => [("conn.send", [VBytes data]); ("conn.recv", [])] | _ => [] end.
Definition deadline_for (cl : client) (op : string) : option N :=
  if String.eqb op "UdpSocket::bind" then None else if String.eqb op "conn.connect" then connection_timeout cl else socket_timeout cl.
Definition in_order (cl : client) (l : list (string * list value)) (tr : list event) : Prop :=
  exists good, Forall (fun e => succeeded e = true) good
  /\ exists rest, map (fun e => (ev_op e, ev_args e)) good ++ rest = l
  /\ (rest = [] /\ tr = good
      \/ (exists op args rest', rest = (op, args) :: rest'
          /\ exists e, tr = good ++ [Event op args (Some (verr e))])
      \/ (exists op args rest', rest = (op, args) :: rest'
          /\ match deadline_for cl op with
             | None => tr = good ++ [Event op args None]
             | Some d => exists a, tr = good ++ [Event op args None; Event "timeout" [v_duration d] a]
             end)).
Theorem C77_source_order : forall pr f rng he cl remote req r o,
  (f = Openssl -> forall b, he b = None) ->
  sends pr f rng he r cl remote req o ->
  match trace_of o with
  | Some tr => in_order cl (asks pr cl remote req) tr
  | None => o = RPanic
  end.
Proof.
  intros pr f rng he cl remote req r o H S.
  rewrite (does_unique _ _ _ _ _ _ _ S (sends_text pr f rng he r cl remote req H)). clear S o.
  unfold text_send_packet, text_connect, text_send, text_recv, waiting, asks, in_order.
  pose proof (encode_total pr req) as NF.
  unfold bind_reply, connect_reply, send_reply, recv_reply, deadline_reply.
  destruct (r_bind r) as [[[]|e]|].
  2: { exists []. split; [constructor|]. eexists. split; [reflexivity|]. right; left. eexists _, _, _. split; [reflexivity|]. eexists. reflexivity. }
  2: { exists []. split; [constructor|]. eexists. split; [reflexivity|]. right; right. eexists _, _, _. split; [reflexivity|]. reflexivity. }
  destruct (r_connect r) as [[[]|e]|].
  2: { exists [Event "UdpSocket::bind" [v_addr (local_for remote)] (Some (vok (VExt "conn")))]. split; [repeat constructor|].
       eexists. split; [reflexivity|]. right; left. eexists _, _, _. split; [reflexivity|]. eexists. reflexivity. }
  2: { destruct (connection_timeout cl) as [d|] eqn:T; [destruct (r_deadline r)|];
       exists [Event "UdpSocket::bind" [v_addr (local_for remote)] (Some (vok (VExt "conn")))]; (split; [repeat constructor|]);
       (eexists; split; [reflexivity|]); right; right; eexists _, _, _; (split; [reflexivity|]);
       unfold deadline_for; cbn [String.eqb Ascii.eqb Bool.eqb]; rewrite T; try eexists; reflexivity. }
  destruct (packet_encode pr req) as [data|e| |]; [| | |easy].
  2: { exists [Event "UdpSocket::bind" [v_addr (local_for remote)] (Some (vok (VExt "conn"))); Event "conn.connect" [v_addr remote] (Some (vok VUnit))].
       split; [repeat constructor|]. exists []. split; [reflexivity|]. left; now split. }
  2: reflexivity.
  destruct (r_send r) as [[x|e]|].
  2: { exists [Event "UdpSocket::bind" [v_addr (local_for remote)] (Some (vok (VExt "conn"))); Event "conn.connect" [v_addr remote] (Some (vok VUnit))].
       split; [repeat constructor|].
       eexists. split; [reflexivity|]. right; left. eexists _, _, _. split; [reflexivity|]. eexists. reflexivity. }
  2: { destruct (socket_timeout cl) as [d|] eqn:T; [destruct (r_deadline r)|];
       exists [Event "UdpSocket::bind" [v_addr (local_for remote)] (Some (vok (VExt "conn"))); Event "conn.connect" [v_addr remote] (Some (vok VUnit))];
       (split; [repeat constructor|]);
       (eexists; split; [reflexivity|]); right; right; eexists _, _, _; (split; [reflexivity|]);
       unfold deadline_for; cbn [String.eqb Ascii.eqb Bool.eqb]; rewrite T; try eexists; reflexivity. }
  destruct (r_recv r) as [[y|e]|].
  - pose proof (finish_total req (firstn (N.to_nat MAX_DATAGRAM_SIZE) y)) as NF2.
    unfold v_result. destruct (Client.finish _ _); [| | |easy]; try reflexivity.
    all: exists [Event "UdpSocket::bind" [v_addr (local_for remote)] (Some (vok (VExt "conn"))); Event "conn.connect" [v_addr remote] (Some (vok VUnit));
            Event "conn.send" [VBytes data] (Some (vok (v_usize x))); Event "conn.recv" [] (Some (vok (VBytes y)))];
       (split; [repeat constructor|]); exists []; (split; [reflexivity|]); left; now split.
  - exists [Event "UdpSocket::bind" [v_addr (local_for remote)] (Some (vok (VExt "conn"))); Event "conn.connect" [v_addr remote] (Some (vok VUnit));
            Event "conn.send" [VBytes data] (Some (vok (v_usize x)))].
    split; [repeat constructor|].
    eexists. split; [reflexivity|]. right; left. eexists _, _, _. split; [reflexivity|]. eexists. reflexivity.
  - destruct (socket_timeout cl) as [d|] eqn:T; [destruct (r_deadline r)|];
       exists [Event "UdpSocket::bind" [v_addr (local_for remote)] (Some (vok (VExt "conn"))); Event "conn.connect" [v_addr remote] (Some (vok VUnit));
            Event "conn.send" [VBytes data] (Some (vok (v_usize x)))];
       (split; [repeat constructor|]);
       (eexists; split; [reflexivity|]); right; right; eexists _, _, _; (split; [reflexivity|]);
       unfold deadline_for; cbn [String.eqb Ascii.eqb Bool.eqb]; rewrite T; try eexists; reflexivity.
Qed.

(** Cases that meet the hypotheses: an answer that is not a packet; an answer that is; no answer *)
Definition sample_client : client := Client (Some 3) (Some 5).
Definition sample_remote : socket_addr := SockV4 (Ipv4 x7f x00 x00 x01) 1812.
Definition sample_request : packet := Packet AccessRequest x07 (repeat x11 16) [x73] [].
Definition accept : bytes := [x02; x07; x00; x14] ++ repeat x22 16.
Example sample_accepted : forall pr he,
  exists tr, sends pr Md5Crate (fun _ => x00) he (Replies (Some (IoOk tt)) (Some (IoOk tt)) (Some (IoOk 20)) (Some (IoOk accept)) false)
    sample_client sample_remote sample_request
    (RVal (vok (v_packet (Packet AccessAccept x07 (repeat x22 16) [x73] []))) [v_client sample_client; v_addr sample_remote; v_packet sample_request] (World 0 tr))
  /\ map ev_op tr = ["conn.recv"; "conn.send"; "conn.connect"; "UdpSocket::bind"].
Proof.
  intros pr he. eexists. split.
  - refine (eq_rect _ _ (sends_text pr Md5Crate _ he _ _ _ _ _) _ _); [discriminate|].
    destruct pr; vm_compute; reflexivity.
  - reflexivity.
Qed.
Example sample_garbage : forall pr he,
  exists e tr, sends pr Md5Crate (fun _ => x00) he (Replies (Some (IoOk tt)) (Some (IoOk tt)) (Some (IoOk 20)) (Some (IoOk [x02; x07])) false)
    sample_client sample_remote sample_request
    (RVal (verr (v_client_error (FailedDecodingRadiusResponseError e))) [v_client sample_client; v_addr sample_remote; v_packet sample_request] (World 0 tr)).
Proof.
  intros pr he. exists (match packet_decode [x02; x07] [x73] with Err e => packet_error_display e | _ => "" end). eexists.
  refine (eq_rect _ _ (sends_text pr Md5Crate _ he _ _ _ _ _) _ _); [discriminate|].
  destruct pr; vm_compute; reflexivity.
Qed.
Example sample_silence : forall pr he,
  exists tr, sends pr Md5Crate (fun _ => x00) he (Replies (Some (IoOk tt)) (Some (IoOk tt)) (Some (IoOk 20)) None true)
    sample_client sample_remote sample_request
    (RVal (verr (v_client_error SocketTimeoutError)) [v_client sample_client; v_addr sample_remote; v_packet sample_request] (World 0 tr))
  /\ map ev_op tr = ["timeout"; "conn.recv"; "conn.send"; "conn.connect"; "UdpSocket::bind"].
Proof.
  intros pr he. eexists. split.
  - refine (eq_rect _ _ (sends_text pr Md5Crate _ he _ _ _ _ _) _ _); [discriminate|].
    destruct pr; vm_compute; reflexivity.
  - reflexivity.
Qed.

(** * Assumptions *)
Print Assumptions C77_source_client_new.
Print Assumptions C77_source_send_packet.
Print Assumptions C77_source_send_packet_complete.
Print Assumptions C77_source_order.
