(** * Final theorems about the server: C35-C42, C54, C55 *)
From Coq Require Import String List NArith ZArith Bool Arith Strings.Byte Lia ZifyBool ZifyNat ZifyN.
From Verif Require Import Prelude PreludeFacts Md5 Avp Code Packet Addr Server Spec CodecFacts AuthFacts
  RoundTrip PropPacket ServerSpec ServerFacts Samples.
Import ListNotations.
Local Open Scope N_scope.
Local Open Scope list_scope.

(** Two clients, and a complete exchange used by the examples below. *)
Definition client_a : socket_addr := SockV4 (Ipv4 (n2b 192) (n2b 168) x01 x10) 1645.
Definition client_b : socket_addr := SockV4 (Ipv4 (n2b 192) (n2b 168) x01 x11) 1645.
Definition server_addr : socket_addr := SockV4 (Ipv4 x00 x00 x00 x00) 1812.
Definition up_to_handler (tid : nat) (from : socket_addr) : list op :=
  [ORecv sample_request from (Some server_addr); OFetch tid (FOk sample_secret); OValidate tid;
   OLock tid; OCheck tid; OInvoke tid].
Definition sample_call (from : socket_addr) : request := Request server_addr from sample_packet.
(** ** C35 *)
Theorem C35_one_handler_per_key : forall ops s t1 r1 t2 r2,
  reachable ops s -> in_handler s t1 r1 -> in_handler s t2 r2 -> same_key r1 r2 ->
  t1 = t2 /\ r1 = r2.
Proof.
  intros ops s t1 r1 t2 r2 R (I1 & N1 & A1) (I2 & N2 & A2) [K1 K2].
  destruct (invoked_task _ _ _ _ R I1) as (u1 & s1 & p1 & d1 & n1 & Ht1 & _ & E1 & _ & _ & X1).
  destruct (invoked_task _ _ _ _ R I2) as (u2 & s2 & p2 & d2 & n2 & Ht2 & _ & E2 & _ & _ & X2).
  assert (H1 : t_state u1 = THandling p1).
  { destruct X1 as [X|[(_ & o & X)|[(_ & o & X)|[(_ & X & _)|(_ & X & _)]]]]; auto;
      first [destruct (N1 _ X)|destruct (A1 X)]. }
  assert (H2 : t_state u2 = THandling p2).
  { destruct X2 as [X|[(_ & o & X)|[(_ & o & X)|[(_ & X & _)|(_ & X & _)]]]]; auto;
      first [destruct (N2 _ X)|destruct (A2 X)]. }
  assert (T : t1 = t2).
  { apply (inv_uniq _ (reachable_inv _ _ R) _ _ (key_of (t_remote u1) p1)); unfold claim, claim_of.
    - rewrite Ht1, H1. reflexivity.
    - rewrite Ht2, H2. unfold key_of. subst r1 r2. cbn [rq_remote_addr rq_packet] in *. congruence. }
  split; [exact T|]. subst t2. rewrite Ht1 in Ht2. injection Ht2 as <-. congruence.
Qed.
Theorem C35_one_handler_per_client_and_id : forall ops s t1 r1 t2 r2,
  reachable ops s -> in_handler s t1 r1 -> in_handler s t2 r2 -> same_client_and_id r1 r2 ->
  t1 = t2 /\ r1 = r2.
Proof.
  intros ops s t1 r1 t2 r2 R H1 H2 [K1 K2]. eapply C35_one_handler_per_key; eauto.
  split; congruence.
Qed.

(** Two handlers of different clients with the same identifier do run at the same time. *)
Example C35_example_two_clients : exists s,
  reachable (ORun :: up_to_handler 0 client_a ++ up_to_handler 1 client_b) s
  /\ in_handler s 0 (sample_call client_a) /\ in_handler s 1 (sample_call client_b).
Proof.
  eexists. split; [vm_compute; reflexivity|]. unfold in_handler. cbn [sv_log In].
  repeat split; try tauto; intros H; repeat destruct H as [H|H]; try discriminate; auto.
  all: intros H'; repeat destruct H' as [H'|H']; try discriminate; auto.
Qed.

(** ** C36 *)
Theorem C36_handler_input : forall ops s tid r,
  reachable ops s -> In (EInvoked tid r) (sv_log s) ->
  exists datagram skip n secret,
    taken ops tid datagram (rq_local_addr r) (rq_remote_addr r) skip n
    /\ In (EFetched tid (rq_remote_addr r) (FOk secret)) (sv_log s)
    /\ secret <> []
    /\ packet_decode (truncated n datagram) secret = Ok (rq_packet r)
    /\ (skip = false -> request_authentic (truncated n datagram) secret
                        /\ (plain_request (p_code (rq_packet r))
                            \/ hashed_request (p_code (rq_packet r)))).
Proof.
  intros ops s tid r R H.
  destruct (invoked_task _ _ _ _ R H) as (t & secret & p & d & n & _ & T & -> & (V1 & V2 & V3) & F & _).
  cbn [rq_local_addr rq_remote_addr rq_packet].
  exists d, (t_skip t), n, secret. split; [exact T|]. split; [exact F|]. split; [exact V1|].
  split; [exact V2|]. intros K. specialize (V3 K). split; [exact V3|].
  destruct V3 as (_ & _ & c & rest & E & C).
  apply C01_decode_ok_iff in V2 as (_ & c' & W & RC).
  assert (c' = c) as ->.
  { destruct W as (l1 & l2 & body & padding & W & _). rewrite E in W. cbn [app] in W. congruence. }
  assert (X : forall k, code_number k = b2n c -> p_code p = k).
  { intros k Hk. destruct RC as [RC|(_ & RC)]; [|destruct (RC _ Hk)]. apply code_number_inj. congruence. }
  unfold plain_request, hashed_request.
  destruct C as [C|[C|([C|[C|C]] & _)]]; rewrite C in X.
  - left. left. apply X. reflexivity.
  - left. right. apply X. reflexivity.
  - right. left. apply X. reflexivity.
  - right. right. left. apply X. reflexivity.
  - right. right. right. apply X. reflexivity.
Qed.
(** the settings are those of the setters, with the documented defaults *)
Theorem C36_settings : forall ops s, reachable ops s ->
  sv_skip s = skip_setting ops /\ sv_buf_size s = buffer_setting ops.
Proof. intros ops s R. destruct (reachable_settings _ _ R) as (A & B & _). auto. Qed.
Example C36_example : exists s,
  reachable (ORun :: up_to_handler 0 client_a) s
  /\ In (EInvoked 0 (sample_call client_a)) (sv_log s).
Proof. eexists. split; [vm_compute; reflexivity|]. cbn [sv_log In]. tauto. Qed.

(** ** C37 *)
(** What happened to a datagram is a prefix of one of the stories of [legal_story], in which the
    handler occurs at most once; nothing happens to datagrams that were not taken. *)
Theorem C37_story : forall ops s tid, reachable ops s ->
  ((tid < accepted ops)%nat -> exists d local remote skip n rest,
     taken ops tid d local remote skip n
     /\ legal_story tid d local remote skip n (story s tid ++ rest)
     /\ (rest = [] <-> ~ unfinished s tid))
  /\ ((accepted ops <= tid)%nat -> story s tid = []).
Proof.
  intros ops s tid R. destruct (reachable_settings _ _ R) as (_ & _ & L).
  pose proof (reachable_inv _ _ R) as I. split; intros H.
  - destruct (nth_error (sv_tasks s) tid) as [t|] eqn:Ht;
      [|apply nth_error_None in Ht; lia].
    destruct (reachable_history _ _ R _ _ Ht) as (d & n & T & D & Hd).
    destruct (history_legal _ _ _ _ _ D Hd) as (rest & LS & E).
    exists d, (t_local t), (t_remote t), (t_skip t), n, rest.
    split; [exact T|]. split; [exact LS|]. rewrite E. split.
    + intros [r Hr] [_ U]. unfold history in Hd. rewrite Hr in Hd.
      assert (In (EEnded tid r) (sv_log s)).
      { apply (in_events_of tid); [reflexivity|].
        destruct r; repeat match goal with
          | H : exists _, _ |- _ => destruct H as [? H]
          | H : _ \/ exists _, _ |- _ => destruct H as [H|H]
          | H : _ /\ _ |- _ => destruct H as [? H]
          end; rewrite Hd; left; reflexivity. }
      exact (U _ H0).
    + intros U. destruct (t_state t) as [| | | | | | | |r] eqn:Hst; eauto; exfalso; apply U.
      all: split; [do 3 eexists; apply (in_events_of tid); [reflexivity|apply (history_spawned _ _ _ _ Hd)]|].
      all: intros r X; apply (in_events_of tid) in X; [|reflexivity].
      all: unfold history in Hd; rewrite Hst in Hd; cbv zeta beta iota in Hd.
      all: repeat match goal with
          | H : exists _, _ |- _ => destruct H as [? H]
          | H : _ /\ _ |- _ => destruct H as [? H]
          end; rewrite Hd in X; in_list X.
  - unfold story. rewrite (inv_nolog _ I); [reflexivity|]. apply nth_error_None. lia.
Qed.

Definition is_invoked (e : event) : bool := match e with EInvoked _ _ => true | _ => false end.
Theorem C37_at_most_once : forall ops s tid, reachable ops s ->
  (List.length (filter is_invoked (story s tid)) <= 1)%nat.
Proof.
  intros ops s tid R. destruct (C37_story _ _ tid R) as [A B].
  destruct (Nat.lt_ge_cases tid (accepted ops)) as [L|L].
  - destruct (A L) as (d & l & r & k & n & rest & _ & LS & _).
    assert (X : (length (filter is_invoked (story s tid ++ rest)) <= 1)%nat)
      by (inversion LS; cbn; lia).
    rewrite filter_app, app_length in X. lia.
  - rewrite (B L). cbn. lia.
Qed.
(** In total there are at most as many calls as datagrams taken. *)
Lemma filter_rev {A} (f : A -> bool) l : filter f (rev l) = rev (filter f l).
Proof.
  induction l as [|x l IH]; [reflexivity|]. cbn [rev filter]. rewrite filter_app, IH. cbn [filter].
  destruct (f x); [reflexivity|apply app_nil_r].
Qed.
Lemma filter_filter {A} (f g : A -> bool) l :
  filter f (filter g l) = filter (fun x => g x && f x) l.
Proof.
  induction l as [|x l IH]; [reflexivity|]. cbn [filter].
  destruct (g x); cbn [filter andb]; [destruct (f x)|]; rewrite IH; reflexivity.
Qed.
Theorem C37_total : forall ops s, reachable ops s ->
  (List.length (filter is_invoked (sv_log s)) <= accepted ops)%nat.
Proof.
  intros ops s R.
  assert (N : NoDup (map event_tid (filter is_invoked (sv_log s)))).
  { assert (H : forall tid, (length (filter (fun e => is_invoked e && Nat.eqb (event_tid e) tid) (sv_log s)) <= 1)%nat).
    { intros tid. pose proof (C37_at_most_once _ _ tid R) as X. unfold story in X.
      rewrite filter_rev, rev_length in X. unfold events_of in X. rewrite filter_filter in X.
      erewrite filter_ext; [exact X|]. intros e. apply andb_comm. }
    clear R. induction (sv_log s) as [|e l IH]; [constructor|]. cbn [filter].
    destruct (is_invoked e) eqn:E.
    - cbn [map]. constructor.
      + intros I. apply in_map_iff in I as (e' & E1 & I). specialize (H (event_tid e)). cbn [filter] in H.
        rewrite E, Nat.eqb_refl in H. cbn [andb length] in H.
        assert (X : In e' (filter (fun x => is_invoked x && Nat.eqb (event_tid x) (event_tid e)) l)).
        { apply filter_In in I as [I1 I2]. apply filter_In. split; [exact I1|].
          rewrite I2, E1, Nat.eqb_refl. reflexivity. }
        destruct (filter _ l); [destruct X|cbn in H; lia].
      + apply IH. intros tid. specialize (H tid). cbn [filter] in H.
        destruct (is_invoked e && Nat.eqb (event_tid e) tid); cbn [length] in H; lia.
    - apply IH. intros tid. specialize (H tid). cbn [filter] in H. rewrite E in H. exact H. }
  apply NoDup_incl_length with (l' := seq 0 (accepted ops)) in N.
  - rewrite map_length, seq_length in N. exact N.
  - intros tid I. apply in_map_iff in I as (e & <- & I). apply filter_In in I as [I _].
    destruct (event_task _ _ (reachable_inv _ _ R) I) as (t & d & Ht & _).
    destruct (reachable_settings _ _ R) as (_ & _ & L).
    apply in_seq. split; [lia|]. cbn. rewrite <- L. apply nth_error_Some. congruence.
Qed.
Example C37_example : exists s,
  reachable (ORun :: up_to_handler 0 client_a ++ [OReturn 0 HOk; OLock 0; ORemove 0]) s
  /\ story s 0 = [ESpawned 0 sample_request server_addr client_a;
                  EFetched 0 client_a (FOk sample_secret); EInvoked 0 (sample_call client_a);
                  EReturned 0 HOk; EEnded 0 Completed]
  /\ ~ unfinished s 0.
Proof.
  eexists. split; [vm_compute; reflexivity|]. split; [reflexivity|]. intros [_ U].
  apply (U Completed). left. reflexivity.
Qed.

(** ** C38 *)
Lemma claim_meaning ops s tid k : reachable ops s -> claim s tid = Some k ->
  exists d local remote skip n secret p,
    taken ops tid d local remote skip n /\ valid_request skip (truncated n d) secret p
    /\ k = key_of remote p
    /\ (unfinished s tid
        \/ exists r, In (EInvoked tid r) (sv_log s)
           /\ (In (EReturned tid HPanic) (sv_log s) \/ In (EAborted tid) (sv_log s))).
Proof.
  intros R C. unfold claim in C. destruct (nth_error (sv_tasks s) tid) as [t|] eqn:Ht; [|discriminate].
  destruct (reachable_history _ _ R _ _ Ht) as (d & n & T & D & Hd).
  assert (LL : forall e, event_tid e = tid -> In e (events_of tid (sv_log s)) -> In e (sv_log s)).
  { intros e E. apply in_events_of, E. }
  assert (RR : forall e, event_tid e = tid -> In e (sv_log s) -> In e (events_of tid (sv_log s))).
  { intros e E. apply in_events_of, E. }
  pose proof (history_spawned _ _ _ _ Hd) as Sp.
  exists d, (t_local t), (t_remote t), (t_skip t), n.
  unfold claim_of in C. unfold history, valid in Hd. rewrite D in Hd.
  destruct (t_state t) as [|sc|p|p|p|p|p|p|r] eqn:Hst; try discriminate; [| | | |destruct r; try discriminate];
    cbv zeta beta iota in Hd.
  1-4: injection C as <-.
  1-4: repeat match goal with
          | H : exists _, _ |- _ => destruct H as [? H]
          | H : _ /\ _ |- _ => destruct H as [? H]
          end; do 2 eexists; split; [exact T|]; split; [eassumption|]; split; [reflexivity|]; left.
  1-4: split; [do 3 eexists; apply LL; [reflexivity|exact Sp]|].
  1-4: intros r X; apply RR in X; [|reflexivity]; rewrite Hd in X; in_list X.
  - destruct Hd as [Hd|(secret & p & V & Hd)]; rewrite Hd in C; [discriminate|]. cbn [invoked] in C.
    injection C as <-. exists secret, p. split; [exact T|]. split; [exact V|]. split; [reflexivity|].
    right. eexists. rewrite Hd in LL. split; [apply LL; [reflexivity|cbn [In]; tauto]|].
    left. apply LL; [reflexivity|cbn [In]; tauto].
  - destruct Hd as [Hd|(secret & p & V & Hd)]; rewrite Hd in C; [discriminate|]. cbn [invoked] in C.
    injection C as <-. exists secret, p. split; [exact T|]. split; [exact V|]. split; [reflexivity|].
    right. eexists. rewrite Hd in LL. split; [apply LL; [reflexivity|cbn [In]; tauto]|].
    right. apply LL; [reflexivity|cbn [In]; tauto].
Qed.

(** Every key in the in-flight set belongs to a datagram that is still being processed... *)
Theorem C38_no_leak : forall ops s k, reachable ops s -> handlers_return s ->
  In k (sv_undergoing s) ->
  exists tid d local remote skip n secret p,
    taken ops tid d local remote skip n /\ valid_request skip (truncated n d) secret p
    /\ k = RequestKey (socket_addr_to_string remote) (p_identifier p) /\ unfinished s tid.
Proof.
  intros ops s k R HR H. apply (inv_keys _ (reachable_inv _ _ R)) in H as (tid & C).
  destruct (claim_meaning _ _ _ _ R C) as (d & l & r & sk & n & secret & p & T & V & E & [U|(q & I & X)]).
  - exists tid, d, l, r, sk, n, secret, p. auto.
  - destruct (HR _ _ I) as [A B]. destruct X; contradiction.
Qed.
(** ... and the keys of all running handlers are in it. *)
Theorem C38_handlers_registered : forall ops s tid r, reachable ops s -> in_handler s tid r ->
  In (RequestKey (socket_addr_to_string (rq_remote_addr r)) (p_identifier (rq_packet r)))
     (sv_undergoing s).
Proof.
  intros ops s tid r R (I1 & N1 & A1).
  destruct (invoked_task _ _ _ _ R I1) as (u1 & s1 & p1 & d1 & n1 & Ht1 & _ & -> & _ & _ & X1).
  apply (inv_keys _ (reachable_inv _ _ R)). exists tid. unfold claim, claim_of. rewrite Ht1.
  destruct X1 as [X|[(_ & o & X)|[(_ & o & X)|[(_ & X & _)|(_ & X & _)]]]];
    try first [destruct (N1 _ X)|destruct (A1 X)]. rewrite X. reflexivity.
Qed.
(** When everything has ended the set is empty. *)
Theorem C38_quiescent : forall ops s, reachable ops s -> handlers_return s -> quiescent s ->
  sv_undergoing s = [].
Proof.
  intros ops s R HR Q. destruct (sv_undergoing s) as [|k l] eqn:E; [reflexivity|exfalso].
  destruct (C38_no_leak ops s k R HR) as (tid & _ & _ & _ & _ & _ & _ & _ & _ & _ & _ & U).
  - rewrite E. left. reflexivity.
  - exact (Q _ U).
Qed.

Example C38_example : exists s,
  reachable (ORun :: up_to_handler 0 client_a) s /\ handlers_return s /\ unfinished s 0
  /\ sv_undergoing s = [RequestKey "192.168.1.16:1645" x00].
Proof.
  eexists. split; [vm_compute; reflexivity|]. split; [|split; [split|reflexivity]].
  - intros tid r _. split; intros X; in_list X.
  - do 3 eexists. right. right. left. reflexivity.
  - intros r X. in_list X.
Qed.

(** ** C39 *)
Lemma task_unfinished ops s tid : reachable ops s ->
  (unfinished s tid <-> exists t, nth_error (sv_tasks s) tid = Some t /\ forall r, t_state t <> TEnded r).
Proof.
  intros R. pose proof (reachable_inv _ _ R) as I. split.
  - intros [(d & l & r & Sp) U].
    destruct (event_task _ _ I Sp) as (t & d0 & Ht & Hd & _). cbn [event_tid] in *. exists t.
    split; [exact Ht|]. intros e Hst.
    assert (X : In (EEnded tid e) (events_of tid (sv_log s))).
    { unfold history in Hd. rewrite Hst in Hd. cbv zeta beta iota in Hd.
      destruct e; repeat match goal with
          | H : exists _, _ |- _ => destruct H as [? H]
          | H : _ \/ exists _, _ |- _ => destruct H as [H|H]
          | H : _ /\ _ |- _ => destruct H as [? H]
          end; rewrite Hd; left; reflexivity. }
    apply (in_events_of tid) in X; [|reflexivity]. exact (U _ X).
  - intros (t & Ht & U). destruct (reachable_history _ _ R _ _ Ht) as (d & n & _ & _ & Hd).
    split; [do 3 eexists; apply (in_events_of tid); [reflexivity|apply (history_spawned _ _ _ _ Hd)]|].
    intros r X. apply (in_events_of tid) in X; [|reflexivity].
    unfold history in Hd. destruct (t_state t) eqn:Hst; cbv zeta beta iota in Hd; [..|destruct (U _ eq_refl)].
    all: repeat match goal with
          | H : exists _, _ |- _ => destruct H as [? H]
          | H : _ /\ _ |- _ => destruct H as [? H]
          end; rewrite Hd in X; in_list X.
Qed.

(** The holder of the lock can always go on, without anybody's help. *)
Lemma lock_holder_moves s tid : inv s -> sv_lock s = Some tid ->
  exists o s', internal_op o = true /\ exec s o = Some s' /\
    (sv_lock s' = None \/ exists o' s'', internal_op o' = true /\ exec s' o' = Some s'' /\ sv_lock s'' = None).
Proof.
  intros I H. apply (inv_lock _ I) in H as (t & Ht & Hl).
  destruct (t_state t) as [|sc|p|p|p|p|p|p|r] eqn:Hst; try discriminate.
  - exists (OCheck tid). cbn [exec]. unfold exec_task. rewrite Ht, Hst.
    destruct (set_contains _ _).
    + eexists. split; [reflexivity|]. split; [reflexivity|]. left. reflexivity.
    + eexists. split; [reflexivity|]. split; [reflexivity|]. right. exists (OInvoke tid). cbn [exec].
      unfold exec_task. cbn [move sv_tasks]. rewrite (nth_error_set_nth_same _ _ _ t Ht).
      cbn [with_state t_state]. eexists. split; [reflexivity|]. split; [reflexivity|]. reflexivity.
  - exists (OInvoke tid). cbn [exec]. unfold exec_task. rewrite Ht, Hst.
    eexists. split; [reflexivity|]. split; [reflexivity|]. left. reflexivity.
  - exists (ORemove tid). cbn [exec]. unfold exec_task. rewrite Ht, Hst.
    eexists. split; [reflexivity|]. split; [reflexivity|]. left. reflexivity.
Qed.

(** No deadlock: as long as something is unfinished, either the server can make a step on its own,
    or it waits for the provider or for the handler of that datagram, and goes on whatever they
    answer. *)
Theorem C39_no_deadlock : forall ops s tid, reachable ops s -> unfinished s tid ->
  (exists o s', internal_op o = true /\ exec s o = Some s')
  \/ ~ (exists a o, In (EFetched tid a o) (sv_log s)) /\ (forall o, exists s', exec s (OFetch tid o) = Some s')
  \/ (exists r, in_handler s tid r) /\ (forall o, exists s', exec s (OReturn tid o) = Some s').
Proof.
  intros ops s tid R U. pose proof (reachable_inv _ _ R) as I.
  pose proof U as U'. apply (task_unfinished _ _ _ R) in U' as (t & Ht & E).
  destruct (inv_log _ I _ _ Ht) as (d & Hd). unfold history in Hd.
  destruct (sv_lock s) as [h|] eqn:Hl.
  { left. destruct (lock_holder_moves s h I Hl) as (o & s' & A & B & _). eauto. }
  destruct (t_state t) as [|sc|p|p|p|p|p|p|r] eqn:Hst; cbv zeta beta iota in Hd.
  - right. left. split.
    + intros (a & o & X). apply (in_events_of tid) in X; [|reflexivity]. rewrite Hd in X. in_list X.
    + intros o. cbn [exec]. unfold exec_task. rewrite Ht, Hst. eauto.
  - left. exists (OValidate tid). cbn [exec]. unfold exec_task. rewrite Ht, Hst. eauto.
  - left. exists (OLock tid). cbn [exec]. unfold exec_task. rewrite Ht, Hst, Hl. eauto.
  - left. exists (OCheck tid). cbn [exec]. unfold exec_task. rewrite Ht, Hst. eauto.
  - left. exists (OInvoke tid). cbn [exec]. unfold exec_task. rewrite Ht, Hst. eauto.
  - right. right. split.
    + destruct Hd as (secret & V & Hd). eexists. split; [|split].
      * apply (in_events_of tid); [reflexivity|]. rewrite Hd. left. reflexivity.
      * intros o X. apply (in_events_of tid) in X; [|reflexivity]. rewrite Hd in X. in_list X.
      * intros X. apply (in_events_of tid) in X; [|reflexivity]. rewrite Hd in X. in_list X.
    + intros o. cbn [exec]. unfold exec_task. rewrite Ht, Hst. eauto.
  - left. exists (OLock tid). cbn [exec]. unfold exec_task. rewrite Ht, Hst, Hl. eauto.
  - left. exists (ORemove tid). cbn [exec]. unfold exec_task. rewrite Ht, Hst. eauto.
  - destruct (E _ eq_refl).
Qed.

(** Termination: without new datagrams there are only finitely many steps. *)
Definition weight (st : task_state) : nat :=
  match st with
  | TReceived => 8 | TFetched _ => 7 | TWantInsert _ => 6 | TCheck _ => 5 | TInserted _ => 4
  | THandling _ => 3 | TWantRemove _ => 2 | TRemove _ => 1 | TEnded _ => 0
  end.
Definition total_weight (l : list task) : nat := fold_right (fun t n => weight (t_state t) + n)%nat 0%nat l.
Lemma total_weight_set l tid t t' : nth_error l tid = Some t ->
  (total_weight (set_nth l tid t') + weight (t_state t) = total_weight l + weight (t_state t'))%nat.
Proof.
  revert tid. induction l as [|x l IH]; intros [|tid] H; cbn [nth_error] in H; try discriminate.
  - injection H as ->. cbn [set_nth total_weight fold_right]. fold (total_weight l). lia.
  - cbn [set_nth total_weight fold_right]. specialize (IH _ H). unfold total_weight in IH. lia.
Qed.
Lemma total_weight_bound l : (total_weight l <= 8 * length l)%nat.
Proof.
  induction l as [|t l IH]; [cbn; lia|]. cbn [total_weight fold_right length].
  unfold total_weight in IH. destruct (t_state t); cbn [weight]; lia.
Qed.
Lemma exec_task_weight s o tid s' : exec_task s o tid = Some s' ->
  (total_weight (sv_tasks s') < total_weight (sv_tasks s))%nat.
Proof.
  unfold exec_task. destruct (nth_error (sv_tasks s) tid) as [t|] eqn:Ht; [|discriminate].
  destruct o; try discriminate; destruct (t_state t) as [|secret|p|p|p|p|p|p|r] eqn:Hst; try discriminate.
  all: repeat match goal with
       | |- context [match ?o with FOk _ => _ | FErr => _ | FPanic => _ end] => destruct o
       | |- context [match ?o with HOk => _ | HErr => _ | HPanic => _ end] => destruct o
       | |- context [match packet_decode ?a ?b with _ => _ end] => destruct (packet_decode a b)
       | |- context [match packet_is_authentic_request ?a ?b with _ => _ end] =>
           destruct (packet_is_authentic_request a b) as [[|]|?| |]
       | |- context [if ?b then _ else _] => destruct b
       | |- context [match sv_lock ?x with _ => _ end] => destruct (sv_lock x)
       end; try discriminate.
  all: intros E; injection E as <-; cbn [move_end move sv_tasks];
       match goal with |- context [set_nth _ _ ?t'] => pose proof (total_weight_set _ _ _ t' Ht) as W end;
       rewrite Hst in W; cbn [with_state t_state weight] in W; lia.
Qed.
Definition is_abort (o : op) : bool := match o with OAbort _ => true | _ => false end.
Lemma exec_all_weight more : forall s s',
  forallb (fun o => task_op o || is_abort o) more = true -> exec_all s more = Some s' ->
  (length more + total_weight (sv_tasks s') <= total_weight (sv_tasks s))%nat.
Proof.
  induction more as [|o more IH]; intros s s' F E; cbn [exec_all forallb length] in *.
  - injection E as <-. lia.
  - apply andb_true_iff in F as [F1 F2]. destruct (exec s o) as [s1|] eqn:X; [|discriminate].
    specialize (IH _ _ F2 E).
    assert (W : (total_weight (sv_tasks s1) < total_weight (sv_tasks s))%nat)
      by (destruct o; try discriminate; cbn [exec] in X; apply exec_task_weight in X; exact X).
    lia.
Qed.
Theorem C39_terminates : forall ops s more s', reachable ops s ->
  forallb (fun o => task_op o || is_abort o) more = true -> exec_all s more = Some s' ->
  (length more <= 8 * accepted ops)%nat.
Proof.
  intros ops s more s' R F E. pose proof (exec_all_weight _ _ _ F E) as W.
  pose proof (total_weight_bound (sv_tasks s)) as B. destruct (reachable_settings _ _ R) as (_ & _ & L).
  rewrite L in B. lia.
Qed.
(** When no step of a task is possible any more, everything has been dealt with. *)
Theorem C39_stuck_is_done : forall ops s, reachable ops s ->
  (forall o, task_op o = true -> exec s o = None) -> quiescent s.
Proof.
  intros ops s R N tid U.
  destruct (C39_no_deadlock _ _ _ R U) as [(o & s' & A & B)|[(_ & A)|(_ & A)]].
  - rewrite N in B; [discriminate|]. destruct o; try discriminate; reflexivity.
  - destruct (A FErr) as [s' B]. rewrite N in B; [discriminate|reflexivity].
  - destruct (A HOk) as [s' B]. rewrite N in B; [discriminate|reflexivity].
Qed.
(** From every state everything can be finished (so the theorems about quiescent states are not
    about nothing). *)
Theorem C39_can_finish : forall ops s, reachable ops s ->
  exists more s', forallb task_op more = true /\ reachable (ops ++ more) s' /\ quiescent s'.
Proof.
  intros ops s. remember (total_weight (sv_tasks s)) as w eqn:W. revert ops s W.
  induction w as [w IH] using lt_wf_ind. intros ops s W R.
  destruct (Exists_dec (fun t => match t_state t with TEnded _ => False | _ => True end) (sv_tasks s)) as [X|X].
  { intros t. destruct (t_state t); auto. }
  - apply Exists_exists in X as (t & X & Y). apply In_nth_error in X as [tid X].
    assert (U : unfinished s tid).
    { apply (task_unfinished _ _ _ R). exists t. split; [exact X|]. intros r Z. rewrite Z in Y. exact Y. }
    assert (P : exists o s1, task_op o = true /\ exec s o = Some s1).
    { destruct (C39_no_deadlock _ _ _ R U) as [(o & s' & A & B)|[(_ & A)|(_ & A)]].
      - exists o, s'. split; [destruct o; try discriminate; reflexivity|exact B].
      - destruct (A FErr) as [s' B]. exists (OFetch tid FErr), s'. auto.
      - destruct (A HOk) as [s' B]. exists (OReturn tid HOk), s'. auto. }
    destruct P as (o & s1 & A & B).
    assert (R1 : reachable (ops ++ [o]) s1).
    { unfold reachable in *. rewrite exec_all_app, R. cbn [exec_all]. rewrite B. reflexivity. }
    assert (L : (total_weight (sv_tasks s1) < w)%nat).
    { rewrite W. destruct o; try discriminate; cbn [exec] in B; apply exec_task_weight in B; exact B. }
    destruct (IH _ L _ s1 eq_refl R1) as (more & s' & F & R' & Q).
    exists (o :: more), s'. cbn [forallb]. rewrite A, F. rewrite <- app_assoc in R'. auto.
  - exists [], s. rewrite app_nil_r. split; [reflexivity|]. split; [exact R|]. intros tid U.
    apply (task_unfinished _ _ _ R) in U as (t & Ht & E). apply X, Exists_exists. exists t.
    split; [eapply nth_error_In; eauto|]. destruct (t_state t); auto. exact (E _ eq_refl).
Qed.

(** Somebody else's request with that key was being processed at that point of the log: its
    handler had been called and its processing had not been completed. *)
Definition busy (log : list event) (ip : string) (id : byte) (tid : nat) : Prop :=
  exists r, In (EInvoked tid r) log
    /\ socket_addr_to_string (rq_remote_addr r) = ip /\ p_identifier (rq_packet r) = id
    /\ ~ In (EEnded tid Completed) log.

Lemma claim_busy s tid ip id : inv s -> sv_lock s <> Some tid ->
  claim s tid = Some (RequestKey ip id) -> busy (sv_log s) ip id tid.
Proof.
  intros I L C. unfold claim in C. destruct (nth_error (sv_tasks s) tid) as [t|] eqn:Ht; [|discriminate].
  destruct (inv_log _ I _ _ Ht) as (d & Hd).
  assert (LL : forall e, event_tid e = tid -> (In e (sv_log s) <-> In e (events_of tid (sv_log s)))).
  { intros e E. apply in_events_of, E. }
  unfold busy. unfold history in Hd. unfold claim_of in C. unfold key_of in C.
  destruct (t_state t) as [|sc|p|p|p|p|p|p|r] eqn:Hst; try discriminate; [| | | |destruct r; try discriminate];
    cbv zeta beta iota in Hd.
  1: { exfalso. apply L. apply (inv_lock _ I). exists t. rewrite Hst. auto. }
  all: repeat match goal with
          | H : exists _, _ |- _ => destruct H as [? H]
          | H : _ \/ exists _, _ |- _ => destruct H as [H|H]
          | H : _ /\ _ |- _ => destruct H as [? H]
          end; try rewrite Hd in C; cbn [invoked] in C; try discriminate.
  all: injection C as <- <-; eexists; split; [apply LL; [reflexivity|]; rewrite Hd; cbn [In]; tauto|].
  all: split; [reflexivity|]; split; [reflexivity|]; intros X; apply LL in X; [|reflexivity]; rewrite Hd in X;
       in_list X.
Qed.

(** A request is dropped as a duplicate only if another one from the same client address with the
    same identifier was being processed at that moment. *)
Theorem C39_duplicate_only_if_busy : forall ops s tid newer older,
  reachable ops s -> sv_log s = newer ++ EEnded tid DuplicateRequest :: older ->
  exists d local remote skip n secret p tid',
    taken ops tid d local remote skip n /\ valid_request skip (truncated n d) secret p
    /\ tid' <> tid /\ busy older (socket_addr_to_string remote) (p_identifier p) tid'.
Proof.
  intros ops s tid newer older R. revert newer older. revert ops s R.
  apply (rev_ind_ops (fun ops s => forall newer older,
    sv_log s = newer ++ EEnded tid DuplicateRequest :: older ->
    exists d local remote skip n secret p tid',
    taken ops tid d local remote skip n /\ valid_request skip (truncated n d) secret p
    /\ tid' <> tid /\ busy older (socket_addr_to_string remote) (p_identifier p) tid')).
  - intros newer older H. destruct newer; discriminate.
  - intros ops s o s' R IH X newer older H.
    assert (IH' : forall newer', sv_log s = newer' ++ EEnded tid DuplicateRequest :: older ->
      exists d local remote skip n secret p tid',
      taken (ops ++ [o]) tid d local remote skip n /\ valid_request skip (truncated n d) secret p
      /\ tid' <> tid /\ busy older (socket_addr_to_string remote) (p_identifier p) tid').
    { intros newer' H'. destruct (IH _ _ H') as (d & l & r & k & n & sc & p & t' & T & Y).
      exists d, l, r, k, n, sc, p, t'. split; [apply taken_snoc, T|exact Y]. }
    clear IH. pose proof (reachable_inv _ _ R) as I.
    assert (OK : forall evs, sv_log s' = evs ++ sv_log s ->
              ~ In (EEnded tid DuplicateRequest) evs ->
              exists d local remote skip n secret p tid',
      taken (ops ++ [o]) tid d local remote skip n /\ valid_request skip (truncated n d) secret p
      /\ tid' <> tid /\ busy older (socket_addr_to_string remote) (p_identifier p) tid').
    { intros evs E N. rewrite E in H. clear E. revert newer H. induction evs as [|e evs IHe]; intros newer H.
      - apply (IH' newer H).
      - destruct newer as [|e' newer]; cbn [app] in H.
        + exfalso. injection H as -> _. apply N. left. reflexivity.
        + injection H as <- H. apply (IHe (fun Z => N (or_intror Z)) newer H). }
    destruct o; cbn [exec] in X;
      try (destruct (sv_run s); [|discriminate]; injection X as <-; apply (OK []); [reflexivity|intros []]; fail);
      try (destruct (sv_run s); [discriminate|]; injection X as <-; apply (OK []); [reflexivity|intros []]; fail).
    { destruct (sv_run s) as [buf|]; [|discriminate]. injection X as <-. unfold exec_recv in OK.
      unfold exec_recv in H. destruct (recv_into buf datagram). destruct local.
      - eapply (OK [_]); [reflexivity|]. intros Z. in_list Z.
      - apply (OK []); [reflexivity|]. intros Z. in_list Z. }
    all: unfold exec_task in X; destruct (nth_error (sv_tasks s) tid0) as [t|] eqn:Ht; [|discriminate];
      destruct (t_state t) as [|secret|p|p|p|p|p|p|r] eqn:Hst; try discriminate.
    all: repeat match type of X with
       | context [match ?o with FOk _ => _ | FErr => _ | FPanic => _ end] => destruct o
       | context [match ?o with HOk => _ | HErr => _ | HPanic => _ end] => destruct o
       | context [match packet_decode ?a ?b with _ => _ end] => destruct (packet_decode a b)
       | context [match packet_is_authentic_request ?a ?b with _ => _ end] =>
           destruct (packet_is_authentic_request a b) as [[|]|?| |]
       | context [if set_contains ?a ?b then _ else _] => destruct (set_contains a b) eqn:SC
       | context [if ?b then _ else _] => destruct b
       | context [match sv_lock ?x with _ => _ end] => destruct (sv_lock x)
       end; try discriminate.
    all: injection X as <-.
    all: try (eapply OK; [cbn [move_end move sv_log app];
           first [reflexivity
                 |match goal with |- ?a :: ?b :: sv_log _ = _ => instantiate (1 := [a; b]) end; reflexivity
                 |match goal with |- ?a :: sv_log _ = _ => instantiate (1 := [a]) end; reflexivity
                 |match goal with |- sv_log _ = _ => instantiate (1 := []) end; reflexivity]
             |let Z := fresh in intros Z; in_list Z]; fail).
    cbn [move_end move sv_log app] in H. destruct newer as [|e newer]; cbn [app] in H.
    + injection H as -> <-. destruct (reachable_history _ _ R _ _ Ht) as (d & n & T & D & Hd).
      unfold history in Hd. rewrite Hst in Hd. cbv zeta beta iota in Hd. destruct Hd as (secret & V & Hd).
      unfold valid in V. rewrite D in V.
      apply set_contains_iff, (inv_keys _ I) in SC as [tid' C].
      exists d, (t_local t), (t_remote t), (t_skip t), n, secret, p, tid'.
      split; [apply taken_snoc, T|]. split; [exact V|].
      assert (NE : tid' <> tid).
      { intros ->. unfold claim, claim_of in C. rewrite Ht, Hst in C. discriminate. }
      split; [exact NE|]. apply claim_busy; [exact I| |exact C].
      intros L. assert (L' : sv_lock s = Some tid) by (apply (inv_lock _ I); exists t; rewrite Hst; auto).
      congruence.
    + injection H as _ H. apply (IH' newer H).
Qed.

(** So once a valid request is finished with, either the handler was called with it, or another
    one was being processed. *)
Theorem C39_handled_or_busy : forall ops s tid d local remote skip n secret p,
  reachable ops s -> taken ops tid d local remote skip n -> ~ unfinished s tid ->
  In (EFetched tid remote (FOk secret)) (sv_log s) ->
  valid_request skip (truncated n d) secret p ->
  In (EInvoked tid (Request local remote p)) (sv_log s)
  \/ exists newer older tid', sv_log s = newer ++ EEnded tid DuplicateRequest :: older
     /\ tid' <> tid /\ busy older (socket_addr_to_string remote) (p_identifier p) tid'.
Proof.
  intros ops s tid d l r k n secret p R T U F V.
  assert (A : (tid < accepted ops)%nat).
  { destruct T as (b & a & -> & <- & _). rewrite accepted_app. unfold accepted at 3. cbn [filter length]. lia. }
  destruct (C37_story _ _ tid R) as [S _]. destruct (S A) as (d' & l' & r' & k' & n' & rest & T' & LS & E).
  destruct (taken_det _ _ _ _ _ _ _ _ _ _ _ _ T T') as (<- & <- & <- & <- & <-).
  apply E in U. subst rest. rewrite app_nil_r in LS.
  assert (IN : forall e, event_tid e = tid -> (In e (sv_log s) <-> In e (story s tid))).
  { intros e Q. unfold story. rewrite <- in_rev. apply in_events_of, Q. }
  apply IN in F; [|reflexivity]. destruct V as (V1 & V2 & V3).
  inversion LS as [H|H|H|H|sc N1 N2 N3 H|sc e N1 N2 N3 H|sc q W H|sc q o W O H|sc q W H|sc q W H];
    rewrite <- H in F; in_list F; injection F as <-.
  - destruct (V1 eq_refl).
  - destruct (N3 (V3 N2)).
  - congruence.
  - right.
    assert (X : In (EEnded tid DuplicateRequest) (sv_log s))
      by (apply IN; [reflexivity|]; rewrite <- H; cbn [In]; tauto).
    apply in_split in X as (newer & older & X).
    destruct (C39_duplicate_only_if_busy _ _ _ _ _ R X) as (d2 & l2 & r2 & k2 & n2 & s2 & p2 & t' & T2 & W2 & NE & B).
    destruct (taken_det _ _ _ _ _ _ _ _ _ _ _ _ T T2) as (<- & <- & <- & <- & <-).
    exists newer, older, t'. split; [exact X|]. split; [exact NE|].
    destruct W2 as (_ & W2 & _). replace (p_identifier p) with (p_identifier p2); [exact B|].
    apply packet_decode_ok_iff in V2 as (_ & c & V2 & _). apply packet_decode_ok_iff in W2 as (_ & c' & W2 & _).
    destruct V2 as (a1 & a2 & b1 & pd1 & E1 & _). destruct W2 as (a3 & a4 & b3 & pd3 & E3 & _).
    rewrite E1 in E3. cbn [app] in E3. congruence.
  - left. destruct W as (_ & W & _). apply IN; [reflexivity|]. rewrite <- H.
    replace p with q by congruence. cbn [In]. tauto.
  - left. destruct W as (_ & W & _). apply IN; [reflexivity|]. rewrite <- H.
    replace p with q by congruence. cbn [In]. tauto.
  - left. destruct W as (_ & W & _). apply IN; [reflexivity|]. rewrite <- H.
    replace p with q by congruence. cbn [In]. tauto.
Qed.
Example C39_example : exists s newer older,
  reachable (ORun :: up_to_handler 0 client_a ++
             [ORecv sample_request client_a (Some server_addr); OFetch 1 (FOk sample_secret);
              OValidate 1; OLock 1; OCheck 1]) s
  /\ sv_log s = newer ++ EEnded 1 DuplicateRequest :: older
  /\ busy older "192.168.1.16:1645" x00 0 /\ ~ unfinished s 1.
Proof.
  eexists. exists []. eexists. split; [vm_compute; reflexivity|]. split; [reflexivity|]. split.
  - eexists. split; [cbn [In]; tauto|]. split; [reflexivity|]. split; [reflexivity|].
    intros X. in_list X.
  - intros [_ U]. apply (U DuplicateRequest). left. reflexivity.
Qed.

(** ** C38: a client that sends one request at a time is never ignored *)
Lemma exec_log s o s' : exec s o = Some s' -> exists evs, sv_log s' = evs ++ sv_log s.
Proof.
  destruct o; cbn [exec]; intros X;
    try (apply exec_task_frame in X as (_ & _ & _ & t & st & evs & _ & _ & -> & _); eauto; fail);
    try (destruct (sv_run s); [|discriminate]; injection X as <-; exists []; reflexivity);
    try (destruct (sv_run s); [discriminate|]; injection X as <-; exists []; reflexivity).
  destruct (sv_run s) as [buf|]; [|discriminate]. injection X as <-. unfold exec_recv.
  destruct (recv_into buf datagram). destruct local; [eexists [_]|exists []]; reflexivity.
Qed.
Lemma exec_all_log ops : forall s s', exec_all s ops = Some s' -> exists evs, sv_log s' = evs ++ sv_log s.
Proof.
  induction ops as [|o ops IH]; intros s s' E; cbn [exec_all] in E.
  - injection E as <-. exists []. reflexivity.
  - destruct (exec s o) as [s1|] eqn:X; [|discriminate]. apply exec_log in X as [e1 X].
    apply IH in E as [e2 E]. exists (e2 ++ e1). rewrite E, X. apply app_assoc.
Qed.
Lemma legal_last tid d l r k n evs : legal_story tid d l r k n evs ->
  exists pre e, evs = pre ++ [EEnded tid e] /\ forall e', ~ In (EEnded tid e') pre.
Proof.
  intros H. exists (removelast evs).
  inversion H; eexists; (split; [reflexivity|]); cbn [removelast]; intros e' X; in_list X.
Qed.
Lemma legal_prefix_free tid d l r k n d' l' r' k' n' a b :
  legal_story tid d l r k n a -> legal_story tid d' l' r' k' n' (a ++ b) -> b = [].
Proof.
  intros A B. apply legal_last in A as (pa & ea & -> & _). apply legal_last in B as (pb & eb & E & N).
  destruct b as [|x b _] using rev_ind; [reflexivity|exfalso].
  rewrite app_assoc in E. apply app_inj_tail in E as [E _]. apply (N ea). rewrite <- E.
  rewrite !in_app_iff. left. right. left. reflexivity.
Qed.
Lemma taken_lt ops tid d l r k n : taken ops tid d l r k n -> (tid < accepted ops)%nat.
Proof.
  intros (b & a & -> & <- & _). rewrite accepted_app. unfold accepted at 3. cbn [filter length]. lia.
Qed.
Lemma accepted_cons_recv d r l ops : accepted (ORecv d r (Some l) :: ops) = S (accepted ops).
Proof. reflexivity. Qed.
Lemma taken_later before o more tid d l r k n :
  taken (before ++ o :: more) tid d l r k n -> (accepted (before ++ [o]) <= tid)%nat ->
  In (ORecv d r (Some l)) more.
Proof.
  intros (b & a & E & <- & _) L.
  revert b E L. induction before as [|x before IH]; intros [|y b] E L; cbn [app] in E.
  - injection E as -> _. unfold accepted in L. cbn in L. lia.
  - injection E as <- ->. apply in_app_iff. right. left. reflexivity.
  - injection E as -> _. cbn [app] in L. unfold accepted in L. cbn [filter length] in L. lia.
  - injection E as <- E. apply (IH b E). cbn [app] in L. unfold accepted in *. cbn [filter] in L.
    destruct x as [| | | |? ? [?|]| | | | | | | | |]; cbn [length] in L; lia.
Qed.
Lemma taken_earlier before o more tid d l r k n :
  taken (before ++ o :: more) tid d l r k n -> (tid < accepted before)%nat ->
  taken before tid d l r k n.
Proof.
  intros (b & a & E & <- & K & N) L.
  assert (X : exists a', before = b ++ ORecv d r (Some l) :: a').
  { clear K N. revert b E L. induction before as [|x before IH]; intros [|y b] E L; cbn [app] in E.
    - unfold accepted in L. cbn in L. lia.
    - unfold accepted in L. cbn in L. lia.
    - injection E as -> _. exists before. reflexivity.
    - injection E as <- E. destruct (IH b E) as [a' ->]; [|exists a'; reflexivity].
      unfold accepted in *. cbn [filter] in L.
      destruct x as [| | | |? ? [?|]| | | | | | | | |]; cbn [length] in L; lia. }
  destruct X as [a' ->]. exists b, a'. auto.
Qed.

Theorem C38_sequential_client : forall before d remote local more s1 s secret p,
  reachable before s1 -> reachable (before ++ ORecv d remote (Some local) :: more) s ->
  (* the earlier requests of this client are finished and their handlers returned ... *)
  (forall tid' d' l' r' k' n', taken before tid' d' l' r' k' n' ->
     socket_addr_to_string r' = socket_addr_to_string remote ->
     ~ unfinished s1 tid' /\ ~ In (EReturned tid' HPanic) (sv_log s1)
     /\ ~ In (EAborted tid') (sv_log s1)) ->
  (* ... and it sends no other one meanwhile *)
  (forall d' r' l', In (ORecv d' r' (Some l')) more ->
     socket_addr_to_string r' <> socket_addr_to_string remote) ->
  (* then a valid request that is finished with was handled *)
  ~ unfinished s (accepted before) ->
  In (EFetched (accepted before) remote (FOk secret)) (sv_log s) ->
  valid_request (skip_setting before) (truncated (buffer_setting before) d) secret p ->
  In (EInvoked (accepted before) (Request local remote p)) (sv_log s).
Proof.
  intros before d remote local more s1 s secret p R1 R Old New U F V.
  set (ops := before ++ ORecv d remote (Some local) :: more) in *.
  assert (T : taken ops (accepted before) d local remote (skip_setting before) (buffer_setting before)).
  { exists before, more. auto. }
  destruct (C39_handled_or_busy _ _ _ _ _ _ _ _ _ _ R T U F V) as [I|(newer & older & t' & L & NE & B)];
    [exact I|exfalso].
  destruct B as (r & I & Tx & _ & NC).
  assert (I' : In (EInvoked t' r) (sv_log s)) by (rewrite L; apply in_app_iff; right; right; exact I).
  destruct (invoked_task _ _ _ _ R I') as (u & sc & q & d' & n' & _ & T' & Er & _).
  rewrite Er in Tx. cbn [rq_remote_addr] in Tx.
  assert (RA : exists evs, sv_log s = evs ++ sv_log s1).
  { unfold reachable, ops in R. rewrite exec_all_app in R. unfold reachable in R1. rewrite R1 in R.
    apply exec_all_log in R. exact R. }
  destruct RA as [evs RA].
  destruct (Nat.lt_ge_cases t' (accepted before)) as [Lt|Ge].
  2: { assert (X : In (ORecv d' (t_remote u) (Some (t_local u))) more).
       { apply (taken_later _ _ _ _ _ _ _ _ _ T'). rewrite accepted_app. unfold accepted at 2. cbn. lia. }
       exact (New _ _ _ X Tx). }
  pose proof (taken_earlier _ _ _ _ _ _ _ _ _ T' Lt) as T1.
  destruct (Old _ _ _ _ _ _ T1 Tx) as (U1 & NP & NA).
  destruct (proj1 (C37_story _ _ t' R1) Lt) as (d1 & l1 & r1 & k1 & n1 & rest1 & _ & LS1 & E1).
  apply E1 in U1. subst rest1. rewrite app_nil_r in LS1.
  destruct (proj1 (C37_story _ _ t' R) (taken_lt _ _ _ _ _ _ _ T')) as (d2 & l2 & r2 & k2 & n2 & rest2 & _ & LS2 & _).
  assert (SS : story s t' = story s1 t' ++ rev (events_of t' evs)).
  { unfold story. rewrite RA, events_of_app, rev_app_distr. reflexivity. }
  rewrite SS, <- app_assoc in LS2. apply (legal_prefix_free _ _ _ _ _ _ _ _ _ _ _ _ _ LS1) in LS2.
  apply app_eq_nil in LS2 as [LS2 _]. rewrite LS2, app_nil_r in SS.
  assert (IN : forall e, event_tid e = t' -> (In e (sv_log s1) <-> In e (story s1 t'))).
  { intros e Q. unfold story. rewrite <- in_rev. apply in_events_of, Q. }
  assert (II : In (EInvoked t' r) (story s1 t')).
  { rewrite <- SS. unfold story. rewrite <- in_rev. apply in_events_of; [reflexivity|exact I']. }
  (* the entries of [s1] are all before the entry of the new datagram *)
  assert (OL : exists evs', older = evs' ++ sv_log s1).
  { assert (NI : ~ In (EEnded (accepted before) DuplicateRequest) (sv_log s1)).
    { intros X. destruct (event_task _ _ (reachable_inv _ _ R1) X) as (t & _ & Ht & _).
      cbn [event_tid] in Ht. destruct (reachable_settings _ _ R1) as (_ & _ & Len).
      assert (accepted before < length (sv_tasks s1))%nat by (apply nth_error_Some; congruence). lia. }
    rewrite L in RA. clear - RA NI. revert newer RA. induction evs as [|e evs IH]; intros newer RA.
    - exfalso. apply NI. rewrite <- (app_nil_l (sv_log s1)), <- RA. apply in_app_iff. right. left. reflexivity.
    - destruct newer as [|e' newer]; cbn [app] in RA.
      + injection RA as _ ->. exists evs. reflexivity.
      + injection RA as _ RA. exact (IH _ RA). }
  destruct OL as [evs' OL].
  assert (X : In (EEnded t' Completed) (sv_log s1)).
  { inversion LS1 as [Q|Q|Q|Q|? ? ? ? Q|? ? ? ? ? Q|? ? ? Q|? ? ? ? ? Q|? ? ? Q|? ? ? Q]; rewrite <- Q in II; in_list II.
    - apply IN; [reflexivity|]. rewrite <- Q. cbn [In]. tauto.
    - exfalso. apply NP, IN; [reflexivity|]. rewrite <- Q. cbn [In]. tauto.
    - exfalso. apply NA, IN; [reflexivity|]. rewrite <- Q. cbn [In]. tauto. }
  apply NC. rewrite OL. apply in_app_iff. right. exact X.
Qed.
(** The same client sends the same identifier again after the first was finished. *)
Example C38_example_again : exists s1 s,
  let before := ORun :: up_to_handler 0 client_a ++ [OReturn 0 HErr; OLock 0; ORemove 0] in
  reachable before s1
  /\ reachable (before ++ ORecv sample_request client_a (Some server_addr) ::
                [OFetch 1 (FOk sample_secret); OValidate 1; OLock 1; OCheck 1; OInvoke 1]) s
  /\ ~ unfinished s1 0 /\ ~ In (EReturned 0 HPanic) (sv_log s1) /\ ~ In (EAborted 0) (sv_log s1)
  /\ In (EInvoked 1 (sample_call client_a)) (sv_log s).
Proof.
  do 2 eexists. cbv zeta. split; [vm_compute; reflexivity|]. split; [vm_compute; reflexivity|].
  split; [|split; [|split]].
  - intros [_ U]. apply (U Completed). left. reflexivity.
  - intros X. in_list X.
  - intros X. in_list X.
  - left. reflexivity.
Qed.

(** ** C40 *)
(** REFUTED: one panic of the handler (or a dropped task) and the client's identifier is ignored,
    although no handler is running and everything is finished. *)
Theorem C40_panic_isolated_refuted : exists ops s,
  reachable ops s /\ quiescent s /\ (forall tid r, ~ in_handler s tid r)
  /\ story s 0 = [ESpawned 0 sample_request server_addr client_a;
                  EFetched 0 client_a (FOk sample_secret); EInvoked 0 (sample_call client_a);
                  EReturned 0 HPanic; EEnded 0 Panicked]
  /\ story s 1 = [ESpawned 1 sample_request server_addr client_a;
                  EFetched 1 client_a (FOk sample_secret); EEnded 1 DuplicateRequest].
Proof.
  exists (ORun :: up_to_handler 0 client_a ++
          [OReturn 0 HPanic; ORecv sample_request client_a (Some server_addr);
           OFetch 1 (FOk sample_secret); OValidate 1; OLock 1; OCheck 1]).
  eexists. split; [vm_compute; reflexivity|]. split; [|split; [|split; reflexivity]].
  - intros [|[|tid]] [(d & l & r & X) U].
    + apply (U Panicked). cbn [sv_log In]. tauto.
    + apply (U DuplicateRequest). cbn [sv_log In]. tauto.
    + in_list X.
  - intros tid r (X & Y & _). in_list X. injection X as <- <-. apply (Y HPanic). cbn [sv_log In]. tauto.
Qed.
(** After a panic or an aborted handler no request with that key is ever handled again, however
    the server goes on. *)
Theorem C40_blocked_forever : forall ops s tid r more s' tid' r',
  reachable ops s -> In (EInvoked tid r) (sv_log s) ->
  In (EReturned tid HPanic) (sv_log s) \/ In (EAborted tid) (sv_log s) ->
  exec_all s more = Some s' -> same_key r r' ->
  In (EInvoked tid' r') (sv_log s') -> In (EInvoked tid' r') (sv_log s).
Proof.
  intros ops s tid r more. revert ops s. induction more as [|o more IH]; intros ops s s' tid' r' R I D E K J;
    cbn [exec_all] in E.
  - injection E as <-. exact J.
  - destruct (exec s o) as [s1|] eqn:X; [|discriminate].
    destruct (exec_log _ _ _ X) as [evs L].
    assert (R1 : reachable (ops ++ [o]) s1).
    { unfold reachable in *. rewrite exec_all_app, R. cbn [exec_all]. rewrite X. reflexivity. }
    assert (Y : In (EInvoked tid' r') (sv_log s1)).
    { refine (IH _ s1 s' tid' r' R1 _ _ E K J); rewrite L; [|destruct D as [D|D]; [left|right]];
        apply in_app_iff; right; assumption. }
    clear IH E J.
    destruct (invoked_task _ _ _ _ R I) as (u & sc & q & d' & n' & Ht & _ & Er & _ & _ & C).
    assert (Dead : claim s tid = Some (key_of (t_remote u) q) /\ (t_state u = TEnded Panicked \/ t_state u = TEnded Aborted)).
    { pose proof (reachable_inv _ _ R) as V. destruct (inv_log _ V _ _ Ht) as (dd & Hd).
      assert (LL : forall e, event_tid e = tid -> In e (sv_log s) -> In e (events_of tid (sv_log s))).
      { intros e Q. apply in_events_of, Q. }
      assert (D' : In (EReturned tid HPanic) (events_of tid (sv_log s)) \/ In (EAborted tid) (events_of tid (sv_log s))).
      { destruct D as [D|D]; [left|right]; apply LL; auto. }
      unfold history in Hd.
      destruct C as [C|[([C|C] & _)|[(C & _)|[(C & _ & C')|(C & _ & C')]]]]; auto; exfalso; rewrite C in Hd;
        cbv zeta beta iota in Hd;
        repeat match goal with
          | H : exists _, _ |- _ => destruct H as [? H]
          | H : _ /\ _ |- _ => destruct H as [? H]
          end; rewrite Hd in D'; destruct D' as [D'|D']; in_list D'.
      all: injection D' as D'; subst; match goal with H : _ \/ _ |- _ => destruct H; discriminate end. }
    destruct Dead as [Cl Dead].
    (* the step [o] does not add such a call *)
    rewrite L in Y. apply in_app_iff in Y as [Y|Y]; [exfalso|exact Y].
    assert (NE : forall t, nth_error (sv_tasks s) tid' = Some t -> t_state t = TInserted (rq_packet r') ->
                 t_remote t = rq_remote_addr r' -> False).
    { intros t Ht' Hst Hr.
      assert (tid = tid').
      { apply (inv_uniq _ (reachable_inv _ _ R) _ _ _ Cl). unfold claim, claim_of. rewrite Ht', Hst.
        destruct K as [K1 K2]. rewrite Er in K1, K2. cbn [rq_remote_addr rq_packet] in K1, K2.
        unfold key_of. rewrite Hr. congruence. }
      subst tid'. rewrite Ht in Ht'. injection Ht' as <-. destruct Dead; congruence. }
    destruct o; cbn [exec] in X;
      try (destruct (sv_run s); [|discriminate]; injection X as <-; cbn [sv_log] in L;
           apply (app_inv_tail (sv_log s) [] evs) in L; subst evs; destruct Y; fail);
      try (destruct (sv_run s); [discriminate|]; injection X as <-; cbn [sv_log] in L;
           apply (app_inv_tail (sv_log s) [] evs) in L; subst evs; destruct Y; fail).
    { destruct (sv_run s) as [buf|]; [|discriminate]. injection X as <-. unfold exec_recv in L.
      destruct (recv_into buf datagram). destruct local; cbn [sv_log] in L.
      - apply (app_inv_tail (sv_log s) [_] evs) in L. subst evs. in_list Y.
      - apply (app_inv_tail (sv_log s) [] evs) in L. subst evs. in_list Y. }
    all: unfold exec_task in X; destruct (nth_error (sv_tasks s) tid0) as [t|] eqn:Ht0; [|discriminate];
      destruct (t_state t) as [|secret|p|p|p|p|p|p|rr] eqn:Hst; try discriminate.
    all: repeat match type of X with
       | context [match ?o with FOk _ => _ | FErr => _ | FPanic => _ end] => destruct o
       | context [match ?o with HOk => _ | HErr => _ | HPanic => _ end] => destruct o
       | context [match packet_decode ?a ?b with _ => _ end] => destruct (packet_decode a b)
       | context [match packet_is_authentic_request ?a ?b with _ => _ end] =>
           destruct (packet_is_authentic_request a b) as [[|]|?| |]
       | context [if ?b then _ else _] => destruct b
       | context [match sv_lock ?x with _ => _ end] => destruct (sv_lock x)
       end; try discriminate.
    all: injection X as <-; cbn [move_end move sv_log] in L; apply app_inv_tail in L; subst evs; in_list Y.
    injection Y as -> <-. exact (NE t Ht0 Hst eq_refl).
Qed.
(** What is true: requests of clients and identifiers without such an accident are handled, unless
    another one with the same key is still being processed. *)
Theorem C40_other_keys_partial : forall ops s tid d local remote skip n secret p,
  reachable ops s -> taken ops tid d local remote skip n -> ~ unfinished s tid ->
  In (EFetched tid remote (FOk secret)) (sv_log s) ->
  valid_request skip (truncated n d) secret p ->
  (forall tid' r', In (EInvoked tid' r') (sv_log s) -> same_key (Request local remote p) r' ->
     ~ In (EReturned tid' HPanic) (sv_log s) /\ ~ In (EAborted tid') (sv_log s)) ->
  In (EInvoked tid (Request local remote p)) (sv_log s)
  \/ exists newer older tid' r', sv_log s = newer ++ EEnded tid DuplicateRequest :: older
     /\ tid' <> tid /\ In (EInvoked tid' r') older /\ same_key (Request local remote p) r'
     /\ forall e, ~ In (EEnded tid' e) older.
Proof.
  intros ops s tid d l r k n secret p R T U F V Acc.
  destruct (C39_handled_or_busy _ _ _ _ _ _ _ _ _ _ R T U F V) as [I|(newer & older & t' & L & NE & B)];
    [left; exact I|right].
  destruct B as (r' & I & K1 & K2 & NC). exists newer, older, t', r'.
  split; [exact L|]. split; [exact NE|]. split; [exact I|].
  assert (K : same_key (Request l r p) r') by (split; cbn [rq_remote_addr rq_packet]; congruence).
  split; [exact K|]. intros e E.
  assert (Up : forall x, In x older -> In x (sv_log s)) by (intros x X; rewrite L; apply in_app_iff; right; right; exact X).
  destruct (Acc _ _ (Up _ I) K) as [A1 A2].
  destruct (invoked_task _ _ _ _ R (Up _ I)) as (u & sc & q & d' & n' & _ & T' & _).
  destruct (proj1 (C37_story _ _ t' R) (taken_lt _ _ _ _ _ _ _ T')) as (d2 & l2 & r2 & k2 & n2 & rest2 & _ & LS & E2).
  assert (F2 : rest2 = []).
  { apply E2. intros [_ X]. exact (X _ (Up _ E)). }
  subst rest2. rewrite app_nil_r in LS.
  assert (IN : forall x, event_tid x = t' -> (In x (sv_log s) <-> In x (story s t'))).
  { intros x Q. unfold story. rewrite <- in_rev. apply in_events_of, Q. }
  pose proof (proj1 (IN (EInvoked t' r') eq_refl) (Up _ I)) as I2.
  pose proof (proj1 (IN (EEnded t' e) eq_refl) (Up _ E)) as E3.
  inversion LS as [Q|Q|Q|Q|? ? ? ? Q|? ? ? ? ? Q|? ? ? Q|? ? ? ? ? Q|? ? ? Q|? ? ? Q];
    rewrite <- Q in I2, E3; in_list I2; in_list E3.
  - injection E3 as <-. exact (NC E).
  - apply A1, IN; [reflexivity|]. rewrite <- Q. cbn [In]. tauto.
  - apply A2, IN; [reflexivity|]. rewrite <- Q. cbn [In]. tauto.
Qed.

(** ** C41 *)
Theorem C41_no_truncated_packet : forall ops s tid r d local remote skip n,
  reachable ops s -> In (EInvoked tid r) (sv_log s) -> taken ops tid d local remote skip n ->
  declared_length d <= n /\ declared_length d <= len d
  /\ exists secret, In (EFetched tid remote (FOk secret)) (sv_log s)
     /\ packet_decode d secret = Ok (rq_packet r).
Proof.
  intros ops s tid r d l rm k n R I T.
  destruct (C36_handler_input _ _ _ _ R I) as (d' & k' & n' & secret & T' & F & _ & D & _).
  destruct (taken_det _ _ _ _ _ _ _ _ _ _ _ _ T T') as (<- & _ & -> & _ & <-).
  pose proof D as D'. apply packet_decode_ok_iff in D' as (_ & c & W & _).
  destruct W as (l1 & l2 & body & padding & E & W).
  assert (LE : declared_length (truncated n d) <= len (truncated n d) /\ declared_length (truncated n d) = declared_length d).
  { rewrite E. cbn [app declared_length]. split.
    - rewrite !len_cons, !len_app. destruct W as (? & W). lia.
    - assert (X : d = truncated n d ++ skipn (N.to_nat n) d) by (symmetry; apply firstn_skipn).
      rewrite X, E. reflexivity. }
  destruct LE as [LE1 LE2]. rewrite LE2 in LE1.
  assert (LT : len (truncated n d) <= n /\ len (truncated n d) <= len d).
  { unfold truncated, len. rewrite firstn_length. lia. }
  split; [lia|]. split; [lia|]. exists secret. split; [exact F|].
  pose proof (C02_decode_ignores_padding _ _ _ (skipn (N.to_nat (declared_length d)) d) D) as X.
  unfold declared_packet in X. rewrite LE2 in X. unfold truncated in X. rewrite firstn_firstn in X.
  rewrite Nat.min_l in X by lia. rewrite firstn_skipn in X. exact X.
Qed.

(** A packet longer than the receive buffer is not handled. *)
Example C41_example_truncated : exists s,
  reachable [OSetBufferSize 40; ORun; ORecv sample_request client_a (Some server_addr);
             OFetch 0 (FOk sample_secret); OValidate 0] s
  /\ In (EEnded 0 NotDecodable) (sv_log s).
Proof. eexists. split; [vm_compute; reflexivity|]. left. reflexivity. Qed.
(** Padding that does not fit does no harm. *)
Example C41_example_padding : exists s,
  let d := sample_request ++ zeros 100 in
  reachable [OSetBufferSize 60; ORun; ORecv d client_a (Some server_addr);
             OFetch 0 (FOk sample_secret); OValidate 0; OLock 0; OCheck 0; OInvoke 0] s
  /\ In (EInvoked 0 (sample_call client_a)) (sv_log s).
Proof. eexists. split; [vm_compute; reflexivity|]. left. reflexivity. Qed.

(** ** C42 *)
(** Nothing is taken from the socket between a shutdown (or a failed [recv_from]) and the next
    call of [run]. *)
Theorem C42_no_intake_after_shutdown : forall before stop more s,
  stop = OShutdown \/ stop = ORecvError ->
  reachable (before ++ stop :: more) s -> ~ In ORun more ->
  accepted (before ++ stop :: more) = accepted before.
Proof.
  intros before stop more s St R N. rewrite accepted_app.
  assert (A : accepted (stop :: more) = accepted more) by (destruct St; subst; reflexivity).
  rewrite A. enough (accepted more = 0%nat) by lia.
  unfold reachable in R. rewrite exec_all_app in R.
  destruct (exec_all server_listen before) as [s1|]; [|discriminate]. cbn [exec_all] in R.
  destruct (exec s1 stop) as [s2|] eqn:X; [|discriminate].
  assert (Q : sv_run s2 = None).
  { destruct St; subst; cbn [exec] in X; destruct (sv_run s1); try discriminate; injection X as <-; reflexivity. }
  clear X A St before s1 stop. revert s2 Q R. induction more as [|o more IH]; intros s2 Q R; [reflexivity|].
  cbn [exec_all] in R. destruct (exec s2 o) as [s3|] eqn:X; [|discriminate].
  assert (Q3 : sv_run s3 = None /\ accepted (o :: more) = accepted more).
  { destruct o; cbn [exec] in X; rewrite ?Q in X; try discriminate;
      try (apply exec_task_frame in X as (_ & _ & -> & _); split; [exact Q|reflexivity]);
      try (injection X as <-; split; reflexivity).
    destruct N. left. reflexivity. }
  destruct Q3 as [Q3 ->]. eapply IH; [intros Z; apply N; right; exact Z|exact Q3|exact R].
Qed.
(** Requests already taken are processed to the end exactly as if there had been no shutdown. *)
Definition same_work (a b : server) : Prop :=
  sv_tasks a = sv_tasks b /\ sv_undergoing a = sv_undergoing b /\ sv_lock a = sv_lock b
  /\ sv_log a = sv_log b.
Lemma exec_task_same_work a b o tid : same_work a b ->
  match exec_task a o tid, exec_task b o tid with
  | Some a', Some b' => same_work a' b'
  | None, None => True
  | _, _ => False
  end.
Proof.
  intros (A & B & C & D). unfold exec_task. rewrite A. destruct (nth_error (sv_tasks b) tid) as [t|]; [|exact I].
  destruct o; try exact I; destruct (t_state t) as [|secret|p|p|p|p|p|p|r]; try exact I; rewrite ?B, ?C;
  repeat match goal with
       | |- context [match ?o with FOk _ => _ | FErr => _ | FPanic => _ end] => destruct o
       | |- context [match ?o with HOk => _ | HErr => _ | HPanic => _ end] => destruct o
       | |- context [match packet_decode ?a ?b with _ => _ end] => destruct (packet_decode a b)
       | |- context [match packet_is_authentic_request ?a ?b with _ => _ end] =>
           destruct (packet_is_authentic_request a b) as [[|]|?| |]
       | |- context [if ?b then _ else _] => destruct b
       | |- context [match sv_lock ?x with Some _ => None | None => _ end] => destruct (sv_lock x)
       end; try exact I; unfold same_work; cbn [move_end move sv_tasks sv_undergoing sv_lock sv_log];
  rewrite ?A, ?B, ?C, ?D; auto.
Qed.
Theorem C42_tasks_survive_shutdown : forall s stop s1 more s',
  stop = OShutdown \/ stop = ORecvError -> exec s stop = Some s1 ->
  forallb (fun o => task_op o || is_abort o) more = true -> exec_all s more = Some s' ->
  exists s1', exec_all s1 more = Some s1' /\ same_work s' s1'.
Proof.
  intros s stop s1 more s' St X F E.
  assert (W : same_work s s1).
  { destruct St; subst; cbn [exec] in X; destruct (sv_run s); try discriminate; injection X as <-;
      unfold same_work; auto. }
  clear X St stop. revert s s1 W E. induction more as [|o more IH]; intros s s1 W E; cbn [exec_all forallb] in *.
  - injection E as <-. eauto.
  - apply andb_true_iff in F as [F1 F2]. destruct (exec s o) as [s2|] eqn:X; [|discriminate].
    assert (Y : exists s3, exec s1 o = Some s3 /\ same_work s2 s3).
    { destruct o; try discriminate; cbn [exec] in *;
        match type of X with exec_task _ ?oo ?t = _ => pose proof (exec_task_same_work s s1 oo t W) as Q end;
        rewrite X in Q; match type of Q with match ?e with _ => _ end => destruct e end; try contradiction; eauto. }
    destruct Y as (s3 & Y & W'). rewrite Y. exact (IH F2 _ _ W' E).
Qed.
(** A server that is started again knows which requests are in flight. *)
Theorem C42_restart_keeps_requests : forall s stop s1 s2,
  stop = OShutdown \/ stop = ORecvError -> exec_all s [stop; ORun] = Some s2 -> exec s stop = Some s1 ->
  same_work s s1 /\ same_work s s2.
Proof.
  intros s stop s1 s2 St E X. cbn [exec_all] in E. rewrite X in E.
  destruct St; subst; cbn [exec] in X; destruct (sv_run s); try discriminate; injection X as <-;
    cbn [exec sv_run] in E; injection E as <-; unfold same_work; auto.
Qed.
Example C42_example : exists s,
  reachable (ORun :: up_to_handler 0 client_a ++ [OShutdown; ORun] ++
             [ORecv sample_request client_a (Some server_addr); OFetch 1 (FOk sample_secret);
              OValidate 1; OLock 1; OCheck 1; OShutdown; OReturn 0 HOk; OLock 0; ORemove 0]) s
  /\ story s 1 = [ESpawned 1 sample_request server_addr client_a;
                  EFetched 1 client_a (FOk sample_secret); EEnded 1 DuplicateRequest]
  /\ In (EEnded 0 Completed) (sv_log s).
Proof. eexists. split; [vm_compute; reflexivity|]. split; [reflexivity|]. left. reflexivity. Qed.

(** ** C54 *)
(** REFUTED: a request taken from the socket after the handler of the previous request of that
    client with that identifier had returned (so that the client may have its answer) can be
    dropped as a duplicate. *)
Theorem C54_new_request_after_reply_refuted : exists ops s newer middle older d,
  reachable ops s
  /\ sv_log s = newer ++ EEnded 1 DuplicateRequest :: middle ++ EReturned 0 HOk :: older
  /\ In (ESpawned 1 d server_addr client_a) middle
  /\ In (EInvoked 0 (sample_call client_a)) older
  /\ (exists secret p, valid_request false d secret p)
  /\ (forall tid r, ~ in_handler s tid r).
Proof.
  exists (ORun :: up_to_handler 0 client_a ++
          [OReturn 0 HOk; ORecv sample_request client_a (Some server_addr);
           OFetch 1 (FOk sample_secret); OValidate 1; OLock 1; OCheck 1]).
  eexists. exists [], [EFetched 1 client_a (FOk sample_secret); ESpawned 1 sample_request server_addr client_a].
  eexists. exists sample_request.
  split; [vm_compute; reflexivity|]. split; [reflexivity|]. split; [cbn [In]; tauto|].
  split; [left; reflexivity|]. split.
  - exists sample_secret, sample_packet. split; [discriminate|]. split; [vm_compute; reflexivity|].
    intros _. destruct (authentic_request_cases sample_request sample_secret) as [(_ & A)|(A & _)]; [exact A|].
    vm_compute in A. discriminate.
  - intros tid r (X & Y & _). in_list X. injection X as <- <-. apply (Y HOk). cbn [sv_log In]. tauto.
Qed.
(** What is true: [C38_sequential_client] - if it is taken after the bookkeeping of the previous
    one was finished. *)

(** ** C55 *)
(** No head-of-line blocking: whatever other handlers are running and however long, a datagram is
    brought to its handler (or dropped for one of the known reasons) without any of them having
    to return and without any other call of the provider. *)
Definition dealt_with (s : server) (tid : nat) : Prop :=
  (exists r, In (EInvoked tid r) (sv_log s)) \/ (exists e, In (EEnded tid e) (sv_log s)).
Theorem C55_no_head_of_line_blocking : forall ops s tid answer, reachable ops s ->
  unfinished s tid ->
  exists more s',
    (forall o, In o more -> internal_op o = true \/ o = OFetch tid answer)
    /\ exec_all s more = Some s' /\ dealt_with s' tid.
Proof.
  intros ops s tid answer. remember (total_weight (sv_tasks s)) as w eqn:W. revert ops s W.
  induction w as [w IH] using lt_wf_ind. intros ops s W R U.
  assert (Step : forall o s1, internal_op o = true \/ o = OFetch tid answer -> exec s o = Some s1 ->
    exists more s',
    (forall o, In o more -> internal_op o = true \/ o = OFetch tid answer)
    /\ exec_all s more = Some s' /\ dealt_with s' tid).
  { intros o s1 Io X.
    assert (R1 : reachable (ops ++ [o]) s1).
    { unfold reachable in *. rewrite exec_all_app, R. cbn [exec_all]. rewrite X. reflexivity. }
    assert (L : (total_weight (sv_tasks s1) < w)%nat).
    { rewrite W. destruct Io as [Io| ->]; [destruct o; try discriminate|]; cbn [exec] in X;
        apply exec_task_weight in X; exact X. }
    destruct (exec_log _ _ _ X) as [evs LG].
    destruct U as [(d & l & r & Sp) U].
    assert (Sp1 : In (ESpawned tid d l r) (sv_log s1)) by (rewrite LG; apply in_app_iff; right; exact Sp).
    destruct (event_task _ _ (reachable_inv _ _ R1) Sp1) as (t & dd & Ht & Hd & _). cbn [event_tid] in Ht, Hd.
    assert (Dec : (forall e, t_state t <> TEnded e) \/ exists e, t_state t = TEnded e)
      by (destruct (t_state t); try (left; intros e Z; discriminate Z); right; eauto).
    destruct Dec as [Go|[e Done]].
    - assert (U1 : unfinished s1 tid) by (apply (task_unfinished _ _ _ R1); eauto).
      destruct (IH _ L _ s1 eq_refl R1 U1) as (more & s' & A & B & C).
      exists (o :: more), s'. split; [|split; [|exact C]].
      + intros o' [<-|I']; [exact Io|apply A, I'].
      + cbn [exec_all]. rewrite X. exact B.
    - exists [o], s1. split; [|split].
      + intros o' [<-|[]]. exact Io.
      + cbn [exec_all]. rewrite X. reflexivity.
      + right. exists e. unfold history in Hd. rewrite Done in Hd. cbv zeta beta iota in Hd.
        apply (in_events_of tid); [reflexivity|].
        destruct e; repeat match goal with
          | H : exists _, _ |- _ => destruct H as [? H]
          | H : _ \/ exists _, _ |- _ => destruct H as [H|H]
          | H : _ /\ _ |- _ => destruct H as [? H]
          end; rewrite Hd; left; reflexivity. }
  destruct (C39_no_deadlock _ _ _ R U) as [(o & s1 & A & B)|[(_ & A)|((r & A & _) & _)]].
  - exact (Step o s1 (or_introl A) B).
  - destruct (A answer) as [s1 B]. exact (Step _ s1 (or_intror eq_refl) B).
  - exists [], s. split; [intros o []|]. split; [reflexivity|]. left. eauto.
Qed.
(** The handler of the first client never returns; the second client is served. *)
Example C55_example : exists s,
  reachable (ORun :: up_to_handler 0 client_a ++ [ORecv sample_request client_b (Some server_addr)]) s
  /\ unfinished s 1 /\ in_handler s 0 (sample_call client_a).
Proof.
  eexists. split; [vm_compute; reflexivity|]. split; [split|split; [|split]].
  - do 3 eexists. left. reflexivity.
  - intros r X. in_list X.
  - cbn [sv_log In]. tauto.
  - intros o X. in_list X.
  - intros X. in_list X.
Qed.

(** * Assumptions *)
Print Assumptions C35_one_handler_per_key.
Print Assumptions C35_one_handler_per_client_and_id.
Print Assumptions C36_handler_input.
Print Assumptions C36_settings.
Print Assumptions C37_story.
Print Assumptions C37_at_most_once.
Print Assumptions C37_total.
Print Assumptions C38_no_leak.
Print Assumptions C38_handlers_registered.
Print Assumptions C38_quiescent.
Print Assumptions C39_no_deadlock.
Print Assumptions C39_terminates.
Print Assumptions C39_stuck_is_done.
Print Assumptions C39_can_finish.
Print Assumptions C39_duplicate_only_if_busy.
Print Assumptions C39_handled_or_busy.
Print Assumptions C38_sequential_client.
Print Assumptions C40_panic_isolated_refuted.
Print Assumptions C40_blocked_forever.
Print Assumptions C40_other_keys_partial.
Print Assumptions C41_no_truncated_packet.
Print Assumptions C42_no_intake_after_shutdown.
Print Assumptions C42_tasks_survive_shutdown.
Print Assumptions C42_restart_keeps_requests.
Print Assumptions C54_new_request_after_reply_refuted.
Print Assumptions C55_no_head_of_line_blocking.
