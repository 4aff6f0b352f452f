(** * C67: the size of the receive buffer; C68: clients do not affect each other *)
From Coq Require Import String List NArith ZArith Bool Arith Strings.Byte Lia ZifyBool ZifyNat ZifyN.
From Verif Require Import Prelude PreludeFacts Code Avp Packet Addr Spec Samples CodecFacts PropPacket
  Server ServerSpec ServerFacts PropServer.
Import ListNotations.
Local Open Scope N_scope.
Local Open Scope list_scope.

(** ** C67 *)

(** With the default settings the handler is never called for a packet of more than 1500 octets. *)
Theorem C67_default_buffer : forall ops s tid r d local remote skip n,
  (forall m, ~ In (OSetBufferSize m) ops) ->
  reachable ops s -> taken ops tid d local remote skip n -> 1500 < declared_length d ->
  ~ In (EInvoked tid r) (sv_log s).
Proof.
  intros ops s tid r d l rm k n N R T L I.
  destruct (C41_no_truncated_packet _ _ _ _ _ _ _ _ _ R I T) as (D & _).
  assert (n = 1500); [|lia]. destruct T as (before & after & -> & _ & _ & ->).
  assert (G : forall ops m0, (forall m, ~ In (OSetBufferSize m) ops) ->
    fold_left (fun n o => match o with OSetBufferSize n' => n' | _ => n end) ops m0 = m0).
  { clear. induction ops as [|o ops IH]; intros m0 N; [reflexivity|]. cbn [fold_left].
    rewrite IH; [|intros m X; exact (N m (or_intror X))].
    destruct o; auto. contradiction (N n). left. reflexivity. }
  apply G. intros m X. apply (N m). apply in_or_app. auto.
Qed.
(** an authentic packet of 1520 octets *)
Definition big_request : bytes :=
  [x01; x07; n2b 5; n2b 240] ++ sample_authenticator
  ++ concat (repeat (n2b 33 :: n2b 250 :: repeat x00 248) 6).
(** It is a valid request, nothing else happens in the server, and it is dropped. *)
Theorem C67_maximum_packet_refuted : exists ops s p,
  reachable ops s /\ taken ops 0 big_request server_addr client_a false 1500
  /\ valid_request false big_request sample_secret p /\ len big_request <= 4096
  /\ story s 0 = [ESpawned 0 big_request server_addr client_a; EFetched 0 client_a (FOk sample_secret);
                  EEnded 0 NotDecodable].
Proof.
  exists [ORun; ORecv big_request client_a (Some server_addr); OFetch 0 (FOk sample_secret); OValidate 0].
  destruct (exec_all server_listen [ORun; ORecv big_request client_a (Some server_addr); OFetch 0 (FOk sample_secret); OValidate 0])
    as [s|] eqn:E; [|vm_compute in E; discriminate].
  destruct (packet_decode big_request sample_secret) as [p| | |] eqn:D; try (vm_compute in D; discriminate).
  exists s, p. split; [exact E|]. split.
  - exists [ORun]. eexists. split; [reflexivity|]. repeat split; reflexivity.
  - split; [|split; [vm_compute; discriminate|]].
    + split; [vm_compute; discriminate|]. split; [exact D|]. intros _.
      split; [vm_compute; discriminate|]. split; [vm_compute; discriminate|].
      eexists _, _. split; [reflexivity|]. left. reflexivity.
    + assert (X : option_map (fun s => story s 0) (Some s) = option_map (fun s => story s 0)
        (exec_all server_listen [ORun; ORecv big_request client_a (Some server_addr); OFetch 0 (FOk sample_secret); OValidate 0]))
        by (rewrite E; reflexivity).
      cbn [option_map] in X. assert (Y : Some (story s 0) = Some [ESpawned 0 big_request server_addr client_a;
        EFetched 0 client_a (FOk sample_secret); EEnded 0 NotDecodable]) by (rewrite X; vm_compute; reflexivity).
      injection Y as Y. exact Y.
Qed.
(** A valid request that fits into the buffer is handled, or one with its key was being handled;
    with [set_buffer_size(4096)] that is every valid request of at most 4096 octets. *)
Theorem C67_fitting_packet_partial : forall ops s tid d local remote skip n secret p,
  reachable ops s -> taken ops tid d local remote skip n -> ~ unfinished s tid ->
  In (EFetched tid remote (FOk secret)) (sv_log s) ->
  valid_request skip d secret p -> len d <= n ->
  In (EInvoked tid (Request local remote p)) (sv_log s)
  \/ exists newer older tid', sv_log s = newer ++ EEnded tid DuplicateRequest :: older
     /\ tid' <> tid /\ busy older (socket_addr_to_string remote) (p_identifier p) tid'.
Proof.
  intros ops s tid d l r k n secret p R T U F V L.
  apply (C39_handled_or_busy _ _ _ d _ _ k n secret p R T U F).
  assert (E : truncated n d = d) by (apply firstn_all2; unfold len in L; lia). rewrite E. exact V.
Qed.

(** ** C68 *)

(** the datagrams the server took from the socket *)
Definition received (ops : list op) : list (bytes * socket_addr * option socket_addr) :=
  flat_map (fun o => match o with ORecv d remote local => [(d, remote, local)] | _ => [] end) ops.
(** the same event of another number *)
Definition renumber (tid : nat) (e : event) : event :=
  match e with
  | ESpawned _ d l r => ESpawned tid d l r
  | EFetched _ a o => EFetched tid a o
  | EInvoked _ r => EInvoked tid r
  | EReturned _ o => EReturned tid o
  | EAborted _ => EAborted tid
  | EEnded _ r => EEnded tid r
  end.

Section Isolation.
Context (keep : string -> bool).
Let kt (t : task) := keep (socket_addr_to_string (t_remote t)).
Let kk (k : request_key) := keep (rk_ip k).
Let ren (l : list task) (tid : nat) : nat := length (filter kt (firstn tid l)).

Lemma ren_nth l : forall tid t, nth_error l tid = Some t -> kt t = true ->
  nth_error (filter kt l) (ren l tid) = Some t.
Proof.
  unfold ren. induction l as [|x l IH]; intros [|tid] t H K; cbn [nth_error] in H; try discriminate.
  - injection H as ->. cbn [firstn filter length]. rewrite K. reflexivity.
  - cbn [firstn filter]. destruct (kt x); cbn [length nth_error]; apply IH; assumption.
Qed.
Lemma ren_inj l : forall i j ti tj, nth_error l i = Some ti -> nth_error l j = Some tj ->
  kt ti = true -> kt tj = true -> ren l i = ren l j -> i = j.
Proof.
  unfold ren. induction l as [|x l IH]; intros [|i] [|j] ti tj Hi Hj Ki Kj E; cbn [nth_error] in *; try discriminate; auto.
  - injection Hi as ->. cbn [firstn filter length] in E. rewrite Ki in E. discriminate.
  - injection Hj as ->. cbn [firstn filter length] in E. rewrite Kj in E. discriminate.
  - f_equal. apply (IH _ _ _ _ Hi Hj Ki Kj). cbn [firstn filter] in E. destruct (kt x); cbn [length] in E; congruence.
Qed.
Lemma kt_with_state t st : kt (with_state t st) = kt t.
Proof. reflexivity. Qed.
Lemma firstn_filter_set_nth l : forall n tid t st, nth_error l tid = Some t ->
  length (filter kt (firstn n (set_nth l tid (with_state t st)))) = length (filter kt (firstn n l)).
Proof.
  induction l as [|x l IH]; intros [|n] [|tid] t st H; cbn [nth_error set_nth firstn filter] in *; try discriminate; auto.
  - injection H as ->. rewrite kt_with_state. destruct (kt t); reflexivity.
  - destruct (kt x); cbn [length]; erewrite IH; eauto.
Qed.
Lemma ren_set_nth l tid t st j : nth_error l tid = Some t ->
  ren (set_nth l tid (with_state t st)) j = ren l j.
Proof. intros H. apply firstn_filter_set_nth. exact H. Qed.
Lemma filter_set_nth_kept l : forall tid t st, nth_error l tid = Some t -> kt t = true ->
  filter kt (set_nth l tid (with_state t st)) = set_nth (filter kt l) (ren l tid) (with_state t st).
Proof.
  unfold ren. induction l as [|x l IH]; intros [|tid] t st H K; cbn [nth_error set_nth filter firstn] in *; try discriminate.
  - injection H as ->. rewrite kt_with_state, K. reflexivity.
  - destruct (kt x); cbn [length set_nth]; [f_equal|]; apply IH; assumption.
Qed.
Lemma filter_set_nth_dropped l : forall tid t st, nth_error l tid = Some t -> kt t = false ->
  filter kt (set_nth l tid (with_state t st)) = filter kt l.
Proof.
  induction l as [|x l IH]; intros [|tid] t st H K; cbn [nth_error set_nth filter] in *; try discriminate.
  - injection H as ->. rewrite kt_with_state, K. reflexivity.
  - rewrite (IH _ _ _ H K). reflexivity.
Qed.
Lemma kk_key t p : kk (key_of (t_remote t) p) = kt t.
Proof. reflexivity. Qed.

(** the in-flight set *)
Lemma contains_filter keys k : kk k = true -> set_contains (filter kk keys) k = set_contains keys k.
Proof.
  intros K. unfold set_contains. induction keys as [|x keys IH]; [reflexivity|]. cbn [filter existsb].
  destruct (kk x) eqn:X; cbn [existsb]; [rewrite IH; reflexivity|].
  destruct (request_key_eqb k x) eqn:E; [|exact IH]. apply request_key_eqb_eq in E. congruence.
Qed.
Lemma insert_filter_kept keys k : kk k = true -> filter kk (set_insert keys k) = set_insert (filter kk keys) k.
Proof.
  intros K. unfold set_insert. rewrite contains_filter by exact K. destruct (set_contains keys k); [reflexivity|].
  cbn [filter]. rewrite K. reflexivity.
Qed.
Lemma insert_filter_dropped keys k : kk k = false -> filter kk (set_insert keys k) = filter kk keys.
Proof.
  intros K. unfold set_insert. destruct (set_contains keys k); [reflexivity|]. cbn [filter]. rewrite K. reflexivity.
Qed.
Lemma remove_filter_kept keys k : filter kk (set_remove keys k) = set_remove (filter kk keys) k.
Proof.
  unfold set_remove. induction keys as [|x keys IH]; [reflexivity|]. cbn [filter].
  destruct (negb (request_key_eqb k x)) eqn:E; destruct (kk x) eqn:X; cbn [filter]; rewrite ?E, ?X, IH; reflexivity.
Qed.
Lemma remove_filter_dropped keys k : kk k = false -> filter kk (set_remove keys k) = filter kk keys.
Proof.
  intros K. unfold set_remove. induction keys as [|x keys IH]; [reflexivity|]. cbn [filter].
  destruct (request_key_eqb k x) eqn:E; cbn [negb].
  - apply request_key_eqb_eq in E. subst x. rewrite K. exact IH.
  - cbn [filter]. destruct (kk x); rewrite IH; reflexivity.
Qed.

Definition kept_lock (tasks : list task) (lock : option nat) : option nat :=
  match lock with
  | None => None
  | Some h => match nth_error tasks h with Some t => if kt t then Some (ren tasks h) else None | None => None end
  end.

(** [s'] is [s] without the clients that are not kept *)
Record restricts (s s' : server) : Prop := {
  rs_skip : sv_skip s' = sv_skip s;
  rs_size : sv_buf_size s' = sv_buf_size s;
  rs_run : sv_run s = None /\ sv_run s' = None
           \/ exists b b', sv_run s = Some b /\ sv_run s' = Some b' /\ len b' = len b;
  rs_tasks : sv_tasks s' = filter kt (sv_tasks s);
  rs_keys : sv_undergoing s' = filter kk (sv_undergoing s);
  rs_lock : sv_lock s' = kept_lock (sv_tasks s) (sv_lock s);
  rs_log : forall tid t, nth_error (sv_tasks s) tid = Some t -> kt t = true ->
    events_of (ren (sv_tasks s) tid) (sv_log s')
    = map (renumber (ren (sv_tasks s) tid)) (events_of tid (sv_log s))
}.

Lemma kept_lock_set_nth l tid t st lock : nth_error l tid = Some t ->
  kept_lock (set_nth l tid (with_state t st)) lock = kept_lock l lock.
Proof.
  intros H. destruct lock as [h|]; [|reflexivity]. unfold kept_lock. destruct (Nat.eq_dec tid h) as [->|N].
  - rewrite (nth_error_set_nth_same _ _ _ _ H), H, kt_with_state, ren_set_nth by exact H. reflexivity.
  - rewrite (nth_error_set_nth_other _ _ _ _ N), ren_set_nth by exact H. reflexivity.
Qed.
Lemma events_renumber n evs : Forall (fun e => event_tid e = n) (map (renumber n) evs).
Proof. apply Forall_forall. intros e H. apply in_map_iff in H as (x & <- & _). destruct x; reflexivity. Qed.

(** a kept task moves in both *)
Lemma restricts_move s s' tid t st keys keys' lock lock' evs :
  restricts s s' -> nth_error (sv_tasks s) tid = Some t -> kt t = true ->
  keys' = filter kk keys -> lock' = kept_lock (sv_tasks s) lock -> Forall (fun e => event_tid e = tid) evs ->
  restricts (move s tid t st keys lock evs)
    (move s' (ren (sv_tasks s) tid) t st keys' lock' (map (renumber (ren (sv_tasks s) tid)) evs)).
Proof.
  intros I H K -> -> F. split; cbn [move sv_skip sv_buf_size sv_run sv_tasks sv_undergoing sv_lock sv_log].
  - apply (rs_skip _ _ I).
  - apply (rs_size _ _ I).
  - apply (rs_run _ _ I).
  - rewrite (rs_tasks _ _ I). symmetry. apply filter_set_nth_kept; assumption.
  - reflexivity.
  - symmetry. apply kept_lock_set_nth. exact H.
  - intros j u Hj Kj. rewrite ren_set_nth by exact H. rewrite !events_of_app, map_app.
    assert (J : exists u', nth_error (sv_tasks s) j = Some u' /\ kt u' = true).
    { destruct (Nat.eq_dec tid j) as [->|N]; [eauto|]. rewrite (nth_error_set_nth_other _ _ _ _ N) in Hj. eauto. }
    destruct J as (u' & Hj' & Kj'). f_equal; [|apply (rs_log _ _ I _ _ Hj' Kj')].
    destruct (Nat.eq_dec tid j) as [->|N].
    + rewrite (events_of_all _ _ F), (events_of_all _ _ (events_renumber _ evs)). reflexivity.
    + rewrite (events_of_none _ _ _ F N). cbn [map]. apply (events_of_none (ren (sv_tasks s) tid)).
      * apply events_renumber.
      * intros E. apply N. exact (ren_inj _ _ _ _ _ H Hj' K Kj' E).
Qed.
(** another task moves in [s] only *)
Lemma restricts_drop s s' tid t st keys lock evs :
  restricts s s' -> nth_error (sv_tasks s) tid = Some t -> kt t = false ->
  filter kk keys = filter kk (sv_undergoing s) ->
  kept_lock (sv_tasks s) lock = kept_lock (sv_tasks s) (sv_lock s) -> Forall (fun e => event_tid e = tid) evs ->
  restricts (move s tid t st keys lock evs) s'.
Proof.
  intros I H K EK EL F. split; cbn [move sv_skip sv_buf_size sv_run sv_tasks sv_undergoing sv_lock sv_log].
  - apply (rs_skip _ _ I).
  - apply (rs_size _ _ I).
  - apply (rs_run _ _ I).
  - rewrite (rs_tasks _ _ I). symmetry. apply (filter_set_nth_dropped _ tid t); assumption.
  - rewrite EK. apply (rs_keys _ _ I).
  - rewrite kept_lock_set_nth by exact H. rewrite EL. apply (rs_lock _ _ I).
  - intros j u Hj Kj. rewrite ren_set_nth by exact H. rewrite events_of_app.
    destruct (Nat.eq_dec tid j) as [->|N].
    + rewrite (nth_error_set_nth_same _ _ _ _ H) in Hj. injection Hj as <-. rewrite kt_with_state in Kj. congruence.
    + rewrite (nth_error_set_nth_other _ _ _ _ N) in Hj. rewrite (events_of_none _ _ _ F N). cbn [app].
      apply (rs_log _ _ I _ _ Hj Kj).
Qed.

(** the step of another number *)
Definition op_with (o : op) (n : nat) : op :=
  match o with
  | OFetch _ f => OFetch n f | OValidate _ => OValidate n | OLock _ => OLock n | OCheck _ => OCheck n
  | OInvoke _ => OInvoke n | OReturn _ h => OReturn n h | ORemove _ => ORemove n | OAbort _ => OAbort n
  | o => o
  end.
Ltac solve_events := repeat constructor.

Lemma step_kept s s' o tid t s1 : inv s -> restricts s s' -> nth_error (sv_tasks s) tid = Some t -> kt t = true ->
  exec_task s o tid = Some s1 ->
  exists s1', exec_task s' (op_with o (ren (sv_tasks s) tid)) (ren (sv_tasks s) tid) = Some s1' /\ restricts s1 s1'.
Proof.
  intros V I H K. pose proof (ren_nth _ _ _ H K) as H'. rewrite <- (rs_tasks _ _ I) in H'.
  unfold exec_task. rewrite H, H'.
  assert (L0 : sv_lock s = None -> sv_lock s' = None) by (intros E; rewrite (rs_lock _ _ I), E; reflexivity).
  assert (LS : kept_lock (sv_tasks s) (Some tid) = Some (ren (sv_tasks s) tid)) by (cbn [kept_lock]; rewrite H, K; reflexivity).
  pose proof (rs_keys _ _ I) as EK. pose proof (rs_lock _ _ I) as EL.
  unfold move_end.
  destruct o; cbn [op_with]; try discriminate; destruct (t_state t) as [|secret|p|p|p|p|p|p|rs] eqn:S; try discriminate.
  - intros E. injection E as <-. destruct o as [secret| |].
    + destruct (len secret =? 0); eexists; (split; [reflexivity|]).
      * apply (restricts_move s s' tid t _ _ _ _ _ [EEnded tid SecretEmpty; EFetched tid (t_remote t) (FOk secret)]); auto; solve_events.
      * apply (restricts_move s s' tid t _ _ _ _ _ [EFetched tid (t_remote t) (FOk secret)]); auto; solve_events.
    + eexists. split; [reflexivity|]. apply (restricts_move s s' tid t _ _ _ _ _ [EEnded tid SecretUnavailable; EFetched tid (t_remote t) FErr]); auto; solve_events.
    + eexists. split; [reflexivity|]. apply (restricts_move s s' tid t _ _ _ _ _ [EEnded tid Panicked; EFetched tid (t_remote t) FPanic]); auto; solve_events.
  - intros E. injection E as <-. destruct (t_skip t).
    + destruct (packet_decode (t_data t) secret); eexists; (split; [reflexivity|]).
      * apply (restricts_move s s' tid t _ _ _ _ _ []); auto.
      * apply (restricts_move s s' tid t _ _ _ _ _ [EEnded tid NotDecodable]); auto; solve_events.
      * apply (restricts_move s s' tid t _ _ _ _ _ [EEnded tid Panicked]); auto; solve_events.
      * apply (restricts_move s s' tid t _ _ _ _ _ [EEnded tid Panicked]); auto; solve_events.
    + destruct (packet_is_authentic_request (t_data t) secret) as [[]| | |].
      * destruct (packet_decode (t_data t) secret); eexists; (split; [reflexivity|]).
        -- apply (restricts_move s s' tid t _ _ _ _ _ []); auto.
        -- apply (restricts_move s s' tid t _ _ _ _ _ [EEnded tid NotDecodable]); auto; solve_events.
        -- apply (restricts_move s s' tid t _ _ _ _ _ [EEnded tid Panicked]); auto; solve_events.
        -- apply (restricts_move s s' tid t _ _ _ _ _ [EEnded tid Panicked]); auto; solve_events.
      * eexists. split; [reflexivity|]. apply (restricts_move s s' tid t _ _ _ _ _ [EEnded tid NotAuthentic]); auto; solve_events.
      * eexists. split; [reflexivity|]. apply (restricts_move s s' tid t _ _ _ _ _ [EEnded tid Panicked]); auto; solve_events.
      * eexists. split; [reflexivity|]. apply (restricts_move s s' tid t _ _ _ _ _ [EEnded tid Panicked]); auto; solve_events.
      * eexists. split; [reflexivity|]. apply (restricts_move s s' tid t _ _ _ _ _ [EEnded tid Panicked]); auto; solve_events.
  - destruct (sv_lock s) eqn:L; [discriminate|]. rewrite (L0 eq_refl). intros E. injection E as <-.
    eexists. split; [reflexivity|]. apply (restricts_move s s' tid t _ _ _ _ _ []); auto.
  - destruct (sv_lock s) eqn:L; [discriminate|]. rewrite (L0 eq_refl). intros E. injection E as <-.
    eexists. split; [reflexivity|]. apply (restricts_move s s' tid t _ _ _ _ _ []); auto.
  - intros E. injection E as <-. rewrite EK, contains_filter by exact K.
    destruct (set_contains (sv_undergoing s) (key_of (t_remote t) p)); eexists; (split; [reflexivity|]).
    + apply (restricts_move s s' tid t _ _ _ _ _ [EEnded tid DuplicateRequest]); auto; solve_events.
    + apply (restricts_move s s' tid t _ _ _ _ _ []); auto. symmetry. apply insert_filter_kept. exact K.
  - intros E. injection E as <-. eexists. split; [reflexivity|].
    apply (restricts_move s s' tid t _ _ _ _ _ [EInvoked tid (Request (t_local t) (t_remote t) p)]); auto; solve_events.
  - intros E. injection E as <-. destruct o; eexists; (split; [reflexivity|]).
    + apply (restricts_move s s' tid t _ _ _ _ _ [EReturned tid HOk]); auto; solve_events.
    + apply (restricts_move s s' tid t _ _ _ _ _ [EReturned tid HErr]); auto; solve_events.
    + apply (restricts_move s s' tid t _ _ _ _ _ [EEnded tid Panicked; EReturned tid HPanic]); auto; solve_events.
  - intros E. injection E as <-. eexists. split; [reflexivity|].
    apply (restricts_move s s' tid t _ _ _ _ _ [EEnded tid Completed]); auto; try solve_events. rewrite EK. symmetry. apply remove_filter_kept.
  - intros E. injection E as <-. eexists. split; [reflexivity|].
    apply (restricts_move s s' tid t _ _ _ _ _ [EEnded tid Aborted; EAborted tid]); auto; solve_events.
  - intros E. injection E as <-. eexists. split; [reflexivity|].
    apply (restricts_move s s' tid t _ _ _ _ _ [EEnded tid Aborted; EAborted tid]); auto; solve_events.
Qed.
Lemma step_dropped s s' o tid t s1 : inv s -> restricts s s' -> nth_error (sv_tasks s) tid = Some t -> kt t = false ->
  exec_task s o tid = Some s1 -> restricts s1 s'.
Proof.
  intros V I H K. unfold exec_task. rewrite H. unfold move_end.
  assert (LN : kept_lock (sv_tasks s) (Some tid) = None) by (cbn [kept_lock]; rewrite H, K; reflexivity).
  assert (OWN : holds_lock (t_state t) = true -> kept_lock (sv_tasks s) (sv_lock s) = None).
  { intros Q. rewrite (inv_lock_own _ _ _ V H Q). exact LN. }
  destruct o; try discriminate; destruct (t_state t) as [|secret|p|p|p|p|p|p|rs] eqn:S; try discriminate;
    try (destruct (sv_lock s) eqn:L; [discriminate|]); intros E; injection E as <-;
    repeat match goal with |- context [match ?x with _ => _ end] => destruct x end;
    (apply (restricts_drop s s' tid t); [exact I|exact H|exact K| | |solve_events]);
    rewrite ?(insert_filter_dropped _ _ K), ?(remove_filter_dropped _ _ K); try reflexivity;
    try (rewrite L; rewrite ?LN; reflexivity);
    try (rewrite (OWN eq_refl); reflexivity);
    first [apply insert_filter_dropped; exact K|apply remove_filter_dropped; exact K].
Qed.

(** a datagram is taken *)
Lemma ren_app l x j : (j <= length l)%nat -> ren (l ++ [x]) j = ren l j.
Proof.
  intros L. unfold ren. rewrite firstn_app. replace (j - length l)%nat with 0%nat by lia.
  cbn [firstn]. rewrite app_nil_r. reflexivity.
Qed.
Lemma recv_into_same buf buf' d : len buf' = len buf ->
  firstn (N.to_nat (snd (recv_into buf' d))) (fst (recv_into buf' d))
  = firstn (N.to_nat (snd (recv_into buf d))) (fst (recv_into buf d)).
Proof.
  intros L. pose proof (recv_into_data buf d) as A. pose proof (recv_into_data buf' d) as B.
  destruct (recv_into buf d), (recv_into buf' d). cbn [fst snd]. rewrite A, B, L. reflexivity.
Qed.
Lemma restricts_recv s s' d remote local s1 : inv s -> inv s' -> restricts s s' ->
  exec s (ORecv d remote local) = Some s1 ->
  if keep (socket_addr_to_string remote)
  then exists s1', exec s' (ORecv d remote local) = Some s1' /\ restricts s1 s1'
                   /\ (local <> None -> length (sv_tasks s') = ren (sv_tasks s1) (length (sv_tasks s)))
  else restricts s1 s'.
Proof.
  intros V V' I X. cbn [exec] in *. destruct (rs_run _ _ I) as [[E E']|(b & b' & E & E' & L)]; rewrite E in X; [discriminate|].
  rewrite E'. injection X as <-. unfold exec_recv.
  pose proof (recv_into_len b d) as LB. pose proof (recv_into_len b' d) as LB'.
  pose proof (recv_into_same b b' d L) as SD.
  destruct (recv_into b d) as [nb sz]. destruct (recv_into b' d) as [nb' sz']. cbn [fst snd] in *.
  assert (HL : forall x, kept_lock (sv_tasks s ++ [x]) (sv_lock s) = kept_lock (sv_tasks s) (sv_lock s)).
  { intros x. destruct (sv_lock s) as [h|] eqn:Q; [|reflexivity]. cbn [kept_lock].
    apply (inv_lock _ V) in Q as (u & Hu & _).
    assert (LT : (h < length (sv_tasks s))%nat) by (apply nth_error_Some; congruence).
    rewrite nth_error_app1 by exact LT. rewrite Hu, ren_app by lia. reflexivity. }
  assert (NONE : forall n, events_of n (sv_log s) = [] \/ (n < length (sv_tasks s))%nat).
  { intros n. destruct (nth_error (sv_tasks s) n) eqn:Q; [right; apply nth_error_Some; congruence|left; apply (inv_nolog _ V _ Q)]. }
  assert (NONE' : forall n, (length (sv_tasks s') <= n)%nat -> events_of n (sv_log s') = []).
  { intros n Q. apply (inv_nolog _ V'). apply nth_error_None. exact Q. }
  destruct local as [local|].
  - set (t := Task (firstn (N.to_nat sz) nb) local remote (sv_skip s) TReceived).
    assert (KT : kt t = keep (socket_addr_to_string remote)) by reflexivity.
    destruct (keep (socket_addr_to_string remote)) eqn:K.
    + assert (LEN : length (sv_tasks s') = ren (sv_tasks s ++ [t]) (length (sv_tasks s))).
      { rewrite ren_app by lia. unfold ren. rewrite firstn_all, (rs_tasks _ _ I). reflexivity. }
      eexists. split; [reflexivity|]. split; [|intros _; exact LEN].
      split; cbn [sv_skip sv_buf_size sv_run sv_tasks sv_undergoing sv_lock sv_log].
      * apply (rs_skip _ _ I).
      * apply (rs_size _ _ I).
      * right. do 2 eexists. split; [reflexivity|]. split; [reflexivity|]. congruence.
      * rewrite filter_app. cbn [filter]. rewrite KT, (rs_tasks _ _ I), (rs_skip _ _ I), SD. reflexivity.
      * apply (rs_keys _ _ I).
      * rewrite HL. apply (rs_lock _ _ I).
      * intros j u Hj Kj. rewrite nth_error_snoc in Hj. destruct (Nat.eqb j (length (sv_tasks s))) eqn:Q.
        -- apply Nat.eqb_eq in Q. subst j. rewrite <- LEN. unfold events_of at 1 2. cbn [filter event_tid].
           rewrite !Nat.eqb_refl. fold (events_of (length (sv_tasks s')) (sv_log s')). fold (events_of (length (sv_tasks s)) (sv_log s)).
           rewrite (NONE' (length (sv_tasks s')) ltac:(lia)).
           destruct (NONE (length (sv_tasks s))) as [Z|Z]; [rewrite Z; reflexivity|lia].
        -- assert (LT : (j < length (sv_tasks s))%nat) by (apply nth_error_Some; congruence).
           pose proof (ren_nth _ _ _ Hj Kj) as RN. rewrite <- (rs_tasks _ _ I) in RN.
           assert (RL : (ren (sv_tasks s) j < length (sv_tasks s'))%nat) by (apply nth_error_Some; congruence).
           rewrite ren_app by lia. unfold events_of at 1 2. cbn [filter event_tid].
           destruct (Nat.eqb (length (sv_tasks s')) (ren (sv_tasks s) j)) eqn:Q1; [apply Nat.eqb_eq in Q1; lia|].
           destruct (Nat.eqb (length (sv_tasks s)) j) eqn:Q2; [apply Nat.eqb_eq in Q2; lia|].
           apply (rs_log _ _ I _ _ Hj Kj).
    + split; cbn [sv_skip sv_buf_size sv_run sv_tasks sv_undergoing sv_lock sv_log].
      * apply (rs_skip _ _ I).
      * apply (rs_size _ _ I).
      * right. exists nb, b'. split; [reflexivity|]. split; [exact E'|]. congruence.
      * rewrite filter_app. cbn [filter]. rewrite KT, app_nil_r. apply (rs_tasks _ _ I).
      * apply (rs_keys _ _ I).
      * rewrite HL. apply (rs_lock _ _ I).
      * intros j u Hj Kj. rewrite nth_error_snoc in Hj. destruct (Nat.eqb j (length (sv_tasks s))) eqn:Q; [congruence|].
        assert (LT : (j < length (sv_tasks s))%nat) by (apply nth_error_Some; congruence).
        rewrite ren_app by lia. unfold events_of at 2. cbn [filter event_tid].
        destruct (Nat.eqb (length (sv_tasks s)) j) eqn:Q2; [apply Nat.eqb_eq in Q2; lia|].
        apply (rs_log _ _ I _ _ Hj Kj).
  - assert (R1 : forall bb, len bb = len b -> restricts
        (Server (sv_skip s) (sv_buf_size s) (Some nb) (sv_tasks s) (sv_undergoing s) (sv_lock s) (sv_log s))
        (Server (sv_skip s') (sv_buf_size s') (Some bb) (sv_tasks s') (sv_undergoing s') (sv_lock s') (sv_log s'))).
    { intros bb Q. split; cbn [sv_skip sv_buf_size sv_run sv_tasks sv_undergoing sv_lock sv_log]; try apply I.
      right. do 2 eexists. split; [reflexivity|]. split; [reflexivity|]. congruence. }
    destruct (keep (socket_addr_to_string remote)).
    + eexists. split; [reflexivity|]. split; [apply R1; congruence|]. intros C. contradiction.
    + pose proof (R1 b' L) as Q. destruct s' as [a1 a2 a3 a4 a5 a6 a7]. cbn [sv_skip sv_buf_size sv_run sv_tasks sv_undergoing sv_lock sv_log] in *. subst a3. exact Q.
Qed.
(** the owner changes settings, starts or stops the loop *)
Definition owner_op (o : op) : Prop :=
  match o with OSetBufferSize _ | OSetSkip _ | ORun | OShutdown | ORecvError => True | _ => False end.
Lemma restricts_owner s s' o s1 : restricts s s' -> owner_op o -> exec s o = Some s1 ->
  exists s1', exec s' o = Some s1' /\ restricts s1 s1'.
Proof.
  intros I O X. pose proof (rs_size _ _ I) as SZ.
  destruct (rs_run _ _ I) as [[E E']|(b & b' & E & E' & L)]; destruct o; try contradiction; cbn [exec] in *;
    rewrite E in X; rewrite E'; try discriminate; injection X as <-; eexists; (split; [reflexivity|]);
    (split; cbn [sv_skip sv_buf_size sv_run sv_tasks sv_undergoing sv_lock sv_log]; try apply I; auto).
  right. do 2 eexists. split; [reflexivity|]. split; [reflexivity|]. rewrite SZ. reflexivity.
Qed.
Lemma received_app a b : received (a ++ b) = received a ++ received b.
Proof. apply flat_map_app. Qed.

Lemma isolation : forall ops s, reachable ops s -> exists ops' s',
  reachable ops' s' /\ restricts s s'
  /\ received ops' = filter (fun x => keep (socket_addr_to_string (snd (fst x)))) (received ops)
  /\ (forall tid d local remote skip n, taken ops tid d local remote skip n ->
       keep (socket_addr_to_string remote) = true ->
       taken ops' (ren (sv_tasks s) tid) d local remote skip n).
Proof.
  apply (rev_ind_ops (fun ops s => exists ops' s',
    reachable ops' s' /\ restricts s s'
    /\ received ops' = filter (fun x => keep (socket_addr_to_string (snd (fst x)))) (received ops)
    /\ (forall tid d local remote skip n, taken ops tid d local remote skip n ->
       keep (socket_addr_to_string remote) = true ->
       taken ops' (ren (sv_tasks s) tid) d local remote skip n))).
  - exists [], server_listen. split; [reflexivity|]. split.
    + split; try reflexivity. left; split; reflexivity.
    + split; [reflexivity|]. intros tid d l r k n (b & a & E & _). destruct b; discriminate.
  - intros ops s o s1 R (ops' & s' & R' & I & RC & TK) X.
    pose proof (reachable_inv _ _ R) as V. pose proof (reachable_inv _ _ R') as V'.
    pose proof (reachable_settings _ _ R) as (S1 & S2 & S3). pose proof (reachable_settings _ _ R') as (S1' & S2' & S3').
    assert (SNOC : forall o' s1', exec s' o' = Some s1' -> reachable (ops' ++ [o']) s1').
    { intros o' s1' E. unfold reachable in *. rewrite exec_all_app, R'. cbn [exec_all]. rewrite E. reflexivity. }
    (* a datagram taken by the longer schedule was taken before, or is the last one *)
    assert (SPLIT : forall tid d l r k n, taken (ops ++ [o]) tid d l r k n ->
      taken ops tid d l r k n \/ (o = ORecv d r (Some l) /\ tid = accepted ops /\ k = skip_setting ops /\ n = buffer_setting ops)).
    { intros tid d l r k n (before & after & E & A & K & N). destruct (exists_last (l := ORecv d r (Some l) :: after)) as (pre & x & Q); [discriminate|].
      destruct after as [|y after].
      - apply app_inj_tail in E as [<- ->]. right. auto.
      - left. destruct pre as [|z pre]; [discriminate Q|]. injection Q as <- Q.
        exists before, pre. split; [|auto]. rewrite Q in E.
        change (before ++ ORecv d r (Some l) :: pre ++ [x]) with (before ++ (ORecv d r (Some l) :: pre) ++ [x]) in E.
        rewrite app_assoc in E. apply app_inj_tail in E as [E _]. exact E. }
    assert (LTOK : forall tid d l r k n, taken ops tid d l r k n -> (tid < length (sv_tasks s))%nat).
    { intros tid d l r k n (b & a & -> & <- & _). rewrite S3, accepted_app. unfold accepted at 3. cbn [filter length]. lia. }
    assert (TASK : forall tid, exec_task s o tid = Some s1 -> (forall d r l, o <> ORecv d r l) ->
      exec s' (op_with o (ren (sv_tasks s) tid)) = exec_task s' (op_with o (ren (sv_tasks s) tid)) (ren (sv_tasks s) tid) ->
      exists ops' s', reachable ops' s' /\ restricts s1 s'
      /\ received ops' = filter (fun x => keep (socket_addr_to_string (snd (fst x)))) (received (ops ++ [o]))
      /\ (forall tid d local remote skip n, taken (ops ++ [o]) tid d local remote skip n ->
         keep (socket_addr_to_string remote) = true ->
         taken ops' (ren (sv_tasks s1) tid) d local remote skip n)).
    { intros tid E NR EO. destruct (exec_task_frame _ _ _ _ E) as (_ & _ & _ & t & st & evs & Ht & TS & _).
      assert (NR0 : received [o] = []) by (destruct o; try reflexivity; contradiction (NR _ _ _ eq_refl)).
      assert (TK' : forall tid0 d local remote skip n, taken (ops ++ [o]) tid0 d local remote skip n ->
         keep (socket_addr_to_string remote) = true -> taken ops' (ren (sv_tasks s1) tid0) d local remote skip n).
      { intros tid0 d l r k n T K. destruct (SPLIT _ _ _ _ _ _ T) as [T'|(Q & _)]; [|contradiction (NR _ _ _ Q)].
        rewrite TS, (ren_set_nth _ _ t) by exact Ht. apply (TK _ _ _ _ _ _ T' K). }
      destruct (kt t) eqn:K.
      - destruct (step_kept _ _ _ _ _ _ V I Ht K E) as (s1' & E' & I'). exists (ops' ++ [op_with o (ren (sv_tasks s) tid)]), s1'.
        split; [apply SNOC; rewrite EO; exact E'|]. split; [exact I'|]. split.
        + rewrite !received_app, RC, NR0, app_nil_r. replace (received [op_with o (ren (sv_tasks s) tid)]) with (@nil (bytes * socket_addr * option socket_addr)).
          * apply app_nil_r.
          * destruct o; try reflexivity. contradiction (NR _ _ _ eq_refl).
        + intros. apply taken_snoc. apply TK'; assumption.
      - exists ops', s'. split; [exact R'|]. split; [exact (step_dropped _ _ _ _ _ _ V I Ht K E)|]. split; [|exact TK'].
        rewrite received_app, NR0, app_nil_r. exact RC. }
    assert (OWN : owner_op o -> (forall d r l, o <> ORecv d r l) -> sv_tasks s1 = sv_tasks s -> exists ops' s', reachable ops' s' /\ restricts s1 s'
      /\ received ops' = filter (fun x => keep (socket_addr_to_string (snd (fst x)))) (received (ops ++ [o]))
      /\ (forall tid d local remote skip n, taken (ops ++ [o]) tid d local remote skip n ->
         keep (socket_addr_to_string remote) = true ->
         taken ops' (ren (sv_tasks s1) tid) d local remote skip n)).
    { intros O NR TS. destruct (restricts_owner _ _ _ _ I O X) as (s1' & E' & I'). exists (ops' ++ [o]), s1'.
      split; [apply SNOC, E'|]. split; [exact I'|]. split.
      - rewrite !received_app, filter_app, RC. f_equal. destruct o; try reflexivity. contradiction O.
      - intros tid d l r k n T K. destruct (SPLIT _ _ _ _ _ _ T) as [T'|(Q & _)]; [|contradiction (NR _ _ _ Q)].
        rewrite TS. apply taken_snoc. apply (TK _ _ _ _ _ _ T' K). }
    destruct o; cbn [exec] in X.
    1-4: apply OWN; [exact Logic.I|discriminate|destruct (sv_run s); try discriminate; injection X as <-; reflexivity].
    2: apply OWN; [exact Logic.I|discriminate|destruct (sv_run s); try discriminate; injection X as <-; reflexivity].
    2-9: eapply TASK; [exact X|discriminate|reflexivity].
    pose proof (restricts_recv s s' datagram remote local s1 V V' I X) as RR.
    assert (TS : sv_tasks s1 = sv_tasks s \/ exists t, sv_tasks s1 = sv_tasks s ++ [t]).
    { destruct (sv_run s) as [b|]; [|discriminate]. injection X as <-. unfold exec_recv. destruct (recv_into b datagram).
      destruct local; [right; eexists|left]; reflexivity. }
    assert (OLD : forall j, (j < length (sv_tasks s))%nat -> ren (sv_tasks s1) j = ren (sv_tasks s) j).
    { intros j L. destruct TS as [->|[t ->]]; [reflexivity|]. apply ren_app. lia. }
    destruct (keep (socket_addr_to_string remote)) eqn:K.
    + destruct RR as (s1' & E' & I' & LEN). exists (ops' ++ [ORecv datagram remote local]), s1'.
      split; [apply SNOC, E'|]. split; [exact I'|]. split.
      * rewrite !received_app, filter_app, RC. f_equal. cbn [received flat_map app filter fst snd]. rewrite K. reflexivity.
      * intros tid d l r k n T K'. destruct (SPLIT _ _ _ _ _ _ T) as [T'|(Q & -> & -> & ->)].
        -- rewrite (OLD _ (LTOK _ _ _ _ _ _ T')). apply taken_snoc. apply (TK _ _ _ _ _ _ T' K').
        -- injection Q as -> -> ->. rewrite <- S3, <- LEN by discriminate.
           exists ops', []. split; [reflexivity|]. split; [symmetry; exact S3'|].
           rewrite <- S1, <- S2, <- S1', <- S2'. split; symmetry; apply I.
    + exists ops', s'. split; [exact R'|]. split; [exact RR|]. split.
      * rewrite received_app, filter_app, RC. cbn [received flat_map app filter fst snd]. rewrite K. symmetry. apply app_nil_r.
      * intros tid d l r k n T K'. destruct (SPLIT _ _ _ _ _ _ T) as [T'|(Q & -> & -> & ->)].
        -- rewrite (OLD _ (LTOK _ _ _ _ _ _ T')). apply (TK _ _ _ _ _ _ T' K').
        -- injection Q as -> -> ->. congruence.
Qed.
End Isolation.

(** Take any set of clients (given by the texts of their addresses) and any schedule. There is a
    schedule in which only the datagrams of these clients arrive, in the same order, and in which
    exactly the same happens to each of them: same answers of the secret provider, same handler
    call with the same request, same outcome. So what other clients send, and what their handlers do
    (even if they panic or never return), has no effect on these clients. *)
Theorem C68_isolated : forall (keep : string -> bool) ops s, reachable ops s ->
  exists ops' s' (f : nat -> nat),
  reachable ops' s'
  /\ received ops' = filter (fun x => keep (socket_addr_to_string (snd (fst x)))) (received ops)
  /\ forall tid d local remote skip n, taken ops tid d local remote skip n ->
     keep (socket_addr_to_string remote) = true ->
     taken ops' (f tid) d local remote skip n /\ story s' (f tid) = map (renumber (f tid)) (story s tid).
Proof.
  intros keep ops s R. destruct (isolation keep ops s R) as (ops' & s' & R' & I & RC & TK).
  exists ops', s'. eexists. split; [exact R'|]. split; [exact RC|].
  intros tid d l r k n T K. split; [apply (TK _ _ _ _ _ _ T K)|].
  destruct (reachable_settings _ _ R) as (_ & _ & L).
  assert (A : (tid < length (sv_tasks s))%nat).
  { destruct T as (b & a & -> & <- & _). rewrite L, accepted_app. unfold accepted at 3. cbn [filter length]. lia. }
  destruct (nth_error (sv_tasks s) tid) as [t|] eqn:Ht; [|apply nth_error_None in Ht; lia].
  destruct (reachable_history _ _ R _ _ Ht) as (d' & n' & T' & _).
  destruct (taken_det _ _ _ _ _ _ _ _ _ _ _ _ T T') as (_ & _ & Q & _).
  unfold story. rewrite (rs_log _ _ _ I _ _ Ht); [rewrite map_rev; reflexivity|]. rewrite <- Q. exact K.
Qed.
(** two clients; the handler of the first panics *)
Example C68_example : exists s,
  reachable (ORun :: up_to_handler 0 client_a ++ up_to_handler 1 client_b ++ [OReturn 0 HPanic; OReturn 1 HOk]) s
  /\ taken (ORun :: up_to_handler 0 client_a ++ up_to_handler 1 client_b ++ [OReturn 0 HPanic; OReturn 1 HOk])
       1 sample_request server_addr client_b false 1500
  /\ story s 1 = [ESpawned 1 sample_request server_addr client_b; EFetched 1 client_b (FOk sample_secret);
                  EInvoked 1 (sample_call client_b); EReturned 1 HOk].
Proof.
  eexists. split; [vm_compute; reflexivity|]. split; [|reflexivity].
  exists (ORun :: up_to_handler 0 client_a). eexists. split; [reflexivity|]. repeat split; reflexivity.
Qed.

(** * Assumptions *)
Print Assumptions C67_default_buffer.
Print Assumptions C67_maximum_packet_refuted.
Print Assumptions C67_fitting_packet_partial.
Print Assumptions C68_isolated.
