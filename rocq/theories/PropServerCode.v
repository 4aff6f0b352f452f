(** * C78: the source text of radius/src/server.rs, run

    The other properties of the server are proved about [Server.v], a state machine whose steps are those of the
    receive loop, of the spawned tasks and of what they call.  The theorems C78 say that this is what the text of
    server.rs means: run by the interpreter of [RustEval.v], the text of [process_request] does, event by event, what
    a task of the state machine does in a schedule, and [run] spawns the tasks the state machine spawns. *)
From Coq Require Import String List NArith ZArith Bool Arith Strings.Byte Lia ZifyBool ZifyNat ZifyN.
From Verif Require Import Prelude PreludeFacts Code Avp Attributes Packet Addr Display Client Server ServerFacts CodecFacts AuthFacts Rust RustEval SourceNet CodeRun CodeBase CodePacket CodeHash CodeNet
  CodeServer CodeListen PropCode Samples PropServer.
Import ListNotations.
Local Open Scope string_scope.
Local Open Scope N_scope.
Local Open Scope list_scope.

(** ** Specification *)
(** What a task does and what it is answered, in the words of the interpreter *)
Definition fetched (remote : socket_addr) (secret : bytes) : event :=
  Event "provider.fetch_secret" [v_addr remote] (Some (vok (VBytes secret))).
Definition locked : event := Event "lock.write" [] (Some (vok (VExt "set"))).
Definition unlocked : event := Event "unlock" [] (Some VUnit).
Definition contained (k : request_key) (b : bool) : event := Event "set.contains" [v_key k] (Some (VBool b)).
Definition inserted (k : request_key) (b : bool) : event := Event "set.insert" [v_key k] (Some (VBool b)).
Definition removed (k : request_key) (b : bool) : event := Event "set.remove" [v_key k] (Some (VBool b)).
Definition printed : event := Event "println!" [v_text "{e:?}"] (Some VUnit).
Definition handler_called (r : request) (answer : option value) : event :=
  Event "handler.handle_radius_request" [VExt "conn"; v_request r] answer.
(** [fe]: the error of the secret provider; [hv], [he]: what the handler returns in [Ok(_)] or [Err(_)] *)
Record unmodelled := Unmodelled { u_fetch_error : value; u_handler_value : value; u_handler_error : value }.

(** One step of a schedule, as task [tid] does it *)
Definition task_step (u : unmodelled) (tid : nat) (s : server) (o : op) : list event :=
  match nth_error (sv_tasks s) tid with
  | None => []
  | Some t =>
      match o, t_state t with
      | OFetch i (FOk secret), TReceived => if Nat.eqb i tid then [fetched (t_remote t) secret] else []
      | OFetch i FErr, TReceived =>
          if Nat.eqb i tid then [Event "provider.fetch_secret" [v_addr (t_remote t)] (Some (verr (u_fetch_error u)))] else []
      | OLock i, TWantInsert _ | OLock i, TWantRemove _ => if Nat.eqb i tid then [locked] else []
      | OCheck i, TCheck p =>
          let key := key_of (t_remote t) p in
          if Nat.eqb i tid then
            if set_contains (sv_undergoing s) key then [contained key true; unlocked]
            else [contained key false; inserted key true]
          else []
      | OInvoke i, TInserted _ => if Nat.eqb i tid then [unlocked] else []
      | OReturn i HOk, THandling p =>
          if Nat.eqb i tid then [handler_called (Request (t_local t) (t_remote t) p) (Some (vok (u_handler_value u)))] else []
      | OReturn i HErr, THandling p =>
          if Nat.eqb i tid then [handler_called (Request (t_local t) (t_remote t) p) (Some (verr (u_handler_error u))); printed] else []
      | ORemove i, TRemove p =>
          let key := key_of (t_remote t) p in
          if Nat.eqb i tid then [removed key (set_contains (sv_undergoing s) key); unlocked] else []
      | _, _ => []
      end
  end.
(** a schedule, as task [tid] sees it *)
Fixpoint task_trace (u : unmodelled) (tid : nat) (s : server) (ops : list op) : list event :=
  match ops with
  | [] => []
  | o :: ops' => task_step u tid s o ++ match exec s o with Some s' => task_trace u tid s' ops' | None => [] end
  end.
(** The text of [process_request], run for the task, has done [tr] (oldest first) and stands where the task stands. *)
Definition stands (t : task) (tr : list event) (o : rout) : Prop :=
  let returned := RVal VUnit (task_args (t_data t) (t_local t) (t_remote t) (t_skip t)) (World 0 (rev tr)) in
  let waits_for e := RWait (World 0 (e :: rev tr)) in
  match t_state t with
  | TReceived => o = waits_for (Event "provider.fetch_secret" [v_addr (t_remote t)] None)
  | TFetched _ => o = returned \/ o = waits_for (Event "lock.write" [] None)
  | TWantInsert _ | TWantRemove _ => o = waits_for (Event "lock.write" [] None)
  | TCheck p => o = waits_for (Event "set.contains" [v_key (key_of (t_remote t) p)] None)
  | TInserted p => o = RWait (World 0 (handler_called (Request (t_local t) (t_remote t) p) None :: unlocked :: rev tr))
  | THandling p => o = waits_for (handler_called (Request (t_local t) (t_remote t) p) None)
  | TRemove p => o = waits_for (Event "set.remove" [v_key (key_of (t_remote t) p)] None)
  | TEnded Server.Panicked | TEnded Aborted => exists e, ev_answer e = None /\ o = waits_for e
  | TEnded _ => o = returned
  end.
(** calling the text of [process_request] for a task, with the answers of [q] *)
Definition processes (pr : profile) (f : feature) rng he (q : surroundings) (t : task) (o : rout) : Prop :=
  does (source pr f rng he (surroundings_of q)) "Server" "process_request"
    (task_args (t_data t) (t_local t) (t_remote t) (t_skip t)) (World 0 []) o.

(** answers that a set and the standard output can give: what is not contained is inserted, what was inserted is removed *)
Definition sane (q : surroundings) : Prop := a_insert q = Some true /\ a_print q = true /\ a_remove q <> Some false.

(** What [run] does with one datagram: it spawns a task with the bytes that fit its buffer, unless the address of the
    socket is unknown *)
Definition heard (skip : bool) (buf_size : N) (r : reception) : list event :=
  [Event "conn.recv_from" [] (Some (vok (VTuple [VBytes (rc_datagram r); v_addr (rc_remote r)])))]
  ++ match rc_local r with
     | IoOk local =>
         [Event "conn.local_addr" [] (Some (vok (v_addr local)));
          Event "spawn process_request" (task_args (firstn (N.to_nat buf_size) (rc_datagram r)) local (rc_remote r) skip) (Some VUnit)]
     | IoErr e => [Event "conn.local_addr" [] (Some (verr (VError (bytes_of_string e))))]
     end.
(** the same datagram, as a step of the state machine *)
Definition arrival (r : reception) : op :=
  ORecv (rc_datagram r) (rc_remote r) (match rc_local r with IoOk local => Some local | IoErr _ => None end).
(** the tasks spawned, by their arguments *)
Definition spawns (tr : list event) : list (list value) :=
  flat_map (fun e => if String.eqb (ev_op e) "spawn process_request" then [ev_args e] else []) tr.
Definition arguments (t : task) : list value := task_args (t_data t) (t_local t) (t_remote t) (t_skip t).

(** ** Proofs *)
Section Progress.
Context (u : unmodelled) (data : bytes) (local remote : socket_addr) (skip : bool).
Definition validated (secret : bytes) (p : packet) : Prop :=
  len secret =? 0 = false /\ (skip = true \/ packet_is_authentic_request data secret = Ok true) /\ packet_decode data secret = Ok p.
Definition entered (secret : bytes) (p : packet) : list event :=
  [fetched remote secret; locked; contained (key_of remote p) false; inserted (key_of remote p) true].
Definition returned (p : packet) (l : list event) : Prop :=
  l = [handler_called (Request local remote p) (Some (vok (u_handler_value u)))]
  \/ l = [handler_called (Request local remote p) (Some (verr (u_handler_error u))); printed].
Inductive progress : list event -> task_state -> Prop :=
| p_received : progress [] TReceived
| p_fetched secret : len secret =? 0 = false -> progress [fetched remote secret] (TFetched secret)
| p_want secret p : validated secret p -> progress [fetched remote secret] (TWantInsert p)
| p_check secret p : validated secret p -> progress [fetched remote secret; locked] (TCheck p)
| p_inserted secret p : validated secret p -> progress (entered secret p) (TInserted p)
| p_handling secret p : validated secret p -> progress (entered secret p ++ [unlocked]) (THandling p)
| p_want_remove secret p l : validated secret p -> returned p l -> progress (entered secret p ++ unlocked :: l) (TWantRemove p)
| p_remove secret p l : validated secret p -> returned p l -> progress (entered secret p ++ unlocked :: l ++ [locked]) (TRemove p)
| p_completed secret p l b : validated secret p -> returned p l ->
    progress (entered secret p ++ unlocked :: l ++ [locked; removed (key_of remote p) b; unlocked]) (TEnded Completed)
| p_unavailable : progress [Event "provider.fetch_secret" [v_addr remote] (Some (verr (u_fetch_error u)))] (TEnded SecretUnavailable)
| p_empty secret : len secret =? 0 = true -> progress [fetched remote secret] (TEnded SecretEmpty)
| p_not_authentic secret : len secret =? 0 = false -> skip = false -> packet_is_authentic_request data secret = Ok false ->
    progress [fetched remote secret] (TEnded NotAuthentic)
| p_not_decodable secret e : len secret =? 0 = false -> (skip = true \/ packet_is_authentic_request data secret = Ok true) ->
    packet_decode data secret = Err e -> progress [fetched remote secret] (TEnded NotDecodable)
| p_duplicate secret p : validated secret p ->
    progress [fetched remote secret; locked; contained (key_of remote p) true; unlocked] (TEnded DuplicateRequest)
| p_stopped r : r = Server.Panicked \/ r = Aborted -> progress [] (TEnded r)
| p_stopped_handling secret p r : r = Server.Panicked \/ r = Aborted -> validated secret p -> progress (entered secret p ++ [unlocked]) (TEnded r).
End Progress.

(** one step of the schedule *)
Lemma nth_error_set_nth {A} (l : list A) i j x : nth_error l i <> None ->
  nth_error (set_nth l i x) j = if Nat.eqb i j then Some x else nth_error l j.
Proof.
  revert i j. induction l as [|y l IH]; intros [|i] [|j] H; cbn in *; try easy.
  now apply IH.
Qed.
Definition keeps (u : unmodelled) (T : nat -> list event) (s : server) : Prop :=
  (forall tid t, nth_error (sv_tasks s) tid = Some t -> progress u (t_data t) (t_local t) (t_remote t) (t_skip t) (T tid) (t_state t))
  /\ (forall tid, nth_error (sv_tasks s) tid = None -> T tid = []).
Definition index_of (o : op) : option nat :=
  match o with
  | OFetch i _ | OValidate i | OLock i | OCheck i | OInvoke i | OReturn i _ | ORemove i | OAbort i => Some i
  | _ => None
  end.
Lemma task_step_other u tid s o : index_of o <> Some tid -> task_step u tid s o = [].
Proof.
  intro H. unfold task_step. destruct (nth_error (sv_tasks s) tid) as [t|]; [|reflexivity].
  destruct o; cbn [index_of] in H; try reflexivity;
    try (assert (E : Nat.eqb tid0 tid = false) by (apply Nat.eqb_neq; congruence); rewrite ?E);
    try destruct o; try destruct h; destruct (t_state t); reflexivity.
Qed.
Lemma keeps_move u T s o i t st keys lock evs :
  keeps u T s -> index_of o = Some i -> nth_error (sv_tasks s) i = Some t ->
  progress u (t_data t) (t_local t) (t_remote t) (t_skip t) (T i ++ task_step u i s o) st ->
  keeps u (fun tid => T tid ++ task_step u tid s o) (move s i t st keys lock evs).
Proof.
  intros [K1 K2] I E P. unfold move. split; cbn [sv_tasks]; intros tid.
  - intros t' E'. rewrite nth_error_set_nth in E' by congruence. destruct (Nat.eqb i tid) eqn:D.
    + apply Nat.eqb_eq in D. subst tid. injection E' as <-. exact P.
    + apply Nat.eqb_neq in D. rewrite task_step_other by congruence. rewrite app_nil_r. now apply K1.
  - intros E'. rewrite nth_error_set_nth in E' by congruence. destruct (Nat.eqb i tid) eqn:D; [discriminate|].
    apply Nat.eqb_neq in D. rewrite task_step_other by congruence. rewrite app_nil_r. now apply K2.
Qed.
Lemma keeps_same u T s o s' : keeps u T s -> index_of o = None -> sv_tasks s' = sv_tasks s ->
  keeps u (fun tid => T tid ++ task_step u tid s o) s'.
Proof.
  intros [K1 K2] I E. split; intros tid; rewrite E; [intros t H|intros H]; rewrite task_step_other by congruence; rewrite app_nil_r; auto.
Qed.
Lemma keeps_recv u T s o s' t : keeps u T s -> index_of o = None -> sv_tasks s' = sv_tasks s ++ [t] -> t_state t = TReceived ->
  keeps u (fun tid => T tid ++ task_step u tid s o) s'.
Proof.
  intros [K1 K2] I E S. split; intros tid; rewrite E; [intros t' H|intros H]; rewrite task_step_other by congruence; rewrite app_nil_r.
  - destruct (nth_error (sv_tasks s) tid) as [t0|] eqn:N.
    + rewrite nth_error_app1 in H by (apply nth_error_Some; congruence). rewrite N in H. injection H as <-. now apply K1.
    + rewrite (K2 tid N). apply nth_error_None in N. rewrite nth_error_app2 in H by lia.
      destruct (tid - length (sv_tasks s))%nat as [|j]; cbn [nth_error] in H; [|destruct j; discriminate].
      injection H as <-. rewrite S. constructor.
  - apply K2. apply nth_error_None in H. apply nth_error_None. rewrite app_length in H. lia.
Qed.
Lemma keeps_step u T s o s' : keeps u T s -> exec s o = Some s' -> keeps u (fun tid => T tid ++ task_step u tid s o) s'.
Proof.
  intros K H.
  assert (Tk : forall i, index_of o = Some i -> exec_task s o i = Some s' -> keeps u (fun tid => T tid ++ task_step u tid s o) s').
  { clear H. intros i I H. unfold exec_task in H. destruct (nth_error (sv_tasks s) i) as [t|] eqn:E; [|discriminate].
    pose proof (proj1 K i t E) as P. unfold move_end in H.
    destruct o; try discriminate; cbn [index_of] in I; injection I as ->; destruct (t_state t) eqn:St; try discriminate; inversion P; subst.
    all: repeat match goal with
         | H : (match ?x with _ => _ end) = Some _ |- _ => destruct x eqn:?; try discriminate
         | H : Some (match ?x with _ => _ end) = Some _ |- _ => destruct x eqn:?
         | H : Some (let _ := _ in _) = Some _ |- _ => cbv zeta in H
         | H : (let _ := _ in _) = Some _ |- _ => cbv zeta in H
         end.
    all: injection H as <-; eapply keeps_move; [exact K|reflexivity|exact E|].
    all: unfold task_step; rewrite E, ?St, ?Nat.eqb_refl; try match goal with Hs : set_contains _ _ = _ |- _ => rewrite Hs end.
    all: match goal with Ht : _ = ?x |- progress _ _ _ _ _ (?x ++ _) _ => rewrite <- Ht end; unfold entered; rewrite ?app_nil_r, <- ?app_assoc; cbn [app].
    all: try (econstructor; eassumption).
    all: try (eapply p_stopped; tauto).
    all: try match goal with
         | D : packet_decode ?d ?x = ?r |- _ =>
             destruct (packet_decode_total d x) as [[? Q]|[? Q]]; rewrite Q in D; first [discriminate D | injection D as <-]
         | D : packet_is_authentic_request ?d ?x = ?r |- _ =>
             destruct (is_authentic_request_total d x) as (? & Q & _); rewrite Q in D; discriminate D
         end.
    all: try (econstructor; repeat split; eauto; fail).
    all: try (eapply (p_want_remove _ _ _ _ _ _ _ [_]); [eassumption|now left]).
    all: try (eapply (p_want_remove _ _ _ _ _ _ _ [_; _]); [eassumption|now right]).
    all: try (eapply p_stopped_handling; [tauto|eassumption]).
    all: rewrite <- app_assoc; cbn [app]; eapply p_completed; eassumption. }
  destruct o; cbn [exec] in H; try (eapply Tk; [reflexivity|exact H]).
  all: destruct (sv_run s); try discriminate; injection H as <-; try (apply keeps_same; [exact K|reflexivity|reflexivity]).
  unfold exec_recv. destruct (recv_into b datagram). destruct local.
  - eapply keeps_recv; [exact K|reflexivity|reflexivity|reflexivity].
  - apply keeps_same; [exact K|reflexivity|reflexivity].
Qed.
Lemma keeps_ext u T T' s : (forall tid, T tid = T' tid) -> keeps u T s -> keeps u T' s.
Proof. intros E [K1 K2]. split; intros; rewrite <- E; auto. Qed.
Lemma keeps_all u ops : forall T s s', keeps u T s -> exec_all s ops = Some s' -> keeps u (fun tid => T tid ++ task_trace u tid s ops) s'.
Proof.
  induction ops as [|o ops IH]; intros T s s' K H; cbn [exec_all task_trace] in *.
  - injection H as <-. apply (keeps_ext u T); [|exact K]. intro. now rewrite app_nil_r.
  - destruct (exec s o) as [s1|] eqn:E; [|discriminate].
    apply (keeps_ext u (fun tid => (T tid ++ task_step u tid s o) ++ task_trace u tid s1 ops)).
    + intro. now rewrite app_assoc.
    + apply (IH (fun tid => T tid ++ task_step u tid s o)); [now apply keeps_step|exact H].
Qed.
Lemma schedule_progress u ops s tid t : exec_all server_listen ops = Some s -> nth_error (sv_tasks s) tid = Some t ->
  progress u (t_data t) (t_local t) (t_remote t) (t_skip t) (task_trace u tid server_listen ops) (t_state t).
Proof.
  intros H E. assert (K : keeps u (fun _ => []) server_listen).
  { split; intros i; cbn; [destruct i; discriminate|reflexivity]. }
  exact (proj1 (keeps_all u ops _ _ _ K H) tid t E).
Qed.

(** the answers that lead there *)
Definition nothing : surroundings := Surroundings None false None None None false false None.
Lemma text_fetched data local remote skip q ps secret : a_fetch q = Some (inl secret) ->
  text_process data local remote skip q ps 0
  = if len secret =? 0 then RVal VUnit ps (World 0 [fetched remote secret])
    else if skip then text_decode data secret local remote q ps 0 [fetched remote secret]
    else match packet_is_authentic_request data secret with
         | Ok true => text_decode data secret local remote q ps 0 [fetched remote secret]
         | Ok false => RVal VUnit ps (World 0 [fetched remote secret])
         | Panic => RPanic
         | _ => RNoFuel
         end.
Proof. intro F. unfold text_process, fetch_reply. rewrite F. reflexivity. Qed.
Lemma text_validated data local remote skip q ps secret p : a_fetch q = Some (inl secret) -> validated data skip secret p ->
  text_process data local remote skip q ps 0 = text_insert local remote p q ps 0 [fetched remote secret].
Proof.
  intros F (L & A & D). rewrite (text_fetched _ _ _ _ _ _ secret F), L. unfold text_decode. rewrite D.
  destruct A as [->|A]; [reflexivity|]. rewrite A. now destruct skip.
Qed.
Ltac known := repeat match goal with H : ?a = _ |- context [?a] => rewrite H end.
Lemma progress_stands u t tr : progress u (t_data t) (t_local t) (t_remote t) (t_skip t) tr (t_state t) ->
  exists q, stands t tr (text_process (t_data t) (t_local t) (t_remote t) (t_skip t) q
    (task_args (t_data t) (t_local t) (t_remote t) (t_skip t)) 0).
Proof.
  intro P. unfold stands. inversion P; subst; repeat match goal with H : _ = t_state t |- _ => rewrite <- H; clear H end.
  - exists nothing. reflexivity.
  - exists (Surroundings (Some (inl secret)) false None None None false false None).
    rewrite (text_fetched _ _ _ _ _ _ secret) by reflexivity. known. unfold text_decode, text_insert. cbn [a_lock guard_reply].
    destruct (packet_decode_total (t_data t) secret) as [[p Q]|[e Q]]; rewrite Q;
      destruct (is_authentic_request_total (t_data t) secret) as ([|] & A & _); rewrite A; destruct (t_skip t);
      ((left; reflexivity) || (right; reflexivity)).
  - exists (Surroundings (Some (inl secret)) false None None None false false None).
    rewrite (text_validated _ _ _ _ _ _ secret p) by (reflexivity || assumption). reflexivity.
  - exists (Surroundings (Some (inl secret)) true None None None false false None).
    rewrite (text_validated _ _ _ _ _ _ secret p) by (reflexivity || assumption). reflexivity.
  - exists (Surroundings (Some (inl secret)) true (Some false) (Some true) None false false None).
    rewrite (text_validated _ _ _ _ _ _ secret p) by (reflexivity || assumption). reflexivity.
  - exists (Surroundings (Some (inl secret)) true (Some false) (Some true) None false false None).
    rewrite (text_validated _ _ _ _ _ _ secret p) by (reflexivity || assumption). reflexivity.
  - match goal with R : returned _ _ _ _ _ |- _ => destruct R as [-> | ->] end.
    + exists (Surroundings (Some (inl secret)) true (Some false) (Some true) (Some (inl (u_handler_value u))) true false None).
      rewrite (text_validated _ _ _ _ _ _ secret p) by (reflexivity || assumption). reflexivity.
    + exists (Surroundings (Some (inl secret)) true (Some false) (Some true) (Some (inr (u_handler_error u))) true false None).
      rewrite (text_validated _ _ _ _ _ _ secret p) by (reflexivity || assumption). reflexivity.
  - match goal with R : returned _ _ _ _ _ |- _ => destruct R as [-> | ->] end.
    + exists (Surroundings (Some (inl secret)) true (Some false) (Some true) (Some (inl (u_handler_value u))) true true None).
      rewrite (text_validated _ _ _ _ _ _ secret p) by (reflexivity || assumption). reflexivity.
    + exists (Surroundings (Some (inl secret)) true (Some false) (Some true) (Some (inr (u_handler_error u))) true true None).
      rewrite (text_validated _ _ _ _ _ _ secret p) by (reflexivity || assumption). reflexivity.
  - match goal with R : returned _ _ _ _ _ |- _ => destruct R as [-> | ->] end.
    + exists (Surroundings (Some (inl secret)) true (Some false) (Some true) (Some (inl (u_handler_value u))) true true (Some b)).
      rewrite (text_validated _ _ _ _ _ _ secret p) by (reflexivity || assumption). reflexivity.
    + exists (Surroundings (Some (inl secret)) true (Some false) (Some true) (Some (inr (u_handler_error u))) true true (Some b)).
      rewrite (text_validated _ _ _ _ _ _ secret p) by (reflexivity || assumption). reflexivity.
  - exists (Surroundings (Some (inr (u_fetch_error u))) false None None None false false None). reflexivity.
  - exists (Surroundings (Some (inl secret)) false None None None false false None).
    rewrite (text_fetched _ _ _ _ _ _ secret) by reflexivity. now known.
  - exists (Surroundings (Some (inl secret)) false None None None false false None).
    rewrite (text_fetched _ _ _ _ _ _ secret) by reflexivity. known.
    reflexivity.
  - exists (Surroundings (Some (inl secret)) false None None None false false None).
    rewrite (text_fetched _ _ _ _ _ _ secret) by reflexivity. known. unfold text_decode. known.
    match goal with A : _ \/ _ |- _ => destruct A as [A|A]; rewrite A; [reflexivity|] end. now destruct (t_skip t).
  - exists (Surroundings (Some (inl secret)) true (Some true) None None false false None).
    rewrite (text_validated _ _ _ _ _ _ secret p) by (reflexivity || assumption). reflexivity.
  - exists nothing. match goal with R : r = _ \/ r = _ |- _ => destruct R as [-> | ->] end;
    (eexists; split; [|reflexivity]; reflexivity).
  - exists (Surroundings (Some (inl secret)) true (Some false) (Some true) None false false None).
    rewrite (text_validated _ _ _ _ _ _ secret p) by (reflexivity || assumption).
    match goal with R : r = _ \/ r = _ |- _ => destruct R as [-> | ->] end;
    (eexists; split; [|reflexivity]; reflexivity).
Qed.
Lemma processes_text pr f rng he q t : (f = Openssl -> forall b, he b = None) -> len (t_data t) < 2 ^ 63 ->
  processes pr f rng he q t (text_process (t_data t) (t_local t) (t_remote t) (t_skip t) q
    (task_args (t_data t) (t_local t) (t_remote t) (t_skip t)) 0).
Proof.
  intros H L. exists (length (t_data t) + 5)%nat. intros n Hn.
  unfold source. rewrite <- crate_program_ok. now apply run_process_request.
Qed.

(** ** C78 *)
(** Whatever a task of the state machine does in any schedule, the text of [process_request] does with some answers:
    the same events in the same order, and it stands where the task stands. *)
Theorem C78_source_process_request : forall pr f rng he u ops s tid t,
  (f = Openssl -> forall b, he b = None) ->
  exec_all server_listen ops = Some s -> nth_error (sv_tasks s) tid = Some t -> len (t_data t) < 2 ^ 63 ->
  exists q o, processes pr f rng he q t o /\ stands t (task_trace u tid server_listen ops) o.
Proof.
  intros pr f rng he u ops s tid t H E N L.
  destruct (progress_stands u t _ (schedule_progress u ops s tid t E N)) as [q S].
  exists q. eexists. split; [now apply processes_text|exact S].
Qed.

(** a schedule leads to [s], and task [tid] did [tr] *)
Definition reaches (u : unmodelled) (tid : nat) (s : server) (tr : list event) : Prop :=
  exists ops, exec_all server_listen ops = Some s /\ task_trace u tid server_listen ops = tr.
Lemma reaches_now u tid : reaches u tid server_listen [].
Proof. now exists []. Qed.
Lemma follow u tid ops : forall s s' o s'', exec_all s ops = Some s' -> exec s' o = Some s'' ->
  exec_all s (ops ++ [o]) = Some s'' /\ task_trace u tid s (ops ++ [o]) = task_trace u tid s ops ++ task_step u tid s' o.
Proof.
  induction ops as [|o0 ops IH]; intros s s' o s'' H E; cbn [exec_all task_trace app] in *.
  - injection H as ->. rewrite E. now rewrite app_nil_r.
  - destruct (exec s o0) as [s1|]; [|discriminate]. destruct (IH s1 s' o s'' H E) as [-> ->]. now rewrite app_assoc.
Qed.
Lemma reaches_step u tid s tr o s' tr' : reaches u tid s tr -> exec s o = Some s' -> tr ++ task_step u tid s o = tr' -> reaches u tid s' tr'.
Proof. intros (ops & H & <-) E <-. exists (ops ++ [o]). exact (follow u tid ops server_listen s o s' H E). Qed.
Lemma recv_zeros d : recv_into (zeros (N.to_nat (len d))) d = (d, len d).
Proof.
  unfold recv_into, zeros, len. rewrite repeat_length, Nat2N.id, N.min_id, Nat2N.id, firstn_all.
  rewrite skipn_all2 by (rewrite repeat_length; lia). now rewrite app_nil_r.
Qed.
Lemma recv_again d : recv_into d d = (d, len d).
Proof. unfold recv_into, len. now rewrite N.min_id, Nat2N.id, firstn_all, skipn_all, app_nil_r. Qed.
Lemma firstn_len {A} (d : list A) : firstn (N.to_nat (N.of_nat (length d))) d = d.
Proof. now rewrite Nat2N.id, firstn_all. Qed.
Lemma set_contains_self k : set_contains [k] k = true.
Proof. apply set_contains_iff. now left. Qed.
Section Converse.
Context (u : unmodelled) (data : bytes) (local remote : socket_addr) (skip : bool).
Definition a_task (st : task_state) : task := Task data local remote skip st.
Definition a_server (ts : list task) (keys : list request_key) lock log : server := Server skip (len data) (Some data) ts keys lock log.
Lemma reaches_received tid : exists log, reaches u tid (a_server [a_task TReceived] [] None log) [].
Proof.
  pose proof (reaches_now u tid) as R.
  eapply (reaches_step _ _ _ _ (OSetSkip skip) _ []) in R; [|reflexivity|now rewrite task_step_other by discriminate].
  eapply (reaches_step _ _ _ _ (OSetBufferSize (len data)) _ []) in R; [|reflexivity|now rewrite task_step_other by discriminate].
  eapply (reaches_step _ _ _ _ ORun _ []) in R; [|reflexivity|now rewrite task_step_other by discriminate].
  eexists. eapply (reaches_step _ _ _ _ (ORecv data remote (Some local))); [exact R| |].
  - cbn [exec sv_run sv_buf_size]. unfold exec_recv. rewrite recv_zeros.
    cbn [sv_skip sv_tasks sv_buf_size sv_undergoing sv_lock sv_log server_listen app]. replace (firstn (N.to_nat (len data)) data) with data by (symmetry; apply firstn_len). reflexivity.
  - rewrite task_step_other by discriminate. reflexivity.
Qed.
Lemma reaches_two tid : exists log, reaches u tid (a_server [a_task TReceived; a_task TReceived] [] None log) [].
Proof.
  destruct (reaches_received tid) as [log R]. eexists. eapply reaches_step with (o := ORecv data remote (Some local)); [exact R| |].
  - cbn [exec a_server sv_run]. unfold exec_recv. rewrite recv_again. cbn [sv_skip sv_tasks sv_buf_size sv_undergoing sv_lock sv_log app].
    replace (firstn (N.to_nat (len data)) data) with data by (symmetry; apply firstn_len). reflexivity.
  - rewrite task_step_other by discriminate. reflexivity.
Qed.
Definition at_ tid ts keys lock tr : Prop := exists log, reaches u tid (a_server ts keys lock log) tr.
Definition mine (tid i : nat) (l : list event) : list event := if Nat.eqb i tid then l else [].
Lemma do_step tid i ts keys lock tr o st st' keys' lock' l : at_ tid ts keys lock tr -> nth_error ts i = Some (a_task st) ->
  index_of o = Some i ->
  (forall log, exists evs, exec_task (a_server ts keys lock log) o i = Some (move (a_server ts keys lock log) i (a_task st) st' keys' lock' evs)) ->
  (forall log, i = tid -> task_step u tid (a_server ts keys lock log) o = l) ->
  at_ tid (set_nth ts i (a_task st')) keys' lock' (tr ++ mine tid i l).
Proof.
  intros [log R] N I E S. destruct (E log) as [evs X].
  eexists. eapply reaches_step with (o := o); [exact R| |].
  - transitivity (exec_task (a_server ts keys lock log) o i).
    + destruct o; try discriminate I; injection I as ->; reflexivity.
    + rewrite X. reflexivity.
  - f_equal. unfold mine. destruct (Nat.eqb i tid) eqn:D.
    + apply Nat.eqb_eq in D. now apply S.
    + apply task_step_other. rewrite I. apply Nat.eqb_neq in D. congruence.
Qed.
Ltac one N :=
  lazymatch type of N with nth_error ?ts ?i = Some (a_task ?st) =>
    first [ intro; eexists; unfold exec_task; cbn [a_server sv_tasks]; rewrite N; cbn [a_task t_state t_data t_skip t_remote t_local a_server sv_undergoing sv_lock]; cbv zeta; known; reflexivity
          | intros ? <-; unfold task_step; cbn [a_server sv_tasks]; rewrite N; cbn [a_task t_state t_data t_skip t_remote t_local a_server sv_undergoing sv_lock]; cbv zeta;
            rewrite ?Nat.eqb_refl; known; reflexivity ]
  end.
Section Steps.
Context (tid i : nat) (ts : list task) (keys : list request_key) (lock : option nat) (tr : list event).
Lemma do_fetch secret : at_ tid ts keys lock tr -> nth_error ts i = Some (a_task TReceived) -> (len secret =? 0) = false ->
  at_ tid (set_nth ts i (a_task (TFetched secret))) keys lock (tr ++ mine tid i [fetched remote secret]).
Proof. intros R N L. apply (do_step tid i ts keys lock tr (OFetch i (FOk secret)) TReceived); [exact R|exact N|reflexivity|one N..]. Qed.
Lemma do_fetch_empty secret : at_ tid ts keys lock tr -> nth_error ts i = Some (a_task TReceived) -> (len secret =? 0) = true ->
  at_ tid (set_nth ts i (a_task (TEnded SecretEmpty))) keys lock (tr ++ mine tid i [fetched remote secret]).
Proof. intros R N L. apply (do_step tid i ts keys lock tr (OFetch i (FOk secret)) TReceived); [exact R|exact N|reflexivity|one N..]. Qed.
Lemma do_fetch_error : at_ tid ts keys lock tr -> nth_error ts i = Some (a_task TReceived) ->
  at_ tid (set_nth ts i (a_task (TEnded SecretUnavailable))) keys lock
    (tr ++ mine tid i [Event "provider.fetch_secret" [v_addr remote] (Some (verr (u_fetch_error u)))]).
Proof. intros R N. apply (do_step tid i ts keys lock tr (OFetch i FErr) TReceived); [exact R|exact N|reflexivity|one N..]. Qed.
Lemma do_refuse secret : at_ tid ts keys lock tr -> nth_error ts i = Some (a_task (TFetched secret)) ->
  skip = false -> packet_is_authentic_request data secret = Ok false ->
  at_ tid (set_nth ts i (a_task (TEnded NotAuthentic))) keys lock (tr ++ mine tid i []).
Proof. intros R N S A. apply (do_step tid i ts keys lock tr (OValidate i) (TFetched secret)); [exact R|exact N|reflexivity|one N..]. Qed.
Lemma do_undecodable secret e : at_ tid ts keys lock tr -> nth_error ts i = Some (a_task (TFetched secret)) ->
  (skip = true \/ packet_is_authentic_request data secret = Ok true) -> packet_decode data secret = Err e ->
  at_ tid (set_nth ts i (a_task (TEnded NotDecodable))) keys lock (tr ++ mine tid i []).
Proof.
  intros R N A D. apply (do_step tid i ts keys lock tr (OValidate i) (TFetched secret)); [exact R|exact N|reflexivity|..|one N].
  destruct A as [S|A]; [one N|]. destruct skip eqn:S; [one N|one N].
Qed.
Lemma do_validate secret p : at_ tid ts keys lock tr -> nth_error ts i = Some (a_task (TFetched secret)) ->
  validated data skip secret p ->
  at_ tid (set_nth ts i (a_task (TWantInsert p))) keys lock (tr ++ mine tid i []).
Proof.
  intros R N (L & A & D). apply (do_step tid i ts keys lock tr (OValidate i) (TFetched secret)); [exact R|exact N|reflexivity|..|one N].
  destruct A as [S|A]; [one N|]. destruct skip eqn:S; [one N|one N].
Qed.
Lemma do_lock p : at_ tid ts keys None tr -> nth_error ts i = Some (a_task (TWantInsert p)) ->
  at_ tid (set_nth ts i (a_task (TCheck p))) keys (Some i) (tr ++ mine tid i [locked]).
Proof. intros R N. apply (do_step tid i ts keys None tr (OLock i) (TWantInsert p)); [exact R|exact N|reflexivity|one N..]. Qed.
Lemma do_check p : at_ tid ts keys lock tr -> nth_error ts i = Some (a_task (TCheck p)) -> set_contains keys (key_of remote p) = false ->
  at_ tid (set_nth ts i (a_task (TInserted p))) (set_insert keys (key_of remote p)) lock
    (tr ++ mine tid i [contained (key_of remote p) false; inserted (key_of remote p) true]).
Proof. intros R N K. apply (do_step tid i ts keys lock tr (OCheck i) (TCheck p)); [exact R|exact N|reflexivity|one N..]. Qed.
Lemma do_duplicate p : at_ tid ts keys lock tr -> nth_error ts i = Some (a_task (TCheck p)) -> set_contains keys (key_of remote p) = true ->
  at_ tid (set_nth ts i (a_task (TEnded DuplicateRequest))) keys None
    (tr ++ mine tid i [contained (key_of remote p) true; unlocked]).
Proof. intros R N K. apply (do_step tid i ts keys lock tr (OCheck i) (TCheck p)); [exact R|exact N|reflexivity|one N..]. Qed.
Lemma do_invoke p : at_ tid ts keys lock tr -> nth_error ts i = Some (a_task (TInserted p)) ->
  at_ tid (set_nth ts i (a_task (THandling p))) keys None (tr ++ mine tid i [unlocked]).
Proof. intros R N. apply (do_step tid i ts keys lock tr (OInvoke i) (TInserted p)); [exact R|exact N|reflexivity|one N..]. Qed.
Lemma do_return p : at_ tid ts keys lock tr -> nth_error ts i = Some (a_task (THandling p)) ->
  at_ tid (set_nth ts i (a_task (TWantRemove p))) keys lock
    (tr ++ mine tid i [handler_called (Request local remote p) (Some (vok (u_handler_value u)))]).
Proof. intros R N. apply (do_step tid i ts keys lock tr (OReturn i HOk) (THandling p)); [exact R|exact N|reflexivity|one N..]. Qed.
Lemma do_return_error p : at_ tid ts keys lock tr -> nth_error ts i = Some (a_task (THandling p)) ->
  at_ tid (set_nth ts i (a_task (TWantRemove p))) keys lock
    (tr ++ mine tid i [handler_called (Request local remote p) (Some (verr (u_handler_error u))); printed]).
Proof. intros R N. apply (do_step tid i ts keys lock tr (OReturn i HErr) (THandling p)); [exact R|exact N|reflexivity|one N..]. Qed.
Lemma do_relock p : at_ tid ts keys None tr -> nth_error ts i = Some (a_task (TWantRemove p)) ->
  at_ tid (set_nth ts i (a_task (TRemove p))) keys (Some i) (tr ++ mine tid i [locked]).
Proof. intros R N. apply (do_step tid i ts keys None tr (OLock i) (TWantRemove p)); [exact R|exact N|reflexivity|one N..]. Qed.
Lemma do_remove p : at_ tid ts keys lock tr -> nth_error ts i = Some (a_task (TRemove p)) -> set_contains keys (key_of remote p) = true ->
  at_ tid (set_nth ts i (a_task (TEnded Completed))) (set_remove keys (key_of remote p)) None
    (tr ++ mine tid i [removed (key_of remote p) true; unlocked]).
Proof. intros R N K. apply (do_step tid i ts keys lock tr (ORemove i) (TRemove p)); [exact R|exact N|reflexivity|one N..]. Qed.
End Steps.
Ltac stop R :=
  do 6 eexists; split; [exact R|split; [reflexivity|]]; unfold stands; cbn [a_task t_data t_local t_remote t_skip t_state].
(** the schedule for the answers [q]: the task watched is [tid] *)
Lemma answers_reached q : sane q ->
  (forall e, a_fetch q = Some (inr e) -> u_fetch_error u = e) ->
  (forall x, a_handle q = Some (inl x) -> u_handler_value u = x) ->
  (forall e, a_handle q = Some (inr e) -> u_handler_error u = e) ->
  exists tid ts keys lock tr st, at_ tid ts keys lock tr /\ nth_error ts tid = Some (a_task st) /\
    stands (a_task st) tr (text_process data local remote skip q (task_args data local remote skip) 0).
Proof.
  intros (I & Pr & Rm) Fe Hv He.
  pose proof (reaches_received 0) as R0. pose proof (reaches_two 1) as R1.
  change (at_ 0 [a_task TReceived] [] None []) in R0. change (at_ 1 [a_task TReceived; a_task TReceived] [] None []) in R1.
  destruct (a_fetch q) as [[secret|e]|] eqn:F.
  2:{ apply (do_fetch_error 0 0) in R0; [|reflexivity]. stop R0.
      unfold text_process, fetch_reply. rewrite F, (Fe e eq_refl). reflexivity. }
  2:{ stop R0. unfold text_process, fetch_reply. rewrite F. reflexivity. }
  destruct (len secret =? 0) eqn:L.
  { apply (do_fetch_empty 0 0 _ _ _ _ secret) in R0; [|reflexivity|exact L]. stop R0.
    rewrite (text_fetched _ _ _ _ _ _ secret) by assumption. rewrite L. reflexivity. }
  apply (do_fetch 0 0 _ _ _ _ secret) in R0; [|reflexivity|exact L].
  apply (do_fetch 1 0 _ _ _ _ secret) in R1; [|reflexivity|exact L].
  apply (do_fetch 1 1 _ _ _ _ secret) in R1; [|reflexivity|exact L].
  cbn [set_nth] in R0, R1.
  destruct (is_authentic_request_total data secret) as (b & A & _).
  destruct (orb skip b) eqn:B.
  2:{ destruct skip eqn:S; [discriminate|]. cbn [orb] in B. subst b.
      apply (do_refuse 0 0 _ _ _ _ secret) in R0; [|reflexivity|exact S|exact A]. rewrite <- S in *. stop R0.
      rewrite (text_fetched _ _ _ _ _ _ secret) by assumption. rewrite L, A, S. reflexivity. }
  assert (V : skip = true \/ packet_is_authentic_request data secret = Ok true).
  { destruct skip; [now left|right]. cbn [orb] in B. now subst b. }
  destruct (packet_decode_total data secret) as [[p D]|[e D]].
  2:{ apply (do_undecodable 0 0 _ _ _ _ secret e) in R0; [|reflexivity|exact V|exact D]. stop R0.
      rewrite (text_fetched _ _ _ _ _ _ secret) by assumption. rewrite L. unfold text_decode. rewrite D.
      destruct V as [V|V]; rewrite V; [reflexivity|]. now destruct skip. }
  assert (W : validated data skip secret p) by (now repeat split).
  rewrite (text_validated _ _ _ _ _ _ secret p F W).
  apply (do_validate 0 0 _ _ _ _ secret p) in R0; [|reflexivity|exact W].
  apply (do_validate 1 0 _ _ _ _ secret p) in R1; [|reflexivity|exact W].
  apply (do_validate 1 1 _ _ _ _ secret p) in R1; [|reflexivity|exact W].
  cbn [set_nth] in R0, R1. unfold text_insert.
  destruct (a_lock q) eqn:Lk; [|stop R0; reflexivity].
  apply (do_lock 0 0 _ _ _ p) in R0; [|reflexivity].
  destruct (a_contains q) as [[|]|] eqn:Ct.
  - apply (do_lock 1 0 _ _ _ p) in R1; [|reflexivity].
    apply (do_check 1 0 _ _ _ _ p) in R1; [|reflexivity|reflexivity].
    apply (do_invoke 1 0 _ _ _ _ p) in R1; [|reflexivity].
    apply (do_lock 1 1 _ _ _ p) in R1; [|reflexivity].
    apply (do_duplicate 1 1 _ _ _ _ p) in R1; [|reflexivity|apply set_contains_self].
    stop R1. reflexivity.
  - rewrite I. apply (do_check 0 0 _ _ _ _ p) in R0; [|reflexivity|reflexivity].
    apply (do_invoke 0 0 _ _ _ _ p) in R0; [|reflexivity]. unfold text_handle, handle_reply.
    destruct (a_handle q) as [[x|e]|] eqn:Hd; [| |stop R0; reflexivity].
    + apply (do_return 0 0 _ _ _ _ p) in R0; [|reflexivity]. rewrite (Hv x eq_refl) in R0. unfold text_remove.
      destruct (a_relock q); [|stop R0; reflexivity].
      apply (do_relock 0 0 _ _ _ p) in R0; [|reflexivity].
      destruct (a_remove q) as [[|]|]; [|congruence|stop R0; reflexivity].
      apply (do_remove 0 0 _ _ _ _ p) in R0; [|reflexivity|apply set_contains_self]. stop R0. reflexivity.
    + apply (do_return_error 0 0 _ _ _ _ p) in R0; [|reflexivity]. rewrite (He e eq_refl) in R0. unfold text_remove, print_reply. rewrite Pr.
      destruct (a_relock q); [|stop R0; reflexivity].
      apply (do_relock 0 0 _ _ _ p) in R0; [|reflexivity].
      destruct (a_remove q) as [[|]|]; [|congruence|stop R0; reflexivity].
      apply (do_remove 0 0 _ _ _ _ p) in R0; [|reflexivity|apply set_contains_self]. stop R0. reflexivity.
  - stop R0. reflexivity.
Qed.
End Converse.

(** And the other way round: whatever the text of [process_request] does with answers that a lock and a set can give,
    a task of the state machine does in some schedule. *)
Theorem C78_source_process_request_complete : forall pr f rng he q data local remote skip,
  (f = Openssl -> forall b, he b = None) -> len data < 2 ^ 63 -> sane q ->
  exists u ops s tid t o, exec_all server_listen ops = Some s /\ nth_error (sv_tasks s) tid = Some t
    /\ (t_data t, t_local t, t_remote t, t_skip t) = (data, local, remote, skip)
    /\ processes pr f rng he q t o /\ stands t (task_trace u tid server_listen ops) o.
Proof.
  intros pr f rng he q data local remote skip H L S.
  pose (u := Unmodelled (match a_fetch q with Some (inr e) => e | _ => VUnit end)
               (match a_handle q with Some (inl x) => x | _ => VUnit end) (match a_handle q with Some (inr e) => e | _ => VUnit end)).
  destruct (answers_reached u data local remote skip q S) as (tid & ts & keys & lock & tr & st & [log (ops & E & T)] & N & St).
  1-3: intros ? G; cbn [u u_fetch_error u_handler_value u_handler_error]; now rewrite G.
  exists u, ops. do 4 eexists. split; [exact E|]. split; [exact N|]. split; [reflexivity|].
  split; [apply processes_text; assumption|]. rewrite T. exact St.
Qed.

Lemma loop_trace_heard buf_size skip rs : forall tr, loop_trace buf_size skip rs tr = rev (flat_map (heard skip buf_size) rs) ++ tr.
Proof.
  induction rs as [|r rs IH]; intro tr; [reflexivity|]. cbn [loop_trace flat_map]. rewrite IH, rev_app_distr, <- app_assoc. f_equal. 
  unfold reception_events, heard, local_reply. now destruct (rc_local r).
Qed.
Lemma arrivals rs : forall s buf, sv_run s = Some buf -> len buf = sv_buf_size s ->
  exists s' ts buf', exec_all s (map arrival rs) = Some s' /\ sv_tasks s' = sv_tasks s ++ ts /\ sv_run s' = Some buf'
    /\ (sv_skip s', sv_buf_size s') = (sv_skip s, sv_buf_size s)
    /\ (forall t, In t ts -> t_state t = TReceived)
    /\ map arguments ts = spawns (flat_map (heard (sv_skip s) (sv_buf_size s)) rs).
Proof.
  induction rs as [|r rs IH]; intros s buf R B.
  - exists s, [], buf. cbn. now rewrite app_nil_r.
  - cbn [map exec_all arrival exec flat_map]. rewrite R. unfold exec_recv, recv_into.
    unfold spawns. rewrite flat_map_app. fold (spawns (flat_map (heard (sv_skip s) (sv_buf_size s)) rs)).
    rewrite recv_into_prefix. replace (length buf) with (N.to_nat (sv_buf_size s)) by (unfold len in B; lia).
    set (buf' := _ ++ skipn _ buf).
    assert (B' : len buf' = sv_buf_size s).
    { rewrite <- B. unfold buf', len. rewrite app_length, firstn_length, skipn_length. lia. }
    clearbody buf'.
    unfold heard at 1. destruct (rc_local r) as [local|e].
    + lazymatch goal with |- context [exec_all ?s1 _] => destruct (IH s1 buf' eq_refl B') as (s' & ts & b & E & T & Rn & Sk & All & M) end.
      cbn [sv_tasks sv_skip sv_buf_size] in T, Sk, M.
      eexists s', (_ :: ts), b. split; [exact E|]. rewrite T, <- app_assoc. split; [reflexivity|]. split; [exact Rn|]. split; [exact Sk|]. split.
      * intros t [<-|H]; [reflexivity|now apply All].
      * cbn [map]. rewrite M. reflexivity.
    + lazymatch goal with |- context [exec_all ?s1 _] => destruct (IH s1 buf' eq_refl B') as (s' & ts & b & E & T & Rn & Sk & All & M) end.
      exists s', ts, b. split; [exact E|]. split; [exact T|]. split; [exact Rn|]. split; [exact Sk|]. split; [exact All|exact M].
Qed.

(** [run]: for each datagram, in order, it does what [heard] says, and so spawns the tasks the state machine spawns; it
    returns the error of the socket, or [Ok(())] once the shutdown trigger completes, or it goes on waiting. *)
Theorem C78_source_run : forall pr f rng he ln s, sv_run s = None ->
  let args := [v_server (sv_skip s) (sv_buf_size s); VExt "shutdown"] in
  let tr := flat_map (heard (sv_skip s) (sv_buf_size s)) (ln_receptions ln) in
  (exists s' ts, exec_all s (ORun :: map arrival (ln_receptions ln)) = Some s' /\ sv_tasks s' = sv_tasks s ++ ts
     /\ (sv_skip s', sv_buf_size s') = (sv_skip s, sv_buf_size s) /\ sv_run s' <> None
     /\ (forall t, In t ts -> t_state t = TReceived) /\ map arguments ts = spawns tr)
  /\ does (source pr f rng he (line_of ln)) "Server" "run" args (World 0 [])
       match ln_broken ln, ln_stop ln with
       | Some e, _ =>
           let v := verr (VError (bytes_of_string e)) in
           RVal v args (World 0 (rev (tr ++ [Event "conn.recv_from" [] (Some v)])))
       | None, true => RVal (vok VUnit) args (World 0 (rev (tr ++ [Event "conn.recv_from" [] None; Event "shutdown.await" [] (Some VUnit)])))
       | None, false => RWait (World 0 (rev (tr ++ [Event "conn.recv_from" [] None; Event "shutdown.await" [] None])))
       end.
Proof.
  intros pr f rng he ln s R args tr. split.
  - cbn [exec_all exec]. rewrite R.
    lazymatch goal with |- context [exec_all ?s1 _] =>
      destruct (arrivals (ln_receptions ln) s1 _ eq_refl) as (s' & ts & b & E & T & Rn & Sk & All & M) end.
    { cbn [sv_buf_size]. unfold zeros, len. rewrite repeat_length. lia. }
    exists s', ts. split; [exact E|]. split; [exact T|]. split; [exact Sk|]. split; [rewrite Rn; discriminate|]. split; [exact All|exact M].
  - exists (length (ln_receptions ln) + 4)%nat. intros n Hn. unfold source. rewrite <- crate_program_ok. unfold args.
    rewrite run_server_run by (reflexivity || exact Hn). unfold text_run, broken_reply. rewrite loop_trace_heard, app_nil_r. fold tr.
    destruct (ln_broken ln) as [e|]; [|destruct (ln_stop ln)]; rewrite rev_app_distr; reflexivity.
Qed.

(** The parts of the API around it *)
Theorem C78_source_listen : forall pr f rng he ans host port b,
  let args := [v_text host; VInt U16 port; VExt "handler"; VExt "provider"] in
  let address := [v_text (host ++ ":" ++ dec port)] in
  ans [] "UdpSocket::bind" address =
    match b with Some (IoOk tt) => Some (vok (VExt "conn")) | Some (IoErr e) => Some (verr (VError (bytes_of_string e))) | None => None end ->
  does (source pr f rng he ans) "Server" "listen" args (World 0 [])
    match b with
    | Some (IoOk tt) =>
        RVal (vok (v_server (sv_skip server_listen) (sv_buf_size server_listen))) args
          (World 0 [Event "UdpSocket::bind" address (Some (vok (VExt "conn")))])
    | Some (IoErr e) =>
        let v := verr (VError (bytes_of_string e)) in RVal v args (World 0 [Event "UdpSocket::bind" address (Some v)])
    | None => RWait (World 0 [Event "UdpSocket::bind" address None])
    end.
Proof.
  intros pr f rng he ans host port b args address H. exists 2%nat. intros n Hn. unfold source. rewrite <- crate_program_ok. unfold args.
  rewrite (run_listen pr rng he ans f n host port b 0 [] Hn).
  - destruct b as [[[]|]|]; reflexivity.
  - unfold address in H. rewrite H. destruct b as [[[]|]|]; reflexivity.
Qed.
Theorem C78_source_setters : forall pr f rng he ans s w, sv_run s = None ->
  (forall m, exists s', exec s (OSetBufferSize m) = Some s' /\
     does (source pr f rng he ans) "Server" "set_buffer_size" [v_server (sv_skip s) (sv_buf_size s); v_usize m] w
       (RVal VUnit [v_server (sv_skip s') (sv_buf_size s'); v_usize m] w)
     /\ sv_buf_size s' = m /\ sv_skip s' = sv_skip s)
  /\ (forall b, exists s', exec s (OSetSkip b) = Some s' /\
     does (source pr f rng he ans) "Server" "set_skip_authenticity_validation" [v_server (sv_skip s) (sv_buf_size s); VBool b] w
       (RVal VUnit [v_server (sv_skip s') (sv_buf_size s'); VBool b] w)
     /\ sv_skip s' = b /\ sv_buf_size s' = sv_buf_size s)
  /\ does (source pr f rng he ans) "" "DEFAULT_BUFFER_SIZE" [] w (RVal (v_usize (sv_buf_size server_listen)) [] w)
  /\ does (source pr f rng he ans) "" "DEFAULT_SKIP_AUTHENTICITY_VALIDATION" [] w (RVal (VBool (sv_skip server_listen)) [] w).
Proof.
  intros pr f rng he ans s w R. repeat split.
  - intro m. cbn [exec]. rewrite R. eexists. split; [reflexivity|]. split; [|now split].
    exists 1%nat. intros n Hn. unfold source. rewrite <- crate_program_ok. now rewrite run_set_buffer_size.
  - intro b. cbn [exec]. rewrite R. eexists. split; [reflexivity|]. split; [|now split].
    exists 1%nat. intros n Hn. unfold source. rewrite <- crate_program_ok. now rewrite run_set_skip.
  - exists 1%nat. intros n Hn. unfold source. rewrite <- crate_program_ok. now rewrite run_DEFAULT_BUFFER_SIZE.
  - exists 1%nat. intros n Hn. unfold source. rewrite <- crate_program_ok. now rewrite run_DEFAULT_SKIP_AUTHENTICITY_VALIDATION.
Qed.
Theorem C78_source_listen_address : forall pr f rng he ans k tr skip buf_size v, ans tr "conn.local_addr" [] = Some v ->
  does (source pr f rng he ans) "Server" "get_listen_address" [v_server skip buf_size] (World k tr)
    (RVal v [v_server skip buf_size] (World k (Event "conn.local_addr" [] (Some v) :: tr))).
Proof.
  intros pr f rng he ans k tr skip buf_size v H. exists 1%nat. intros n Hn. unfold source. rewrite <- crate_program_ok.
  now apply run_get_listen_address.
Qed.

(** A complete exchange: the task of the schedule and the text do these things, in this order, and both end. *)
Definition sample_unmodelled : unmodelled := Unmodelled VUnit VUnit VUnit.
Definition sample_schedule : list op :=
  ORun :: up_to_handler 0 client_a ++ [OReturn 0 HErr; OLock 0; ORemove 0].
Example C78_example_exchange : exists s t,
  exec_all server_listen sample_schedule = Some s /\ nth_error (sv_tasks s) 0 = Some t /\ t_state t = TEnded Completed
  /\ len (t_data t) < 2 ^ 63
  /\ map ev_op (task_trace sample_unmodelled 0 server_listen sample_schedule)
     = ["provider.fetch_secret"; "lock.write"; "set.contains"; "set.insert"; "unlock"; "handler.handle_radius_request"; "println!";
        "lock.write"; "set.remove"; "unlock"].
Proof. do 2 eexists. split; [vm_compute; reflexivity|]. split; [reflexivity|]. now vm_compute. Qed.
(** A second copy of the request while the handler runs: the text returns without calling the handler. *)
Definition duplicate_schedule : list op :=
  ORun :: up_to_handler 0 client_a ++
  [ORecv sample_request client_a (Some server_addr); OFetch 1 (FOk sample_secret); OValidate 1; OLock 1; OCheck 1].
Example C78_example_duplicate : exists s t,
  exec_all server_listen duplicate_schedule = Some s /\ nth_error (sv_tasks s) 1 = Some t /\ t_state t = TEnded DuplicateRequest
  /\ map ev_op (task_trace sample_unmodelled 1 server_listen duplicate_schedule)
     = ["provider.fetch_secret"; "lock.write"; "set.contains"; "unlock"].
Proof. do 2 eexists. split; [vm_compute; reflexivity|]. split; [reflexivity|]. now vm_compute. Qed.
Example C78_example_sane : sane (Surroundings (Some (inl [x73])) true (Some false) (Some true) (Some (inl VUnit)) true true (Some true)).
Proof. repeat split. discriminate. Qed.
(** Two datagrams, one of them without a local address, then the socket breaks. *)
Definition sample_line : line :=
  Line [Reception [x01; x02; x03] client_a (IoOk server_addr); Reception [x04] client_b (IoErr "gone")] (Some "broken") true
    (fun _ _ _ => None).
Example C78_example_run :
  flat_map (heard false 2) (ln_receptions sample_line)
  = [Event "conn.recv_from" [] (Some (vok (VTuple [VBytes [x01; x02; x03]; v_addr client_a])));
     Event "conn.local_addr" [] (Some (vok (v_addr server_addr)));
     Event "spawn process_request" (task_args [x01; x02] server_addr client_a false) (Some VUnit);
     Event "conn.recv_from" [] (Some (vok (VTuple [VBytes [x04]; v_addr client_b])));
     Event "conn.local_addr" [] (Some (verr (VError (bytes_of_string "gone"))))]
  /\ spawns (flat_map (heard false 2) (ln_receptions sample_line)) = [task_args [x01; x02] server_addr client_a false].
Proof. split; reflexivity. Qed.

(** * Assumptions *)
Print Assumptions C78_source_process_request.
Print Assumptions C78_source_process_request_complete.
Print Assumptions C78_source_run.
Print Assumptions C78_source_listen.
Print Assumptions C78_source_setters.
Print Assumptions C78_source_listen_address.
