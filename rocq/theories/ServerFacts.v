(** * Invariants of the server *)
From Coq Require Import String List NArith ZArith Bool Arith Strings.Byte Lia ZifyBool ZifyNat ZifyN.
From Verif Require Import Prelude PreludeFacts Md5 Avp Code Packet Addr Server Spec CodecFacts AuthFacts
  RoundTrip PropPacket ServerSpec.
Import ListNotations.
Local Open Scope N_scope.
Local Open Scope list_scope.

(** ** lists *)
Lemma length_set_nth {A} (l : list A) n x : length (set_nth l n x) = length l.
Proof. revert n. induction l; intros [|n]; cbn [set_nth length]; auto. Qed.
Lemma nth_error_set_nth_same {A} (l : list A) n x y :
  nth_error l n = Some y -> nth_error (set_nth l n x) n = Some x.
Proof. revert n. induction l as [|a l IH]; intros [|n]; cbn; auto; discriminate. Qed.
Lemma nth_error_set_nth_other {A} (l : list A) n m x : n <> m ->
  nth_error (set_nth l n x) m = nth_error l m.
Proof. revert n m. induction l as [|a l IH]; intros [|n] [|m] H; cbn; auto; congruence. Qed.
Lemma events_of_app tid a b : events_of tid (a ++ b) = events_of tid a ++ events_of tid b.
Proof. apply filter_app. Qed.
Lemma events_of_all tid evs : Forall (fun e => event_tid e = tid) evs -> events_of tid evs = evs.
Proof.
  induction 1 as [|e evs H F IH]; [reflexivity|].
  unfold events_of in *. cbn [filter]. rewrite H, Nat.eqb_refl, IH. reflexivity.
Qed.
Lemma events_of_none tid tid' evs :
  Forall (fun e => event_tid e = tid) evs -> tid <> tid' -> events_of tid' evs = [].
Proof.
  intros F H. induction F as [|e evs E F IH]; [reflexivity|].
  unfold events_of in *. cbn [filter]. rewrite E, (proj2 (Nat.eqb_neq _ _) H). exact IH.
Qed.
Lemma in_events_of tid e log : event_tid e = tid -> (In e log <-> In e (events_of tid log)).
Proof.
  intros H. unfold events_of. rewrite filter_In. split; [|tauto].
  intros I. split; [exact I|]. apply Nat.eqb_eq, H.
Qed.

(** ** keys *)
Lemma request_key_eqb_eq a b : request_key_eqb a b = true <-> a = b.
Proof.
  unfold request_key_eqb. rewrite andb_true_iff, String.eqb_eq, byte_eqb_eq.
  destruct a, b. cbn. split; [intros [-> ->]; reflexivity|intros H; injection H; auto].
Qed.
Lemma set_contains_iff s k : set_contains s k = true <-> In k s.
Proof.
  unfold set_contains. rewrite existsb_exists. split.
  - intros (x & I & E). apply request_key_eqb_eq in E. subst. exact I.
  - intros I. exists k. split; [exact I|]. apply request_key_eqb_eq. reflexivity.
Qed.
Lemma in_set_insert s k k' : In k' (set_insert s k) <-> k' = k \/ In k' s.
Proof.
  unfold set_insert. destruct (set_contains s k) eqn:E.
  - apply set_contains_iff in E. split; [auto|]. intros [->|I]; assumption.
  - cbn. intuition auto.
Qed.
Lemma in_set_remove s k k' : In k' (set_remove s k) <-> k' <> k /\ In k' s.
Proof.
  unfold set_remove. rewrite filter_In, negb_true_iff. split.
  - intros [I E]. split; [|exact I]. intros ->.
    rewrite (proj2 (request_key_eqb_eq k k) eq_refl) in E. discriminate.
  - intros [N I]. split; [exact I|]. destruct (request_key_eqb k k') eqn:E; [|reflexivity].
    apply request_key_eqb_eq in E. congruence.
Qed.

(** ** what the log says about a task *)
Definition valid (t : task) (secret : bytes) (p : packet) : Prop :=
  valid_request (t_skip t) (t_data t) secret p.

Definition history (tid : nat) (t : task) (d : bytes) (evs : list event) : Prop :=
  let sp := ESpawned tid d (t_local t) (t_remote t) in
  let fe o := EFetched tid (t_remote t) o in
  let iv p := EInvoked tid (Request (t_local t) (t_remote t) p) in
  match t_state t with
  | TReceived => evs = [sp]
  | TFetched secret => secret <> [] /\ evs = [fe (FOk secret); sp]
  | TWantInsert p | TCheck p | TInserted p =>
      exists secret, valid t secret p /\ evs = [fe (FOk secret); sp]
  | THandling p => exists secret, valid t secret p /\ evs = [iv p; fe (FOk secret); sp]
  | TWantRemove p | TRemove p =>
      exists secret o, valid t secret p /\ (o = HOk \/ o = HErr)
        /\ evs = [EReturned tid o; iv p; fe (FOk secret); sp]
  | TEnded r =>
      match r with
      | SecretUnavailable => evs = [EEnded tid r; fe FErr; sp]
      | SecretEmpty => evs = [EEnded tid r; fe (FOk []); sp]
      | NotAuthentic => exists secret, secret <> [] /\ t_skip t = false
          /\ ~ request_authentic (t_data t) secret
          /\ evs = [EEnded tid r; fe (FOk secret); sp]
      | NotDecodable => exists secret e, secret <> []
          /\ (t_skip t = false -> request_authentic (t_data t) secret)
          /\ packet_decode (t_data t) secret = Err e
          /\ evs = [EEnded tid r; fe (FOk secret); sp]
      | DuplicateRequest => exists secret p, valid t secret p
          /\ evs = [EEnded tid r; fe (FOk secret); sp]
      | Completed => exists secret p o, valid t secret p /\ (o = HOk \/ o = HErr)
          /\ evs = [EEnded tid r; EReturned tid o; iv p; fe (FOk secret); sp]
      | Panicked =>
          evs = [EEnded tid r; fe FPanic; sp]
          \/ exists secret p, valid t secret p
             /\ evs = [EEnded tid r; EReturned tid HPanic; iv p; fe (FOk secret); sp]
      | Aborted =>
          evs = [EEnded tid r; EAborted tid; sp]
          \/ exists secret p, valid t secret p
             /\ evs = [EEnded tid r; EAborted tid; iv p; fe (FOk secret); sp]
      end
  end.

Definition holds_lock (st : task_state) : bool :=
  match st with TCheck _ | TInserted _ | TRemove _ => true | _ => false end.

Fixpoint invoked (evs : list event) : option request :=
  match evs with
  | [] => None
  | EInvoked _ r :: _ => Some r
  | _ :: evs' => invoked evs'
  end.
(** the key a task keeps in the in-flight set *)
Definition claim_of (t : task) (evs : list event) : option request_key :=
  match t_state t with
  | TInserted p | THandling p | TWantRemove p | TRemove p => Some (key_of (t_remote t) p)
  | TEnded Panicked | TEnded Aborted =>
      match invoked evs with
      | Some r => Some (key_of (rq_remote_addr r) (rq_packet r))
      | None => None
      end
  | _ => None
  end.
Definition claim (s : server) (tid : nat) : option request_key :=
  match nth_error (sv_tasks s) tid with
  | Some t => claim_of t (events_of tid (sv_log s))
  | None => None
  end.

Record inv (s : server) : Prop := {
  inv_log : forall tid t, nth_error (sv_tasks s) tid = Some t ->
    exists d, history tid t d (events_of tid (sv_log s));
  inv_nolog : forall tid, nth_error (sv_tasks s) tid = None -> events_of tid (sv_log s) = [];
  inv_lock : forall tid, sv_lock s = Some tid <->
    exists t, nth_error (sv_tasks s) tid = Some t /\ holds_lock (t_state t) = true;
  inv_keys : forall k, In k (sv_undergoing s) <-> exists tid, claim s tid = Some k;
  inv_uniq : forall t1 t2 k, claim s t1 = Some k -> claim s t2 = Some k -> t1 = t2;
  inv_buf : forall buf, sv_run s = Some buf -> len buf = sv_buf_size s
}.

Lemma inv_initial : inv server_listen.
Proof.
  split; cbn [server_listen sv_tasks sv_log sv_lock sv_undergoing sv_run].
  - intros [|tid] t H; discriminate.
  - reflexivity.
  - intros tid. split; [discriminate|]. intros (t & H & _). destruct tid; discriminate.
  - intros k. split; [intros []|]. intros (tid & H). destruct tid; discriminate.
  - intros t1 t2 k H. destruct t1; discriminate.
  - discriminate.
Qed.

(** *** one task moves *)
Lemma claim_move_other s tid t st keys lock evs tid' :
  Forall (fun e => event_tid e = tid) evs -> tid <> tid' ->
  claim (move s tid t st keys lock evs) tid' = claim s tid'.
Proof.
  intros F N. unfold claim, move. cbn [sv_tasks sv_log].
  rewrite nth_error_set_nth_other by exact N. rewrite events_of_app, (events_of_none tid tid') by assumption.
  reflexivity.
Qed.
Lemma claim_move_same s tid t st keys lock evs :
  Forall (fun e => event_tid e = tid) evs -> nth_error (sv_tasks s) tid = Some t ->
  claim (move s tid t st keys lock evs) tid
  = claim_of (with_state t st) (evs ++ events_of tid (sv_log s)).
Proof.
  intros F N. unfold claim, move. cbn [sv_tasks sv_log].
  rewrite (nth_error_set_nth_same _ _ _ _ N). rewrite events_of_app, events_of_all by assumption.
  reflexivity.
Qed.

Inductive keys_step (before after : list request_key) (c c' : option request_key) : Prop :=
| ks_same : c' = c -> after = before -> keys_step before after c c'
| ks_add k : c = None -> c' = Some k -> ~ In k before ->
    (forall k', In k' after <-> k' = k \/ In k' before) -> keys_step before after c c'
| ks_remove k : c = Some k -> c' = None ->
    (forall k', In k' after <-> k' <> k /\ In k' before) -> keys_step before after c c'.

Lemma move_inv s tid t st keys lock evs :
  inv s -> nth_error (sv_tasks s) tid = Some t ->
  Forall (fun e => event_tid e = tid) evs ->
  (forall d, history tid t d (events_of tid (sv_log s)) ->
             history tid (with_state t st) d (evs ++ events_of tid (sv_log s))) ->
  (holds_lock st = true <-> lock = Some tid) ->
  (forall tid', tid' <> tid -> (lock = Some tid' <-> sv_lock s = Some tid')) ->
  keys_step (sv_undergoing s) keys (claim_of t (events_of tid (sv_log s)))
    (claim_of (with_state t st) (evs ++ events_of tid (sv_log s))) ->
  inv (move s tid t st keys lock evs).
Proof.
  intros I Ht F Hh Hl Ho Hk.
  assert (Cs := claim_move_same s tid t st keys lock evs F Ht).
  assert (Co := fun tid' => claim_move_other s tid t st keys lock evs tid' F).
  assert (C0 : claim s tid = claim_of t (events_of tid (sv_log s))) by (unfold claim; rewrite Ht; reflexivity).
  split.
  - intros tid' t'. unfold move. cbn [sv_tasks sv_log]. destruct (Nat.eq_dec tid tid') as [<-|N].
    + rewrite (nth_error_set_nth_same _ _ _ _ Ht). intros E. injection E as <-.
      rewrite events_of_app, events_of_all by exact F.
      destruct (inv_log _ I _ _ Ht) as [d H]. exists d. apply Hh, H.
    + rewrite nth_error_set_nth_other by exact N. intros E.
      rewrite events_of_app, (events_of_none tid tid') by assumption. apply (inv_log _ I _ _ E).
  - intros tid'. unfold move. cbn [sv_tasks sv_log]. destruct (Nat.eq_dec tid tid') as [<-|N].
    + rewrite (nth_error_set_nth_same _ _ _ _ Ht). discriminate.
    + rewrite nth_error_set_nth_other by exact N. intros E.
      rewrite events_of_app, (events_of_none tid tid') by assumption. apply (inv_nolog _ I _ E).
  - intros tid'. unfold move. cbn [sv_tasks sv_lock]. destruct (Nat.eq_dec tid tid') as [<-|N].
    + rewrite (nth_error_set_nth_same _ _ _ _ Ht). rewrite <- Hl. split.
      * intros H. eexists. split; [reflexivity|]. exact H.
      * intros (t' & E & H). injection E as <-. exact H.
    + rewrite nth_error_set_nth_other by exact N. rewrite Ho by congruence. apply (inv_lock _ I).
  - intros k. unfold move at 1. cbn [sv_undergoing]. destruct Hk as [E1 E2|k0 E1 E2 E3 E4|k0 E1 E2 E3].
    + subst keys. rewrite (inv_keys _ I). split; intros (tid' & H); exists tid';
        destruct (Nat.eq_dec tid tid') as [<-|N]; try (rewrite Co in * by exact N; assumption);
        congruence.
    + rewrite E4, (inv_keys _ I). split.
      * intros [->|(tid' & H)]; [exists tid; congruence|]. exists tid'. rewrite Co; [exact H|].
        intros <-. congruence.
      * intros (tid' & H). destruct (Nat.eq_dec tid tid') as [<-|N]; [left; congruence|].
        right. exists tid'. rewrite Co in H by exact N. exact H.
    + rewrite E3, (inv_keys _ I). split.
      * intros (Nk & tid' & H). exists tid'. rewrite Co; [exact H|]. intros <-. congruence.
      * intros (tid' & H). destruct (Nat.eq_dec tid tid') as [<-|N]; [congruence|].
        rewrite Co in H by exact N. split; [|eauto]. intros ->. apply N.
        apply (inv_uniq _ I _ _ k0); congruence.
  - intros t1 t2 k H1 H2. destruct Hk as [E1 E2|k0 E1 E2 E3 E4|k0 E1 E2 E3].
    + apply (inv_uniq _ I _ _ k).
      * destruct (Nat.eq_dec tid t1) as [<-|N]; [congruence|rewrite Co in H1 by exact N; exact H1].
      * destruct (Nat.eq_dec tid t2) as [<-|N]; [congruence|rewrite Co in H2 by exact N; exact H2].
    + destruct (Nat.eq_dec tid t1) as [<-|N1], (Nat.eq_dec tid t2) as [<-|N2]; auto.
      * rewrite Co in H2 by exact N2. exfalso. apply E3. apply (inv_keys _ I). exists t2. congruence.
      * rewrite Co in H1 by exact N1. exfalso. apply E3. apply (inv_keys _ I). exists t1. congruence.
      * rewrite Co in H1, H2 by assumption. apply (inv_uniq _ I _ _ k); assumption.
    + destruct (Nat.eq_dec tid t1) as [<-|N1]; [congruence|].
      destruct (Nat.eq_dec tid t2) as [<-|N2]; [congruence|].
      rewrite Co in H1, H2 by assumption. apply (inv_uniq _ I _ _ k); assumption.
  - intros buf H. apply (inv_buf _ I). exact H.
Qed.

(** *** every step preserves the invariant *)
Lemma authentic_request_cases data secret :
  (packet_is_authentic_request data secret = Ok true /\ request_authentic data secret)
  \/ (packet_is_authentic_request data secret = Ok false /\ ~ request_authentic data secret).
Proof.
  destruct (C12_is_authentic_request data secret) as ([|] & E & H); [left|right]; split; auto.
  - apply H. reflexivity.
  - intros A. apply H in A. discriminate.
Qed.
Lemma decode_cases data secret :
  (exists p, packet_decode data secret = Ok p) \/ (exists e, packet_decode data secret = Err e).
Proof. destruct (C01_decode_total data secret) as [H|H]; auto. Qed.

Lemma inv_lock_other s tid t : inv s -> nth_error (sv_tasks s) tid = Some t ->
  holds_lock (t_state t) = false -> sv_lock s <> Some tid.
Proof.
  intros I Ht H E. apply (inv_lock _ I) in E as (t' & E & H'). congruence.
Qed.
Lemma inv_lock_own s tid t : inv s -> nth_error (sv_tasks s) tid = Some t ->
  holds_lock (t_state t) = true -> sv_lock s = Some tid.
Proof. intros I Ht H. apply (inv_lock _ I). eauto. Qed.

(** a step that leaves the lock alone *)
Lemma move_inv_nolock s tid t st keys evs :
  inv s -> nth_error (sv_tasks s) tid = Some t ->
  Forall (fun e => event_tid e = tid) evs ->
  (forall d, history tid t d (events_of tid (sv_log s)) ->
             history tid (with_state t st) d (evs ++ events_of tid (sv_log s))) ->
  holds_lock st = holds_lock (t_state t) ->
  keys_step (sv_undergoing s) keys (claim_of t (events_of tid (sv_log s)))
    (claim_of (with_state t st) (evs ++ events_of tid (sv_log s))) ->
  inv (move s tid t st keys (sv_lock s) evs).
Proof.
  intros I Ht F Hh Hl Hk. apply move_inv; auto; [|tauto]. rewrite Hl.
  destruct (holds_lock (t_state t)) eqn:E.
  - split; [intros _; eapply inv_lock_own; eauto|auto].
  - split; [discriminate|]. intros X. destruct (inv_lock_other s tid t I Ht E X).
Qed.
(** a step that releases the lock *)
Lemma move_inv_release s tid t st keys evs :
  inv s -> nth_error (sv_tasks s) tid = Some t ->
  Forall (fun e => event_tid e = tid) evs ->
  (forall d, history tid t d (events_of tid (sv_log s)) ->
             history tid (with_state t st) d (evs ++ events_of tid (sv_log s))) ->
  holds_lock (t_state t) = true -> holds_lock st = false ->
  keys_step (sv_undergoing s) keys (claim_of t (events_of tid (sv_log s)))
    (claim_of (with_state t st) (evs ++ events_of tid (sv_log s))) ->
  inv (move s tid t st keys None evs).
Proof.
  intros I Ht F Hh H1 H2 Hk. apply move_inv; auto.
  - rewrite H2. split; discriminate.
  - intros tid' N. rewrite (inv_lock_own s tid t I Ht H1). split; [discriminate|congruence].
Qed.
(** a step that takes the lock *)
Lemma move_inv_acquire s tid t st keys evs :
  inv s -> nth_error (sv_tasks s) tid = Some t ->
  Forall (fun e => event_tid e = tid) evs ->
  (forall d, history tid t d (events_of tid (sv_log s)) ->
             history tid (with_state t st) d (evs ++ events_of tid (sv_log s))) ->
  sv_lock s = None -> holds_lock st = true ->
  keys_step (sv_undergoing s) keys (claim_of t (events_of tid (sv_log s)))
    (claim_of (with_state t st) (evs ++ events_of tid (sv_log s))) ->
  inv (move s tid t st keys (Some tid) evs).
Proof.
  intros I Ht F Hh H1 H2 Hk. apply move_inv; auto.
  - rewrite H2. tauto.
  - intros tid' N. rewrite H1. split; [congruence|discriminate].
Qed.

Ltac hist Hst :=
  let d := fresh "d" in let H := fresh "H" in
  intros d H; unfold history in H; rewrite Hst in H; cbn [t_state with_state] in *;
  unfold history; cbn [t_state with_state t_local t_remote t_skip t_data app].
Ltac same_claim Hst :=
  apply ks_same; [unfold claim_of; rewrite Hst; cbn [t_state with_state t_remote]; try reflexivity|reflexivity].

Lemma exec_task_inv s o tid s' : inv s -> exec_task s o tid = Some s' -> inv s'.
Proof.
  intros I. unfold exec_task. destruct (nth_error (sv_tasks s) tid) as [t|] eqn:Ht; [|discriminate].
  destruct (inv_log _ I _ _ Ht) as [d0 H0].
  destruct o; try discriminate; destruct (t_state t) as [|secret|p|p|p|p|p|p|r] eqn:Hst; try discriminate.
  - (* fetch *) intros E. injection E as <-. destruct o as [secret| |].
    + destruct (len secret =? 0) eqn:L.
      * assert (secret = []) as -> by (apply len_zero; lia).
        apply move_inv_nolock; auto.
        -- hist Hst. rewrite H. reflexivity.
        -- rewrite Hst. reflexivity.
        -- same_claim Hst.
      * apply move_inv_nolock; auto.
        -- hist Hst. rewrite H. split; [|reflexivity]. intros ->. discriminate.
        -- rewrite Hst. reflexivity.
        -- same_claim Hst.
    + apply move_inv_nolock; auto.
      * hist Hst. rewrite H. reflexivity.
      * rewrite Hst. reflexivity.
      * same_claim Hst.
    + apply move_inv_nolock; auto.
      * hist Hst. rewrite H. auto.
      * rewrite Hst. reflexivity.
      * same_claim Hst. unfold history in H0. rewrite Hst in H0. rewrite H0. reflexivity.
  - (* validate *) intros E. injection E as <-.
    set (decode := match packet_decode (t_data t) secret with
                   | Ok p => move s tid t (TWantInsert p) (sv_undergoing s) (sv_lock s) []
                   | Err _ => move_end s tid t NotDecodable (sv_undergoing s) (sv_lock s) []
                   | _ => move_end s tid t Panicked (sv_undergoing s) (sv_lock s) []
                   end).
    assert (D : (t_skip t = false -> request_authentic (t_data t) secret) -> inv decode).
    { intros A. unfold decode. destruct (decode_cases (t_data t) secret) as [[p E]|[e E]]; rewrite E.
      - apply move_inv_nolock; auto.
        + hist Hst. destruct H as [H1 H2]. rewrite H2. exists secret. split; [|reflexivity].
          split; [exact H1|]. split; [exact E|exact A].
        + rewrite Hst. reflexivity.
        + same_claim Hst.
      - apply move_inv_nolock; auto.
        + hist Hst. destruct H as [H1 H2]. rewrite H2. exists secret, e. auto.
        + rewrite Hst. reflexivity.
        + same_claim Hst. }
    destruct (t_skip t) eqn:Sk; [apply D; discriminate|].
    destruct (authentic_request_cases (t_data t) secret) as [(E & A)|(E & A)]; rewrite E.
    + apply D. auto.
    + apply move_inv_nolock; auto.
      * hist Hst. destruct H as [H1 H2]. rewrite H2. exists secret. rewrite Sk. auto.
      * rewrite Hst. reflexivity.
      * same_claim Hst.
  - (* lock to insert *) destruct (sv_lock s) eqn:L; [discriminate|]. intros E. injection E as <-.
    apply move_inv_acquire; auto.
    + hist Hst. exact H.
    + same_claim Hst.
  - (* lock to remove *) destruct (sv_lock s) eqn:L; [discriminate|]. intros E. injection E as <-.
    apply move_inv_acquire; auto.
    + hist Hst. exact H.
    + same_claim Hst.
  - (* check *) intros E. injection E as <-.
    destruct (set_contains (sv_undergoing s) (key_of (t_remote t) p)) eqn:C.
    + apply move_inv_release; auto.
      * hist Hst. destruct H as (secret & V & ->). exists secret, p. auto.
      * rewrite Hst. reflexivity.
      * same_claim Hst.
    + apply move_inv_nolock; auto.
      * hist Hst. exact H.
      * rewrite Hst. reflexivity.
      * eapply ks_add.
        -- unfold claim_of. rewrite Hst. reflexivity.
        -- reflexivity.
        -- intros X. apply set_contains_iff in X. cbn [t_remote with_state] in X. congruence.
        -- intros k'. apply in_set_insert.
  - (* invoke *) intros E. injection E as <-. apply move_inv_release; auto.
    + hist Hst. destruct H as (secret & V & ->). exists secret. auto.
    + rewrite Hst. reflexivity.
    + same_claim Hst.
  - (* return *) intros E. injection E as <-. destruct o.
    + apply move_inv_nolock; auto.
      * hist Hst. destruct H as (secret & V & ->). exists secret, HOk. auto.
      * rewrite Hst. reflexivity.
      * same_claim Hst.
    + apply move_inv_nolock; auto.
      * hist Hst. destruct H as (secret & V & ->). exists secret, HErr. auto.
      * rewrite Hst. reflexivity.
      * same_claim Hst.
    + apply move_inv_nolock; auto.
      * hist Hst. destruct H as (secret & V & ->). right. exists secret, p. auto.
      * rewrite Hst. reflexivity.
      * same_claim Hst. unfold history in H0. rewrite Hst in H0. destruct H0 as (secret & V & ->).
        reflexivity.
  - (* remove *) intros E. injection E as <-. apply move_inv_release; auto.
    + hist Hst. destruct H as (secret & o & V & O & ->). exists secret, p, o. auto.
    + rewrite Hst. reflexivity.
    + eapply ks_remove.
      * unfold claim_of. rewrite Hst. reflexivity.
      * reflexivity.
      * intros k'. apply in_set_remove.
  - (* abort before the start *) intros E. injection E as <-. apply move_inv_nolock; auto.
    + hist Hst. rewrite H. auto.
    + rewrite Hst. reflexivity.
    + same_claim Hst. unfold history in H0. rewrite Hst in H0. rewrite H0. reflexivity.
  - (* abort in the handler *) intros E. injection E as <-. apply move_inv_nolock; auto.
    + hist Hst. destruct H as (secret & V & ->). right. exists secret, p. auto.
    + rewrite Hst. reflexivity.
    + same_claim Hst. unfold history in H0. rewrite Hst in H0. destruct H0 as (secret & V & ->).
      reflexivity.
Qed.

Lemma inv_config s skip n run :
  inv s -> (forall buf, run = Some buf -> len buf = n) ->
  inv (Server skip n run (sv_tasks s) (sv_undergoing s) (sv_lock s) (sv_log s)).
Proof.
  intros I H. split; cbn [sv_tasks sv_undergoing sv_lock sv_log sv_run sv_buf_size].
  - apply (inv_log _ I).
  - apply (inv_nolog _ I).
  - apply (inv_lock _ I).
  - apply (inv_keys _ I).
  - apply (inv_uniq _ I).
  - exact H.
Qed.

Lemma recv_into_len buf d : len (fst (recv_into buf d)) = len buf.
Proof.
  unfold recv_into. cbn [fst]. unfold len. rewrite app_length, firstn_length, skipn_length. lia.
Qed.
Lemma recv_into_data buf d :
  let '(buf', size) := recv_into buf d in
  firstn (N.to_nat size) buf' = truncated (len buf) d.
Proof.
  unfold recv_into, truncated. rewrite firstn_app, firstn_firstn, firstn_length.
  replace (N.to_nat (N.min (len buf) (len d)) -
           Init.Nat.min (N.to_nat (N.min (len buf) (len d))) (length d))%nat with O
    by (unfold len; lia).
  rewrite firstn_O, app_nil_r, Nat.min_id. unfold len.
  destruct (Nat.le_ge_cases (length buf) (length d)).
  - f_equal. lia.
  - rewrite !firstn_all2; [reflexivity|lia|lia].
Qed.

Lemma nth_error_snoc {A} (l : list A) x n :
  nth_error (l ++ [x]) n = if Nat.eqb n (length l) then Some x else nth_error l n.
Proof.
  destruct (Nat.eqb n (length l)) eqn:E.
  - apply Nat.eqb_eq in E. subst. rewrite nth_error_app2, Nat.sub_diag by lia. reflexivity.
  - apply Nat.eqb_neq in E. destruct (Nat.lt_ge_cases n (length l)).
    + apply nth_error_app1. assumption.
    + rewrite (proj2 (nth_error_None l n)) by lia. apply nth_error_None. rewrite app_length. cbn. lia.
Qed.

Lemma exec_recv_inv s buf d remote local :
  inv s -> sv_run s = Some buf -> inv (exec_recv s buf d remote local).
Proof.
  intros I Hb. unfold exec_recv. destruct (recv_into buf d) as [buf' size] eqn:R.
  assert (L : len buf' = sv_buf_size s).
  { rewrite <- (inv_buf _ I _ Hb), <- (recv_into_len buf d), R. reflexivity. }
  destruct local as [local|]; [|apply inv_config; [exact I|intros ? E; injection E as <-; exact L]].
  set (t0 := Task _ _ _ _ _). set (n := length (sv_tasks s)).
  assert (En : events_of n (sv_log s) = []) by (apply (inv_nolog _ I), nth_error_None; unfold n; lia).
  set (s' := Server _ _ _ _ _ _ _).
  assert (T : forall tid, nth_error (sv_tasks s') tid
                          = if Nat.eqb tid n then Some t0 else nth_error (sv_tasks s) tid)
    by (intros tid; apply nth_error_snoc).
  assert (E : forall tid, events_of tid (sv_log s')
    = if Nat.eqb tid n then [ESpawned n d local remote] else events_of tid (sv_log s)).
  { intros tid. unfold s'. cbn [sv_log]. unfold events_of at 1. cbn [filter event_tid].
    fold (events_of tid (sv_log s)). rewrite (Nat.eqb_sym n tid). destruct (Nat.eqb tid n) eqn:X; [|reflexivity].
    apply Nat.eqb_eq in X. subst. rewrite En. reflexivity. }
  assert (C : forall tid, claim s' tid = claim s tid).
  { intros tid. unfold claim. rewrite T, E. destruct (Nat.eqb tid n) eqn:X; [|reflexivity].
    apply Nat.eqb_eq in X. subst tid. rewrite (proj2 (nth_error_None _ _)) by (unfold n; lia).
    reflexivity. }
  split.
  - intros tid t. rewrite T, E. destruct (Nat.eqb tid n) eqn:X.
    + apply Nat.eqb_eq in X. intros Q. injection Q as <-. exists d. subst tid. reflexivity.
    + apply (inv_log _ I).
  - intros tid. rewrite T, E. destruct (Nat.eqb tid n); [discriminate|apply (inv_nolog _ I)].
  - intros tid. rewrite T. change (sv_lock s') with (sv_lock s). rewrite (inv_lock _ I).
    destruct (Nat.eqb tid n) eqn:X; [|tauto]. apply Nat.eqb_eq in X. subst tid. split.
    + intros (t & Q & _). rewrite (proj2 (nth_error_None _ _)) in Q by (unfold n; lia). discriminate.
    + intros (t & Q & H). injection Q as <-. discriminate.
  - intros k. change (sv_undergoing s') with (sv_undergoing s). rewrite (inv_keys _ I).
    split; intros (tid & H); exists tid; [rewrite C|rewrite <- C]; exact H.
  - intros t1 t2 k. rewrite !C. apply (inv_uniq _ I).
  - intros b Q. injection Q as <-. exact L.
Qed.

Lemma exec_inv s o s' : inv s -> exec s o = Some s' -> inv s'.
Proof.
  intros I. destruct o; cbn [exec]; try (apply exec_task_inv; exact I).
  all: destruct (sv_run s) as [buf|] eqn:R; try discriminate; intros E; injection E as <-.
  1, 2, 4, 6: apply inv_config; [exact I|discriminate].
  - apply inv_config; [exact I|]. intros buf E. injection E as <-. unfold len, zeros.
    rewrite repeat_length. lia.
  - apply exec_recv_inv; assumption.
Qed.

Lemma exec_all_inv ops : forall s s', inv s -> exec_all s ops = Some s' -> inv s'.
Proof.
  induction ops as [|o ops IH]; intros s s' I H; cbn [exec_all] in H.
  - injection H as <-. exact I.
  - destruct (exec s o) as [s1|] eqn:E; [|discriminate]. eapply IH; [|exact H].
    eapply exec_inv; eassumption.
Qed.
Lemma reachable_inv ops s : reachable ops s -> inv s.
Proof. apply exec_all_inv, inv_initial. Qed.

Lemma exec_all_app a : forall s b,
  exec_all s (a ++ b) = match exec_all s a with Some s' => exec_all s' b | None => None end.
Proof.
  induction a as [|o a IH]; intros s b; cbn [exec_all app]; [reflexivity|].
  destruct (exec s o); [apply IH|reflexivity].
Qed.

(** ** schedules and settings *)
Lemma rev_ind_ops (P : list op -> server -> Prop) :
  P [] server_listen ->
  (forall ops s o s', reachable ops s -> P ops s -> exec s o = Some s' -> P (ops ++ [o]) s') ->
  forall ops s, reachable ops s -> P ops s.
Proof.
  intros H0 HS ops. induction ops as [|o ops IH] using rev_ind; intros s R.
  - injection R as <-. exact H0.
  - unfold reachable in R. rewrite exec_all_app in R.
    destruct (exec_all server_listen ops) as [s1|] eqn:E; [|discriminate]. cbn [exec_all] in R.
    destruct (exec s1 o) as [s2|] eqn:X; [|discriminate]. injection R as <-.
    eapply HS; [exact E|apply IH; exact E|exact X].
Qed.

(** what the steps leave alone *)
Lemma exec_task_frame s o tid s' : exec_task s o tid = Some s' ->
  sv_skip s' = sv_skip s /\ sv_buf_size s' = sv_buf_size s /\ sv_run s' = sv_run s
  /\ exists t st evs, nth_error (sv_tasks s) tid = Some t
     /\ sv_tasks s' = set_nth (sv_tasks s) tid (with_state t st)
     /\ sv_log s' = evs ++ sv_log s /\ Forall (fun e => event_tid e = tid) evs
     /\ Forall (fun e => match e with ESpawned _ _ _ _ => False | _ => True end) evs.
Proof.
  unfold exec_task. destruct (nth_error (sv_tasks s) tid) as [t|] eqn:Ht; [|discriminate].
  destruct o; try discriminate; destruct (t_state t) as [|secret|p|p|p|p|p|p|r] eqn:Hst; try discriminate.
  all: repeat match goal with
       | |- context [match ?o with FOk _ => _ | FErr => _ | FPanic => _ end] => destruct o
       | |- context [match ?o with HOk => _ | HErr => _ | HPanic => _ end] => destruct o
       | |- context [match packet_decode ?a ?b with _ => _ end] => destruct (packet_decode a b)
       | |- context [match packet_is_authentic_request ?a ?b with _ => _ end] =>
           destruct (packet_is_authentic_request a b) as [[|]|?| |]
       | |- context [if ?b then _ else _] => destruct b
       | |- context [match sv_lock ?x with _ => _ end] => destruct (sv_lock x)
       end; try discriminate.
  all: intros E; injection E as <-; repeat split; do 3 eexists; split; [reflexivity|];
       split; [reflexivity|]; split; [reflexivity|]; split; repeat constructor.
Qed.

Lemma accepted_app a b : accepted (a ++ b) = (accepted a + accepted b)%nat.
Proof. unfold accepted. rewrite filter_app, app_length. reflexivity. Qed.
Lemma settings_snoc ops o :
  skip_setting (ops ++ [o]) = match o with OSetSkip b => b | _ => skip_setting ops end
  /\ buffer_setting (ops ++ [o]) = match o with OSetBufferSize n => n | _ => buffer_setting ops end.
Proof. unfold skip_setting, buffer_setting. rewrite !fold_left_app. cbn. destruct o; auto. Qed.

Lemma reachable_settings ops s : reachable ops s ->
  sv_skip s = skip_setting ops /\ sv_buf_size s = buffer_setting ops
  /\ length (sv_tasks s) = accepted ops.
Proof.
  revert ops s. apply rev_ind_ops; [repeat split|].
  intros ops s o s' R (H1 & H2 & H3) E.
  destruct (settings_snoc ops o) as [S1 S2]. rewrite S1, S2, accepted_app.
  destruct o; cbn [exec] in E;
    try (apply exec_task_frame in E as (-> & -> & _ & t & st & evs & Ht & -> & _);
         rewrite length_set_nth; repeat split; cbn; try assumption; lia).
  all: destruct (sv_run s) as [buf|]; try discriminate; injection E as <-;
       try (cbn; repeat split; auto; lia).
  unfold exec_recv. destruct (recv_into buf datagram). destruct local; cbn [sv_skip sv_buf_size sv_tasks].
  - rewrite app_length, H3. cbn. auto.
  - cbn. repeat split; auto; lia.
Qed.

Lemma taken_snoc ops o tid d l r skip n : taken ops tid d l r skip n -> taken (ops ++ [o]) tid d l r skip n.
Proof.
  intros (before & after & -> & H). exists before, (after ++ [o]). split; [|exact H].
  rewrite <- app_assoc. reflexivity.
Qed.
Lemma taken_det ops tid d l r k n d' l' r' k' n' :
  taken ops tid d l r k n -> taken ops tid d' l' r' k' n' ->
  d = d' /\ l = l' /\ r = r' /\ k = k' /\ n = n'.
Proof.
  intros (b & a & E & A & K & N) (b' & a' & E' & A' & K' & N').
  assert (X : b = b').
  { rewrite E in E'. clear E K N K' N'. rewrite <- A' in A. clear A'. revert b' E' A.
    induction b as [|o b IH]; intros [|o' b'] E A; cbn [app] in E.
    - reflexivity.
    - injection E as <- E. exfalso. cbn in A. lia.
    - injection E as -> E. exfalso. cbn in A. lia.
    - injection E as <- E. f_equal. apply IH; [exact E|]. unfold accepted in A. cbn [filter] in A.
      unfold accepted. destruct o as [| | | | ? ? [|] | | | | | | | | |]; cbn [length] in A; lia. }
  subst b'. rewrite E in E'. apply app_inv_head in E'. injection E' as -> -> -> ->.
  repeat split; congruence.
Qed.

(** every task works on the datagram it was spawned for *)
Lemma reachable_tasks ops s : reachable ops s ->
  forall tid t, nth_error (sv_tasks s) tid = Some t ->
  exists d n, taken ops tid d (t_local t) (t_remote t) (t_skip t) n
    /\ t_data t = truncated n d /\ In (ESpawned tid d (t_local t) (t_remote t)) (sv_log s).
Proof.
  revert ops s. apply (rev_ind_ops (fun ops s =>
    forall tid t, nth_error (sv_tasks s) tid = Some t ->
    exists d n, taken ops tid d (t_local t) (t_remote t) (t_skip t) n
    /\ t_data t = truncated n d /\ In (ESpawned tid d (t_local t) (t_remote t)) (sv_log s))).
  - intros [|tid] t H; discriminate.
  - intros ops s o s' R IH E tid t Ht.
    assert (K : nth_error (sv_tasks s) tid = Some t -> (forall e, In e (sv_log s) -> In e (sv_log s')) ->
                exists d n, taken (ops ++ [o]) tid d (t_local t) (t_remote t) (t_skip t) n
                /\ t_data t = truncated n d /\ In (ESpawned tid d (t_local t) (t_remote t)) (sv_log s')).
    { intros Q M. destruct (IH _ _ Q) as (d & n & T & D & L). exists d, n.
      split; [apply taken_snoc, T|auto]. }
    assert (KT : forall tid0, exec_task s o tid0 = Some s' ->
                exists d n, taken (ops ++ [o]) tid d (t_local t) (t_remote t) (t_skip t) n
                /\ t_data t = truncated n d /\ In (ESpawned tid d (t_local t) (t_remote t)) (sv_log s')).
    { intros tid0 X. apply exec_task_frame in X as (_ & _ & _ & t0 & st & evs & Ht0 & T & L & _).
      assert (M : forall e, In e (sv_log s) -> In e (sv_log s'))
        by (intros e Q; rewrite L; apply in_or_app; auto).
      rewrite T in Ht. destruct (Nat.eq_dec tid0 tid) as [->|N].
      - rewrite (nth_error_set_nth_same _ _ _ _ Ht0) in Ht. injection Ht as <-.
        cbn [t_local t_remote t_skip t_data with_state].
        destruct (IH _ _ Ht0) as (d & n & T1 & D & L1). exists d, n.
        split; [apply taken_snoc, T1|auto].
      - rewrite nth_error_set_nth_other in Ht by exact N. apply K; assumption. }
    destruct o; cbn [exec] in E; try (eapply KT; exact E).
    all: destruct (sv_run s) as [buf|] eqn:Hb; try discriminate; injection E as <-.
    1, 2, 3, 4, 6: apply K; [exact Ht|auto].
    unfold exec_recv in *. pose proof (recv_into_data buf datagram) as D.
    destruct (recv_into buf datagram) as [buf' size].
    destruct local as [local|]; [|apply K; [exact Ht|auto]].
    cbn [sv_tasks sv_log] in *. rewrite nth_error_snoc in Ht.
    destruct (Nat.eqb tid (length (sv_tasks s))) eqn:Q.
    + apply Nat.eqb_eq in Q. injection Ht as <-. cbn [t_local t_remote t_skip t_data].
      destruct (reachable_settings _ _ R) as (S1 & S2 & S3).
      exists datagram, (sv_buf_size s). split.
      * exists ops, []. repeat split; congruence.
      * split; [|left; congruence]. rewrite D. f_equal.
        apply (inv_buf _ (reachable_inv _ _ R) _ Hb).
    + apply K; [exact Ht|]. intros e I. right. exact I.
Qed.

(** ** reading the log *)
Ltac in_list H := cbn [In] in H; repeat (destruct H as [H|H]); try contradiction; try discriminate.

Lemma event_task s e : inv s -> In e (sv_log s) ->
  exists t d, nth_error (sv_tasks s) (event_tid e) = Some t
    /\ history (event_tid e) t d (events_of (event_tid e) (sv_log s))
    /\ In e (events_of (event_tid e) (sv_log s)).
Proof.
  intros I H. apply (in_events_of (event_tid e)) in H; [|reflexivity].
  destruct (nth_error (sv_tasks s) (event_tid e)) as [t|] eqn:Ht.
  - destruct (inv_log _ I _ _ Ht) as [d Hd]. eauto.
  - rewrite (inv_nolog _ I _ Ht) in H. destruct H.
Qed.

Lemma history_spawned tid t d evs : history tid t d evs -> In (ESpawned tid d (t_local t) (t_remote t)) evs.
Proof.
  unfold history. destruct (t_state t) as [| | | | | | | |[]]; intros H;
    repeat match goal with
    | H : exists _, _ |- _ => destruct H as [? H]
    | H : _ \/ exists _, _ |- _ => destruct H as [H|H]
    | H : _ /\ _ |- _ => destruct H as [? H]
    end; subst; cbn [In]; tauto.
Qed.
Lemma history_spawned_inv tid t d evs tid' d' l r :
  history tid t d evs -> In (ESpawned tid' d' l r) evs ->
  tid' = tid /\ d' = d /\ l = t_local t /\ r = t_remote t.
Proof.
  unfold history. destruct (t_state t) as [| | | | | | | |[]]; intros H I;
    repeat match goal with
    | H : exists _, _ |- _ => destruct H as [? H]
    | H : _ \/ exists _, _ |- _ => destruct H as [H|H]
    | H : _ /\ _ |- _ => destruct H as [? H]
    end; subst; in_list I; injection I; auto.
Qed.

(** *** prefixes of legal stories *)
Lemma history_legal tid t d n evs : t_data t = truncated n d -> history tid t d evs ->
  exists rest, legal_story tid d (t_local t) (t_remote t) (t_skip t) n (rev evs ++ rest)
    /\ (rest = [] <-> exists r, t_state t = TEnded r).
Proof.
  intros D H. unfold history, valid in H. rewrite D in H.
  assert (N : forall (e : event) l, (e :: l = [] <-> exists r, t_state t = TEnded r)
              <-> ~ exists r, t_state t = TEnded r).
  { intros e l. split; [intros [A B] X; apply B in X; discriminate|]. intros X. split; [discriminate|].
    intros Y. destruct (X Y). }
  assert (NE : forall l : list event, (exists r, t_state t = TEnded r) ->
               ([] = l <-> exists r, t_state t = TEnded r) -> l = []).
  { intros l X [A B]. symmetry. apply B, X. }
  destruct (t_state t) as [|secret|p|p|p|p|p|p|r] eqn:Hst.
  - subst. eexists. split; [cbn [rev app]; apply ls_aborted|]. apply N. intros [r E]. discriminate.
  - destruct H as [S ->]. cbn [rev app].
    assert (Q : exists e, legal_story tid d (t_local t) (t_remote t) (t_skip t) n
      [ESpawned tid d (t_local t) (t_remote t); EFetched tid (t_remote t) (FOk secret); EEnded tid e]).
    { assert (X : (t_skip t = false -> request_authentic (truncated n d) secret)
                  \/ t_skip t = false /\ ~ request_authentic (truncated n d) secret).
      { destruct (t_skip t); [left; discriminate|].
        destruct (authentic_request_cases (truncated n d) secret) as [(_ & A)|(_ & A)]; auto. }
      destruct X as [A|(K & A)]; [|exists NotAuthentic; apply ls_not_authentic; auto].
      destruct (decode_cases (truncated n d) secret) as [[p E]|[e E]].
      - exists DuplicateRequest. apply (ls_duplicate _ _ _ _ _ _ secret p). split; [exact S|split; [exact E|exact A]].
      - exists NotDecodable. eapply ls_not_decodable; eauto. }
    destruct Q as [e Q]. exists [EEnded tid e]. split; [exact Q|]. apply N. intros [r E]. discriminate.
  - destruct H as (secret & V & ->). eexists. split; [cbn [rev app]; eapply ls_duplicate; exact V|].
    apply N. intros [r E]. discriminate.
  - destruct H as (secret & V & ->). eexists. split; [cbn [rev app]; eapply ls_duplicate; exact V|].
    apply N. intros [r E]. discriminate.
  - destruct H as (secret & V & ->). eexists. split; [cbn [rev app]; eapply ls_duplicate; exact V|].
    apply N. intros [r E]. discriminate.
  - destruct H as (secret & V & ->). eexists. split; [cbn [rev app]; eapply ls_handler_panic; exact V|].
    apply N. intros [r E]. discriminate.
  - destruct H as (secret & o & V & O & ->). eexists.
    split; [cbn [rev app]; eapply ls_completed; [exact V|exact O]|]. apply N. intros [r E]. discriminate.
  - destruct H as (secret & o & V & O & ->). eexists.
    split; [cbn [rev app]; eapply ls_completed; [exact V|exact O]|]. apply N. intros [r E]. discriminate.
  - exists []. split; [|split; eauto]. rewrite app_nil_r. destruct r.
    + subst. apply ls_no_secret.
    + subst. apply ls_empty_secret.
    + destruct H as (secret & S & K & A & ->). apply ls_not_authentic; auto.
    + destruct H as (secret & e & S & K & A & ->). eapply ls_not_decodable; eauto.
    + destruct H as (secret & p & V & ->). eapply ls_duplicate; eauto.
    + destruct H as (secret & p & o & V & O & ->). eapply ls_completed; eauto.
    + destruct H as [->|(secret & p & V & ->)]; [apply ls_provider_panic|eapply ls_handler_panic; eauto].
    + destruct H as [->|(secret & p & V & ->)]; [apply ls_aborted|eapply ls_handler_aborted; eauto].
Qed.

Lemma reachable_history ops s : reachable ops s ->
  forall tid t, nth_error (sv_tasks s) tid = Some t ->
  exists d n, taken ops tid d (t_local t) (t_remote t) (t_skip t) n /\ t_data t = truncated n d
    /\ history tid t d (events_of tid (sv_log s)).
Proof.
  intros R tid t Ht. destruct (reachable_tasks _ _ R _ _ Ht) as (d & n & T & D & L).
  exists d, n. split; [exact T|]. split; [exact D|].
  destruct (inv_log _ (reachable_inv _ _ R) _ _ Ht) as [d' H].
  apply (in_events_of tid) in L; [|reflexivity].
  destruct (history_spawned_inv _ _ _ _ _ _ _ _ H L) as (_ & -> & _ & _). exact H.
Qed.

(** *** handlers *)
Lemma invoked_task ops s tid r : reachable ops s -> In (EInvoked tid r) (sv_log s) ->
  exists t secret p d n, nth_error (sv_tasks s) tid = Some t
    /\ taken ops tid d (t_local t) (t_remote t) (t_skip t) n
    /\ r = Request (t_local t) (t_remote t) p
    /\ valid_request (t_skip t) (truncated n d) secret p
    /\ In (EFetched tid (t_remote t) (FOk secret)) (sv_log s)
    /\ (t_state t = THandling p
        \/ ((t_state t = TWantRemove p \/ t_state t = TRemove p) /\
            exists o, In (EReturned tid o) (sv_log s))
        \/ (t_state t = TEnded Completed /\ exists o, In (EReturned tid o) (sv_log s))
        \/ (t_state t = TEnded Panicked /\ In (EReturned tid HPanic) (sv_log s)
            /\ claim s tid = Some (key_of (t_remote t) p))
        \/ (t_state t = TEnded Aborted /\ In (EAborted tid) (sv_log s)
            /\ claim s tid = Some (key_of (t_remote t) p))).
Proof.
  intros R H. pose proof (reachable_inv _ _ R) as I.
  destruct (event_task s _ I H) as (t & d0 & Ht & _ & L). cbn [event_tid] in *.
  destruct (reachable_history _ _ R _ _ Ht) as (d & n & T & D & Hd).
  assert (LL : forall e, event_tid e = tid -> In e (events_of tid (sv_log s)) -> In e (sv_log s)).
  { intros e E. apply in_events_of, E. }
  assert (C : claim s tid = claim_of t (events_of tid (sv_log s))) by (unfold claim; rewrite Ht; reflexivity).
  unfold history, valid in Hd. rewrite D in Hd. unfold claim_of in C.
  destruct (t_state t) as [|secret|p|p|p|p|p|p|rs] eqn:Hst; [| | | | | | | |destruct rs];
    cbv beta iota zeta in Hd;
    repeat match goal with
    | H : exists _, _ |- _ => destruct H as [? H]
    | H : _ \/ exists _, _ |- _ => destruct H as [H|H]
    | H : (_ = [_; _; _]) \/ _ |- _ => destruct H as [H|H]
    | H : _ /\ _ |- _ => destruct H as [? H]
    end;
    match goal with H : events_of _ _ = _ |- _ => rewrite H in L, LL; try rewrite H in C end;
    in_list L; injection L as <-; cbn [invoked] in C.
  all: match goal with V : valid_request _ _ ?secret ?p |- _ =>
         exists t, secret, p, d, n end.
  all: split; [exact Ht|]; split; [exact T|]; split; [reflexivity|]; split; [assumption|].
  all: split; [apply LL; [reflexivity|cbn [In]; tauto]|].
  - left. assumption.
  - right. left. split; [tauto|]. eexists. apply LL; [|left; reflexivity]. reflexivity.
  - right. left. split; [tauto|]. eexists. apply LL; [|left; reflexivity]. reflexivity.
  - right. right. left. split; [assumption|]. eexists. apply LL; [|right; left; reflexivity]. reflexivity.
  - right. right. right. left. split; [assumption|]. split; [apply LL; [|right; left]; reflexivity|].
    exact C.
  - right. right. right. right. split; [assumption|]. split; [apply LL; [|right; left]; reflexivity|].
    exact C.
Qed.
