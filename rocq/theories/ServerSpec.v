(** * Independent specifications of the server properties (C35-C43, C54, C55)

    Everything is said about schedules (lists of steps) and about the events they cause: a
    datagram was taken from the socket, the secret provider was asked, the request handler was
    called, it returned, its future was dropped, the processing of a datagram ended. *)
From Coq Require Import String List NArith Bool Arith Strings.Byte.
From Verif Require Import Prelude Packet Addr Server Spec.
Import ListNotations.
Local Open Scope N_scope.

(** The states a server can get into. *)
Definition reachable (ops : list op) (s : server) : Prop := exec_all server_listen ops = Some s.

(** The handler was called for datagram [tid] with request [r] and has neither returned, nor
    panicked, nor been dropped. *)
Definition in_handler (s : server) (tid : nat) (r : request) : Prop :=
  In (EInvoked tid r) (sv_log s)
  /\ (forall o, ~ In (EReturned tid o) (sv_log s)) /\ ~ In (EAborted tid) (sv_log s).

(** Requests with the same remote address and identifier. *)
Definition same_client_and_id (a b : request) : Prop :=
  rq_remote_addr a = rq_remote_addr b
  /\ p_identifier (rq_packet a) = p_identifier (rq_packet b).
(** The same, as the server compares them: by the text of the address. *)
Definition same_key (a b : request) : Prop :=
  socket_addr_to_string (rq_remote_addr a) = socket_addr_to_string (rq_remote_addr b)
  /\ p_identifier (rq_packet a) = p_identifier (rq_packet b).

(** The settings in force after a schedule. *)
Definition skip_setting (ops : list op) : bool :=
  fold_left (fun b o => match o with OSetSkip b' => b' | _ => b end) ops false.
Definition buffer_setting (ops : list op) : N :=
  fold_left (fun n o => match o with OSetBufferSize n' => n' | _ => n end) ops 1500.

(** The number of datagrams handed to tasks by a schedule; datagrams are numbered from 0. *)
Definition accepted (ops : list op) : nat :=
  List.length (filter (fun o => match o with ORecv _ _ (Some _) => true | _ => false end) ops).
(** Datagram number [tid] of the schedule, and the settings when it was taken. *)
Definition taken (ops : list op) (tid : nat) (datagram : bytes) (local remote : socket_addr)
  (skip : bool) (buffer_size : N) : Prop :=
  exists before after, ops = before ++ ORecv datagram remote (Some local) :: after
    /\ accepted before = tid /\ skip = skip_setting before /\ buffer_size = buffer_setting before.

(** What reaches the server of a datagram. *)
Definition truncated (n : N) (datagram : bytes) : bytes := firstn (N.to_nat n) datagram.

(** A request that must be passed to the handler: [p] is the packet in [data], [data] is
    authentic unless that is not required, and the secret is not empty. *)
Definition valid_request (skip : bool) (data secret : bytes) (p : packet) : Prop :=
  secret <> [] /\ packet_decode data secret = Ok p
  /\ (skip = false -> request_authentic data secret).

(** The events of one datagram, oldest first. *)
Definition event_tid (e : event) : nat :=
  match e with
  | ESpawned t _ _ _ | EFetched t _ _ | EInvoked t _ | EReturned t _ | EAborted t | EEnded t _ => t
  end.
Definition events_of (tid : nat) (log : list event) : list event :=
  filter (fun e => Nat.eqb (event_tid e) tid) log.
Definition story (s : server) (tid : nat) : list event := rev (events_of tid (sv_log s)).

(** All the complete stories a datagram may have. *)
Inductive legal_story (tid : nat) (d : bytes) (local remote : socket_addr) (skip : bool) (n : N)
  : list event -> Prop :=
| ls_aborted :
    legal_story tid d local remote skip n
      [ESpawned tid d local remote; EAborted tid; EEnded tid Aborted]
| ls_no_secret :
    legal_story tid d local remote skip n
      [ESpawned tid d local remote; EFetched tid remote FErr; EEnded tid SecretUnavailable]
| ls_provider_panic :
    legal_story tid d local remote skip n
      [ESpawned tid d local remote; EFetched tid remote FPanic; EEnded tid Panicked]
| ls_empty_secret :
    legal_story tid d local remote skip n
      [ESpawned tid d local remote; EFetched tid remote (FOk []); EEnded tid SecretEmpty]
| ls_not_authentic secret :
    secret <> [] -> skip = false -> ~ request_authentic (truncated n d) secret ->
    legal_story tid d local remote skip n
      [ESpawned tid d local remote; EFetched tid remote (FOk secret); EEnded tid NotAuthentic]
| ls_not_decodable secret e :
    secret <> [] -> (skip = false -> request_authentic (truncated n d) secret) ->
    packet_decode (truncated n d) secret = Err e ->
    legal_story tid d local remote skip n
      [ESpawned tid d local remote; EFetched tid remote (FOk secret); EEnded tid NotDecodable]
| ls_duplicate secret p :
    valid_request skip (truncated n d) secret p ->
    legal_story tid d local remote skip n
      [ESpawned tid d local remote; EFetched tid remote (FOk secret); EEnded tid DuplicateRequest]
| ls_completed secret p o :
    valid_request skip (truncated n d) secret p -> o = HOk \/ o = HErr ->
    legal_story tid d local remote skip n
      [ESpawned tid d local remote; EFetched tid remote (FOk secret);
       EInvoked tid (Request local remote p); EReturned tid o; EEnded tid Completed]
| ls_handler_panic secret p :
    valid_request skip (truncated n d) secret p ->
    legal_story tid d local remote skip n
      [ESpawned tid d local remote; EFetched tid remote (FOk secret);
       EInvoked tid (Request local remote p); EReturned tid HPanic; EEnded tid Panicked]
| ls_handler_aborted secret p :
    valid_request skip (truncated n d) secret p ->
    legal_story tid d local remote skip n
      [ESpawned tid d local remote; EFetched tid remote (FOk secret);
       EInvoked tid (Request local remote p); EAborted tid; EEnded tid Aborted].

(** Processing of a datagram has not ended. *)
Definition unfinished (s : server) (tid : nat) : Prop :=
  (exists d local remote, In (ESpawned tid d local remote) (sv_log s))
  /\ forall r, ~ In (EEnded tid r) (sv_log s).
Definition quiescent (s : server) : Prop := forall tid, ~ unfinished s tid.

(** No handler panicked or was dropped half-way. *)
Definition handlers_return (s : server) : Prop :=
  forall tid r, In (EInvoked tid r) (sv_log s) ->
    ~ In (EReturned tid HPanic) (sv_log s) /\ ~ In (EAborted tid) (sv_log s).

(** Steps of tasks: those that need no new datagram and no decision of the owner. *)
Definition task_op (o : op) : bool :=
  match o with
  | OFetch _ _ | OValidate _ | OLock _ | OCheck _ | OInvoke _ | OReturn _ _ | ORemove _ => true
  | _ => false
  end.
(** Steps that depend on nobody else: neither the provider, the handler, the runtime, the network
    nor the owner. *)
Definition internal_op (o : op) : bool :=
  match o with OValidate _ | OLock _ | OCheck _ | OInvoke _ | ORemove _ => true | _ => false end.
