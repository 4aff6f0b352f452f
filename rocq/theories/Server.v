(** * radius/src/server.rs and radius/src/core/request.rs

    The server is modelled as a state machine. A step is one indivisible action of the receive
    loop, of a spawned task, of the caller or of the environment; a schedule is a list of steps.
    Tasks only interact through the in-flight set, and every access to it happens while the write
    lock is held, so the steps of one task between two accesses to the lock can be merged without
    losing behaviours; they are kept apart here wherever the environment (secret provider,
    request handler, runtime) takes part.

    Not modelled: [conn] as passed to the handler (what the handler sends is up to it), log
    output, allocation failure, poisoning of the lock (nothing panics while it is held), the
    scheduler of tokio (any order is possible here). *)
From Coq Require Import String List NArith Bool Arith Strings.Byte.
From Verif Require Import Prelude Avp Packet Addr.
Import ListNotations.
Local Open Scope N_scope.

(** request.rs:6-10 *)
Record request := Request {
  rq_local_addr : socket_addr; rq_remote_addr : socket_addr; rq_packet : packet }.

(** server.rs:262-266 *)
Record request_key := RequestKey { rk_ip : string; rk_identifier : byte }.
(** server.rs:262 [derive(PartialEq, Eq)] *)
Definition request_key_eqb (a b : request_key) : bool :=
  String.eqb (rk_ip a) (rk_ip b) && Byte.eqb (rk_identifier a) (rk_identifier b).

(** server.rs:19-20 *)
Definition DEFAULT_BUFFER_SIZE : N := 1500.
Definition DEFAULT_SKIP_AUTHENTICITY_VALIDATION : bool := false.

(** [HashSet<RequestKey>], as a list *)
Definition set_contains (s : list request_key) (k : request_key) : bool :=
  existsb (request_key_eqb k) s.
Definition set_insert (s : list request_key) (k : request_key) : list request_key :=
  if set_contains s k then s else k :: s.
Definition set_remove (s : list request_key) (k : request_key) : list request_key :=
  filter (fun k' => negb (request_key_eqb k k')) s.

(** Why a task ended without calling the handler, or with which outcome of it. *)
Inductive end_reason :=
| SecretUnavailable      (* server.rs:168-177 *)
| SecretEmpty            (* server.rs:178-181 *)
| NotAuthentic           (* server.rs:183-186 *)
| NotDecodable           (* server.rs:188-199 *)
| DuplicateRequest       (* server.rs:209-211 *)
| Completed              (* server.rs:228-229 *)
| Panicked | Aborted.

(** What the request handler does in the end; [HPanic]: it panics, or the [Debug] of its error or
    [println!] do *)
Inductive handler_outcome := HOk | HErr | HPanic.
(** What [SecretProvider::fetch_secret] does *)
Inductive fetch_outcome := FOk (secret : bytes) | FErr | FPanic.

(** How far [process_request] has got. *)
Inductive task_state :=
| TReceived                            (* spawned: server.rs:141 *)
| TFetched (secret : bytes)            (* secret obtained: server.rs:178 *)
| TWantInsert (p : packet)             (* waiting for the lock: server.rs:208 *)
| TCheck (p : packet)                  (* lock held: server.rs:209 *)
| TInserted (p : packet)               (* lock held, key inserted: server.rs:212-213 *)
| THandling (p : packet)               (* inside the handler: server.rs:215-220 *)
| TWantRemove (p : packet)             (* waiting for the lock: server.rs:228 *)
| TRemove (p : packet)                 (* lock held: server.rs:229 *)
| TEnded (r : end_reason).

Record task := Task {
  t_data : bytes; t_local : socket_addr; t_remote : socket_addr; t_skip : bool;
  t_state : task_state }.
Definition with_state (t : task) (st : task_state) : task :=
  Task (t_data t) (t_local t) (t_remote t) (t_skip t) st.

(** What happens to the outside world, newest first. *)
Inductive event :=
| ESpawned (tid : nat) (datagram : bytes) (local remote : socket_addr)
| EFetched (tid : nat) (asked_for : socket_addr) (o : fetch_outcome)
| EInvoked (tid : nat) (r : request)
| EReturned (tid : nat) (o : handler_outcome)
| EAborted (tid : nat)
| EEnded (tid : nat) (r : end_reason).

(** server.rs:26-35; [sv_run] is the receive buffer of the [run_loop] that is running, if any;
    [sv_tasks] are the spawned tasks, [sv_lock] the holder of the write lock *)
Record server := Server {
  sv_skip : bool; sv_buf_size : N; sv_run : option bytes;
  sv_tasks : list task; sv_undergoing : list request_key; sv_lock : option nat;
  sv_log : list event }.

(** server.rs:57-81 *)
Definition server_listen : server :=
  Server DEFAULT_SKIP_AUTHENTICITY_VALIDATION DEFAULT_BUFFER_SIZE None [] [] None [].

(** server.rs:201-204 *)
Definition key_of (remote : socket_addr) (p : packet) : request_key :=
  RequestKey (socket_addr_to_string remote) (p_identifier p).

Inductive op :=
(* the owner of the [Server] *)
| OSetBufferSize (n : N)
| OSetSkip (b : bool)
| ORun
| OShutdown                                              (* the trigger completes, or the future of [run] is dropped *)
(* the socket *)
| ORecv (datagram : bytes) (remote : socket_addr) (local : option socket_addr)
| ORecvError
(* the tasks and what they call *)
| OFetch (tid : nat) (o : fetch_outcome)
| OValidate (tid : nat)
| OLock (tid : nat)
| OCheck (tid : nat)
| OInvoke (tid : nat)
| OReturn (tid : nat) (o : handler_outcome)
| ORemove (tid : nat)
(* the runtime drops the future of a task *)
| OAbort (tid : nat).

Fixpoint set_nth {A} (l : list A) (n : nat) (x : A) : list A :=
  match l, n with
  | [], _ => []
  | _ :: l', O => x :: l'
  | y :: l', S n' => y :: set_nth l' n' x
  end.

(** One task moves; [evs] are appended to the log. *)
Definition move (s : server) (tid : nat) (t : task) (st : task_state)
  (keys : list request_key) (lock : option nat) (evs : list event) : server :=
  Server (sv_skip s) (sv_buf_size s) (sv_run s) (set_nth (sv_tasks s) tid (with_state t st))
    keys lock (evs ++ sv_log s).
Definition move_end (s : server) (tid : nat) (t : task) (r : end_reason)
  (keys : list request_key) (lock : option nat) (evs : list event) : server :=
  move s tid t (TEnded r) keys lock (EEnded tid r :: evs).

(** server.rs:115-155: one iteration of the loop. [recv_from] writes at most [buf.len()] bytes of
    the datagram to the start of [buf] and discards the rest; [size] is the number written. *)
Definition recv_into (buf datagram : bytes) : bytes * N :=
  let size := N.min (len buf) (len datagram) in
  (firstn (N.to_nat size) datagram ++ skipn (N.to_nat size) buf, size).

Definition exec_recv (s : server) (buf datagram : bytes) (remote : socket_addr)
  (local : option socket_addr) : server :=
  let '(buf, size) := recv_into buf datagram in
  let request_data := firstn (N.to_nat size) buf in
  match local with
  | None =>  (* server.rs:127-136: [continue] *)
      Server (sv_skip s) (sv_buf_size s) (Some buf) (sv_tasks s) (sv_undergoing s) (sv_lock s)
        (sv_log s)
  | Some local =>
      Server (sv_skip s) (sv_buf_size s) (Some buf)
        (sv_tasks s ++ [Task request_data local remote (sv_skip s) TReceived])
        (sv_undergoing s) (sv_lock s)
        (ESpawned (List.length (sv_tasks s)) datagram local remote :: sv_log s)
  end.

(** server.rs:158-230: one step of a task *)
Definition exec_task (s : server) (o : op) (tid : nat) : option server :=
  match nth_error (sv_tasks s) tid with
  | None => None
  | Some t =>
      let keys := sv_undergoing s in
      let lock := sv_lock s in
      match o, t_state t with
      | OFetch _ f, TReceived =>
          let ev := [EFetched tid (t_remote t) f] in
          Some match f with
               | FErr => move_end s tid t SecretUnavailable keys lock ev
               | FPanic => move_end s tid t Panicked keys lock ev
               | FOk secret =>
                   if len secret =? 0 then move_end s tid t SecretEmpty keys lock ev
                   else move s tid t (TFetched secret) keys lock ev
               end
      | OValidate _, TFetched secret =>
          let decode :=
            match packet_decode (t_data t) secret with
            | Ok p => move s tid t (TWantInsert p) keys lock []
            | Err _ => move_end s tid t NotDecodable keys lock []
            | _ => move_end s tid t Panicked keys lock []
            end in
          Some (if t_skip t then decode
                else match packet_is_authentic_request (t_data t) secret with
                     | Ok true => decode
                     | Ok false => move_end s tid t NotAuthentic keys lock []
                     | _ => move_end s tid t Panicked keys lock []
                     end)
      | OLock _, TWantInsert p =>
          match lock with
          | Some _ => None
          | None => Some (move s tid t (TCheck p) keys (Some tid) [])
          end
      | OCheck _, TCheck p =>
          let key := key_of (t_remote t) p in
          Some (if set_contains keys key then move_end s tid t DuplicateRequest keys None []
                else move s tid t (TInserted p) (set_insert keys key) lock [])
      | OInvoke _, TInserted p =>
          Some (move s tid t (THandling p) keys None
                  [EInvoked tid (Request (t_local t) (t_remote t) p)])
      | OReturn _ h, THandling p =>
          let ev := [EReturned tid h] in
          Some match h with
               | HOk | HErr => move s tid t (TWantRemove p) keys lock ev
               | HPanic => move_end s tid t Panicked keys lock ev
               end
      | OLock _, TWantRemove p =>
          match lock with
          | Some _ => None
          | None => Some (move s tid t (TRemove p) keys (Some tid) [])
          end
      | ORemove _, TRemove p =>
          Some (move_end s tid t Completed (set_remove keys (key_of (t_remote t) p)) None [])
      | OAbort _, TReceived => Some (move_end s tid t Aborted keys lock [EAborted tid])
      | OAbort _, THandling p => Some (move_end s tid t Aborted keys lock [EAborted tid])
      | _, _ => None
      end
  end.

(** [None]: the step is not possible. [run(&mut self)] borrows the server, so the setters can
    only be called while it is not running (server.rs:88, 101, 106). *)
Definition exec (s : server) (o : op) : option server :=
  match o with
  | OSetBufferSize n =>
      match sv_run s with
      | None => Some (Server (sv_skip s) n None (sv_tasks s) (sv_undergoing s) (sv_lock s) (sv_log s))
      | Some _ => None
      end
  | OSetSkip b =>
      match sv_run s with
      | None => Some (Server b (sv_buf_size s) None (sv_tasks s) (sv_undergoing s) (sv_lock s) (sv_log s))
      | Some _ => None
      end
  | ORun =>  (* server.rs:88-98, 116 *)
      match sv_run s with
      | None => Some (Server (sv_skip s) (sv_buf_size s) (Some (zeros (N.to_nat (sv_buf_size s))))
                        (sv_tasks s) (sv_undergoing s) (sv_lock s) (sv_log s))
      | Some _ => None
      end
  | OShutdown | ORecvError =>  (* server.rs:93-96; 123 [?] *)
      match sv_run s with
      | Some _ => Some (Server (sv_skip s) (sv_buf_size s) None (sv_tasks s) (sv_undergoing s)
                          (sv_lock s) (sv_log s))
      | None => None
      end
  | ORecv datagram remote local =>
      match sv_run s with
      | Some buf => Some (exec_recv s buf datagram remote local)
      | None => None
      end
  | OFetch tid _ | OValidate tid | OLock tid | OCheck tid | OInvoke tid | OReturn tid _
  | ORemove tid | OAbort tid => exec_task s o tid
  end.

(** A schedule. *)
Fixpoint exec_all (s : server) (ops : list op) : option server :=
  match ops with
  | [] => Some s
  | o :: ops' => match exec s o with Some s' => exec_all s' ops' | None => None end
  end.
