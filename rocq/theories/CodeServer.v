(** * The functions of server.rs, run *)
From Coq Require Import String List NArith ZArith Bool Arith Strings.Byte Strings.Ascii Lia ZifyBool ZifyNat ZifyN.
From Verif Require Import Prelude PreludeFacts Md5 Utf8 Utf8Facts Tag Code Avp AvpFacts Attributes Vsa Packet Addr Display Server Client Openssl OpensslFacts PropOpenssl Rust RustEval CodeRun CodeHash RustFacts CodeTactics CodeBase CodeAttributes CodePacket CodeNet AuthFacts.
Import ListNotations.
Local Open Scope string_scope.
Local Open Scope N_scope.
Local Open Scope list_scope.

(** ** The values *)
Definition v_key (k : request_key) : value :=
  VStruct "RequestKey" [("ip", v_text (rk_ip k)); ("identifier", vu8 (rk_identifier k))].
Definition v_server (skip : bool) (buf_size : N) : value :=
  VStruct "Server" [("skip_authenticity_validation", VBool skip); ("buf_size", v_usize buf_size);
    ("conn_arc", VExt "conn"); ("request_handler_arc", VExt "handler"); ("secret_provider_arc", VExt "provider");
    ("undergoing_requests_lock_arc", VExt "lock"); ("_phantom_return_type", VInt Lit 0); ("_phantom_error_type", VInt Lit 0)].
(** the arguments of [process_request] *)
Definition task_args (data : bytes) (local remote : socket_addr) (skip : bool) : list value :=
  [VExt "conn"; VBytes data; v_addr local; v_addr remote; VExt "lock"; VExt "handler"; VExt "provider"; VBool skip].

(** ** The surroundings of one task: the answers it gets, as far as they come *)
Record surroundings := Surroundings {
  a_fetch : option (bytes + value);        (* the secret, or an error of the provider *)
  a_lock : bool;                           (* the lock is obtained the first time … *)
  a_contains : option bool;
  a_insert : option bool;
  a_handle : option (value + value);       (* the handler returns [Ok] or [Err] *)
  a_print : bool;
  a_relock : bool;                         (* … and the second time *)
  a_remove : option bool }.
Definition fetch_reply q :=
  match a_fetch q with Some (inl secret) => Some (vok (VBytes secret)) | Some (inr e) => Some (verr e) | None => None end.
Definition guard_reply (b : bool) : option value := if b then Some (vok (VExt "set")) else None.
Definition handle_reply q :=
  match a_handle q with Some (inl x) => Some (vok x) | Some (inr e) => Some (verr e) | None => None end.
Definition print_reply q : option value := if a_print q then Some VUnit else None.
Definition bool_reply (o : option bool) : option value := match o with Some b => Some (VBool b) | None => None end.
Fixpoint handled (tr : list event) : bool :=
  match tr with [] => false | e :: tr' => if String.eqb (ev_op e) "handler.handle_radius_request" then true else handled tr' end.
Definition surroundings_of (q : surroundings) (tr : list event) (op : string) (_ : list value) : option value :=
  if String.eqb op "provider.fetch_secret" then fetch_reply q
  else if String.eqb op "lock.write" then guard_reply (if handled tr then a_relock q else a_lock q)
  else if String.eqb op "set.contains" then bool_reply (a_contains q)
  else if String.eqb op "set.insert" then bool_reply (a_insert q)
  else if String.eqb op "handler.handle_radius_request" then handle_reply q
  else if String.eqb op "println!" then print_reply q
  else if String.eqb op "set.remove" then bool_reply (a_remove q)
  else None.

(** ** What the text does with these answers *)
Definition unlocked : event := Event "unlock" [] (Some VUnit).
Definition text_remove (remote : socket_addr) (p : packet) (q : surroundings) ps k tr : rout :=
  let tr := Event "lock.write" [] (guard_reply (a_relock q)) :: tr in
  if a_relock q then
    let tr := Event "set.remove" [v_key (key_of remote p)] (bool_reply (a_remove q)) :: tr in
    match a_remove q with
    | None => RWait (World k tr)
    | Some _ => RVal VUnit ps (World k (unlocked :: tr))
    end
  else RWait (World k tr).
Definition text_handle (local remote : socket_addr) (p : packet) (q : surroundings) ps k tr : rout :=
  let tr := Event "handler.handle_radius_request" [VExt "conn"; v_request (Request local remote p)] (handle_reply q) :: tr in
  match a_handle q with
  | None => RWait (World k tr)
  | Some (inl _) => text_remove remote p q ps k tr
  | Some (inr _) =>
      let tr := Event "println!" [v_text "{e:?}"] (print_reply q) :: tr in
      if a_print q then text_remove remote p q ps k tr else RWait (World k tr)
  end.
Definition text_insert (local remote : socket_addr) (p : packet) (q : surroundings) ps k tr : rout :=
  let tr := Event "lock.write" [] (guard_reply (a_lock q)) :: tr in
  if a_lock q then
    let key := v_key (key_of remote p) in
    let tr := Event "set.contains" [key] (bool_reply (a_contains q)) :: tr in
    match a_contains q with
    | None => RWait (World k tr)
    | Some true => RVal VUnit ps (World k (unlocked :: tr))
    | Some false =>
        let tr := Event "set.insert" [key] (bool_reply (a_insert q)) :: tr in
        match a_insert q with
        | None => RWait (World k tr)
        | Some _ => text_handle local remote p q ps k (unlocked :: tr)
        end
    end
  else RWait (World k tr).
Definition text_decode (data secret : bytes) (local remote : socket_addr) (q : surroundings) ps k tr : rout :=
  match packet_decode data secret with
  | Ok p => text_insert local remote p q ps k tr
  | Err _ => RVal VUnit ps (World k tr)
  | Panic => RPanic
  | OutOfFuel => RNoFuel
  end.
Definition text_process (data : bytes) (local remote : socket_addr) (skip : bool) (q : surroundings) ps k : rout :=
  let tr := [Event "provider.fetch_secret" [v_addr remote] (fetch_reply q)] in
  match a_fetch q with
  | None => RWait (World k tr)
  | Some (inr _) => RVal VUnit ps (World k tr)
  | Some (inl secret) =>
      if len secret =? 0 then RVal VUnit ps (World k tr)
      else if skip then text_decode data secret local remote q ps k tr
      else match packet_is_authentic_request data secret with
           | Ok true => text_decode data secret local remote q ps k tr
           | Ok false => RVal VUnit ps (World k tr)
           | Panic => RPanic
           | _ => RNoFuel
           end
  end.

(** ** Running it *)
Ltac replied :=
  lazymatch goal with
  | |- context [surroundings_of ?q ?tr ?op ?a] =>
      let x := eval lazy beta iota delta [surroundings_of String.eqb Ascii.eqb Bool.eqb handled ev_op fetch_reply guard_reply handle_reply
                 print_reply bool_reply] in (surroundings_of q tr op a) in
      change (surroundings_of q tr op a) with x
  end.
Ltac net_step :=
  lazymatch goal with
  | |- context [surroundings_of _ _ _ _] => replied
  | |- context [after_call (match packet_is_authentic_request ?d ?s with _ => _ end) _] =>
      let H := fresh in let b := fresh "b" in destruct (is_authentic_request_total d s) as (b & H & _); rewrite H; destruct b; cbv beta iota
  | _ => step
  end.
Ltac net_steps := repeat net_step.
Definition process_request_rest : list stmt :=
  Eval vm_compute in
    match lookup_fn crate_md5 "Server" "process_request" with
    | Some f => match f_body f with EBlock (_ :: _ :: _ :: ss) None => ss | _ => [] end
    | None => []
    end.
Definition process_request_vars (data : bytes) (local remote : value) (skip : bool) : list (string * value) :=
  [("skip_authenticity_validation", VBool skip); ("secret_provider", VExt "provider"); ("request_handler", VExt "handler");
   ("undergoing_requests_lock", VExt "lock"); ("remote_addr", remote); ("local_addr", local); ("request_data", VBytes data); ("conn", VExt "conn")].
Section Code.
Context (pr : profile) (rng : nat -> byte) (he : bytes -> option string) (q : surroundings).
Notation C f := (Cx pr (crate_program f) rng he (surroundings_of q)).
Definition raw_packet_decode := ltac:(raw (run_packet_decode pr rng he (surroundings_of q))).
Definition raw_get_identifier := ltac:(let T := type of (run_packet_get_identifier pr rng he (surroundings_of q)) in
  let T' := eval cbv beta iota delta [v_packet v_code v_attributes v_avps vu8 v_bytes packet_get_identifier] in T in
  exact (run_packet_get_identifier pr rng he (surroundings_of q) : T')).
Definition raw_is_authentic_request := ltac:(let T := type of (is_authentic_request_any pr rng he (surroundings_of q)) in
  let T' := eval cbv beta iota delta [v_verdict] in T in
  exact (is_authentic_request_any pr rng he (surroundings_of q) : T')).
Definition raw_request_new := ltac:(let T := type of (run_request_new pr rng he (surroundings_of q)) in
  let T' := eval cbv beta iota delta [v_packet v_code v_attributes v_avps vu8 v_bytes v_addr] in T in
  exact (run_request_new pr rng he (surroundings_of q) : T')).
#[local] Hint Rewrite raw_packet_decode raw_get_identifier raw_is_authentic_request raw_request_new using (lia || assumption) : code.
Lemma run_process_request_rest f n data local remote skip secret an w0 k :
  hashes he f -> len data < 9223372036854775808 -> (length data + 4 <= n)%nat ->
  finish (crate_program f) 8 None
    (pop_out (State (process_request_vars data (v_addr local) (v_addr remote) skip) w0)
       (eval_stmts (eval (C f) n "Server" (run (C f) n)) (crate_program f) None
          (State (("secret", VBytes secret) :: process_request_vars data (v_addr local) (v_addr remote) skip)
             (World k [Event "provider.fetch_secret" [v_addr remote] an]))
          process_request_rest))
  = text_decode data secret local remote q (task_args data local remote skip) k
      [Event "provider.fetch_secret" [v_addr remote] an].
Proof.
  unfold text_decode, text_insert, text_handle, text_remove, guard_reply, bool_reply, handle_reply, print_reply, task_args.
  cbv beta iota delta [process_request_rest process_request_vars].
  intros; unfold v_packet, v_code, v_attributes, v_avps, v_addr, v_key, v_request, bind, map_err; cbn [key_of rk_ip rk_identifier].
  match goal with f : feature |- _ => destruct f end; net_steps.
  all: reflexivity.
Qed.
Ltac until_rest :=
  lazymatch goal with
  | |- finish _ _ _ (pop_out _ (eval_stmts _ _ _ (State _ _) (SLet (PVar "packet") _ _ :: _))) = _ => fail
  | _ => net_step
  end.
Lemma run_process_request f n data local remote skip k :
  hashes he f -> len data < 9223372036854775808 -> (length data + 5 <= n)%nat ->
  run (C f) n "Server" "process_request" (task_args data local remote skip) (World k [])
  = text_process data local remote skip q (task_args data local remote skip) k.
Proof.
  intros Hh Hd.
  unfold text_process, fetch_reply.
  destruct skip; unfold task_args, v_addr; start; repeat until_rest.
  all: try reflexivity.
  all: try match goal with
       | |- context [("secret", VBytes ?x) :: _] =>
         refine (eq_trans (run_process_request_rest _ n data local remote _ x _ _ k Hh Hd _) _); [lia|]
       end.
  all: reflexivity.
Qed.
End Code.
