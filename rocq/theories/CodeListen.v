(** * Opening and running a server: the rest of server.rs, run *)
From Coq Require Import String List NArith ZArith Bool Arith Strings.Byte Strings.Ascii Lia ZifyBool ZifyNat ZifyN.
From Verif Require Import Prelude PreludeFacts Md5 Utf8 Utf8Facts Tag Code Avp AvpFacts Attributes Vsa Packet Addr Display Server Client Openssl OpensslFacts PropOpenssl Rust RustEval CodeRun CodeHash RustFacts CodeTactics CodeBase CodeAttributes CodePacket CodeNet CodeServer.
Import ListNotations.
Local Open Scope string_scope.
Local Open Scope N_scope.
Local Open Scope list_scope.

(** ** What comes in: datagrams with their senders, and what [local_addr] answers after each;
    then an error of the socket or silence; whether the shutdown is asked for; the answers to everything else *)
Record reception := Reception { rc_datagram : bytes; rc_remote : socket_addr; rc_local : io socket_addr }.
Record line := Line { ln_receptions : list reception; ln_broken : option string; ln_stop : bool;
  ln_other : list event -> string -> list value -> option value }.
Fixpoint receptions (tr : list event) : nat :=
  match tr with [] => O | e :: tr' => if String.eqb (ev_op e) "conn.recv_from" then S (receptions tr') else receptions tr' end.
Definition broken_reply (b : option string) : option value :=
  match b with Some e => Some (verr (VError (bytes_of_string e))) | None => None end.
Definition received_reply (r : reception) : value := vok (VTuple [VBytes (rc_datagram r); v_addr (rc_remote r)]).
Definition local_reply (r : reception) : value :=
  match rc_local r with IoOk a => vok (v_addr a) | IoErr e => verr (VError (bytes_of_string e)) end.
Definition line_of (ln : line) (tr : list event) (op : string) (args : list value) : option value :=
  if String.eqb op "conn.recv_from" then
    match nth_error (ln_receptions ln) (receptions tr) with Some r => Some (received_reply r) | None => broken_reply (ln_broken ln) end
  else if String.eqb op "conn.local_addr" then
    match nth_error (ln_receptions ln) (Nat.pred (receptions tr)) with Some r => Some (local_reply r) | None => None end
  else if String.eqb op "shutdown.await" then (if ln_stop ln then Some VUnit else None)
  else ln_other ln tr op args.

(** ** What the text of [run_loop] does with them *)
Definition reception_events (buf_size : N) (skip : bool) (r : reception) : list event :=
  match rc_local r with
  | IoOk a => [Event "spawn process_request" (task_args (firstn (N.to_nat buf_size) (rc_datagram r)) a (rc_remote r) skip) (Some VUnit)]
  | IoErr _ => []
  end ++ [Event "conn.local_addr" [] (Some (local_reply r)); Event "conn.recv_from" [] (Some (received_reply r))].
Fixpoint loop_trace (buf_size : N) (skip : bool) (rs : list reception) (tr : list event) : list event :=
  match rs with [] => tr | r :: rs => loop_trace buf_size skip rs (reception_events buf_size skip r ++ tr) end.
Fixpoint text_loop (buf_size : N) (skip : bool) (rs : list reception) (broken : option string) (ps : list value) k tr : rout :=
  match rs with
  | [] =>
      let tr := Event "conn.recv_from" [] (broken_reply broken) :: tr in
      match broken with Some e => RVal (verr (VError (bytes_of_string e))) ps (World k tr) | None => RWait (World k tr) end
  | r :: rs => text_loop buf_size skip rs broken ps k (reception_events buf_size skip r ++ tr)
  end.

Ltac replied :=
  lazymatch goal with
  | |- context [line_of ?q ?tr ?op ?a] =>
      let x := eval lazy beta iota delta [line_of String.eqb Ascii.eqb Bool.eqb
                 received_reply local_reply broken_reply] in (line_of q tr op a) in
      let x := eval cbn [receptions ev_op String.eqb Ascii.eqb Bool.eqb Nat.pred] in x in
      change (line_of q tr op a) with x
  end.
Ltac decided_call :=
  lazymatch goal with
  | |- ?l = _ => focus l ltac:(fun o => lazymatch o with after_call (match ?x with _ => _ end) _ => scrutinee x | _ => fail end)
  end.
Ltac net_step :=
  lazymatch goal with
  | |- context [line_of _ _ _ _] => replied
  | _ => first [decided_call | step]
  end.
Ltac net_steps := repeat net_step.
Lemma nth_error_here {A} (d : list A) x l n : length d = n -> nth_error (d ++ x :: l) n = Some x.
Proof. intros <-. rewrite nth_error_app2, Nat.sub_diag by lia. reflexivity. Qed.
Lemma nth_error_end {A} (d : list A) n : length d = n -> nth_error (d ++ []) n = None.
Proof. intros <-. rewrite app_nil_r. apply nth_error_None. lia. Qed.
Lemma text_loop_eq buf_size skip rs broken ps k tr :
  text_loop buf_size skip rs broken ps k tr
  = let tr := Event "conn.recv_from" [] (broken_reply broken) :: loop_trace buf_size skip rs tr in
    match broken with Some e => RVal (verr (VError (bytes_of_string e))) ps (World k tr) | None => RWait (World k tr) end.
Proof. revert tr. induction rs as [|r rs IH]; intro tr; [reflexivity|apply IH]. Qed.
Ltac loop_over :=
  match goal with n : nat, ln : line, buf_size : N, tr0 : list event |- context [while_loop ?n0 ?c ?b ?s] =>
    pose (m := n); change (while_loop n0 c b s) with (while_loop m c b s);
    assert (Hm : (length (ln_receptions ln) < m)%nat) by (unfold m; lia);
    assert (Hd : exists d, ln_receptions ln = d ++ ln_receptions ln /\ length d = receptions tr0) by (exists []; now split);
    clearbody m;
    pose (buf := repeat (n2b 0) (N.to_nat buf_size)); change (repeat (n2b 0) (N.to_nat buf_size)) with buf;
    assert (Hb : length buf = N.to_nat buf_size) by apply repeat_length; clearbody buf;
    revert m buf Hm Hd Hb; generalize tr0 as tr;
    generalize (ln_receptions ln) at 1 3 4 as rs;
    let r := fresh "r" in let rs := fresh "rs" in let IH := fresh "IH" in
    intro rs; induction rs as [|r rs IH]; intros tr m buf Hm (d & Ed & Ld) Hb; rewrite while_loop_eq; cbv beta iota;
    (destruct m as [|m]; [cbn [length] in Hm; lia|]); cbn [text_loop]
  end.
#[local] Hint Rewrite recv_into_length recv_into_prefix : vals.
Section Code.
Context (pr : profile) (rng : nat -> byte) (he : bytes -> option string) (ln : line).
Notation C f := (Cx pr (crate_program f) rng he (line_of ln)).
Lemma run_run_loop f n skip buf_size k tr0 : receptions tr0 = O -> (length (ln_receptions ln) + 3 <= n)%nat ->
  run (C f) n "Server" "run_loop" [v_server skip buf_size] (World k tr0)
  = text_loop buf_size skip (ln_receptions ln) (ln_broken ln) [v_server skip buf_size] k tr0.
Proof.
  intro Hr. unfold v_server, v_usize; start; net_steps.
  all: loop_over.
  all: match goal with
       | E : ln_receptions ?ln = ?d ++ ?r :: ?rs, L : length ?d = receptions ?tr |- _ =>
           assert (N : nth_error (ln_receptions ln) (receptions tr) = Some r) by (rewrite E; now apply nth_error_here);
           unfold reception_events, received_reply, local_reply, task_args in *
       | E : ln_receptions ?ln = ?d ++ [], L : length ?d = receptions ?tr |- _ =>
           assert (N : nth_error (ln_receptions ln) (receptions tr) = None) by (rewrite E; now apply nth_error_end);
           unfold broken_reply in *
       end.
  all: net_steps.
  all: try reflexivity.
  all: match goal with
       | Hb : length ?buf = N.to_nat ?z, Hm : (_ < _)%nat, Ed : ln_receptions _ = ?d ++ ?r :: _, Ld : length ?d = _,
         IH : forall _ : list event, _ |- _ = text_loop _ _ _ _ _ _ ?t =>
           rewrite ?Hb; refine (eq_trans (IH t _ _ _ _ _) eq_refl);
           [ cbn [length] in Hm; lia
           | exists (d ++ [r]); split; [rewrite Ed, <- app_assoc; reflexivity|rewrite app_length, Ld; cbn [length]; rewrite Nat.add_comm; reflexivity]
           | rewrite app_length, firstn_length, skipn_length; unfold len; lia ]
       end.
Qed.

Lemma run_loop_trace f n skip buf_size k tr0 : receptions tr0 = O -> (length (ln_receptions ln) + 3 <= n)%nat ->
  run (C f) n "Server" "run_loop" [v_server skip buf_size] (World k tr0)
  = let tr := Event "conn.recv_from" [] (broken_reply (ln_broken ln)) :: loop_trace buf_size skip (ln_receptions ln) tr0 in
    match ln_broken ln with
    | Some e => RVal (verr (VError (bytes_of_string e))) [v_server skip buf_size] (World k tr)
    | None => RWait (World k tr)
    end.
Proof. intros Hr H. exact (eq_trans (run_run_loop f n skip buf_size k tr0 Hr H) (text_loop_eq _ _ _ _ _ _ _)). Qed.
Definition raw_run_loop := ltac:(let T := type of run_loop_trace in
  let T' := eval cbv beta iota zeta delta [v_server v_usize verr vok broken_reply] in T in exact (run_loop_trace : T')).
#[local] Hint Rewrite raw_run_loop using (lia || assumption) : code.
(** server.rs:88-98 *)
Definition text_run (ps : list value) (skip : bool) (buf_size : N) k tr0 : rout :=
  let tr := Event "conn.recv_from" [] (broken_reply (ln_broken ln)) :: loop_trace buf_size skip (ln_receptions ln) tr0 in
  match ln_broken ln with
  | Some e => RVal (verr (VError (bytes_of_string e))) ps (World k tr)
  | None =>
      let tr := Event "shutdown.await" [] (if ln_stop ln then Some VUnit else None) :: tr in
      if ln_stop ln then RVal (vok VUnit) ps (World k tr) else RWait (World k tr)
  end.
Lemma run_server_run f n skip buf_size k tr0 : receptions tr0 = O -> (length (ln_receptions ln) + 4 <= n)%nat ->
  run (C f) n "Server" "run" [v_server skip buf_size; VExt "shutdown"] (World k tr0)
  = text_run [v_server skip buf_size; VExt "shutdown"] skip buf_size k tr0.
Proof.
  intro Hr. unfold text_run; start.
  all: unfold v_server, v_usize, broken_reply; net_steps; reflexivity.
Qed.
End Code.

Section Any.
Context (pr : profile) (rng : nat -> byte) (he : bytes -> option string)
        (ans : list event -> string -> list value -> option value).
Notation C f := (Cx pr (crate_program f) rng he ans).
Lemma run_DEFAULT_BUFFER_SIZE f n w : (1 <= n)%nat ->
  run (C f) n "" "DEFAULT_BUFFER_SIZE" [] w = RVal (v_usize DEFAULT_BUFFER_SIZE) [] w.
Proof. go. Qed.
Lemma run_DEFAULT_SKIP_AUTHENTICITY_VALIDATION f n w : (1 <= n)%nat ->
  run (C f) n "" "DEFAULT_SKIP_AUTHENTICITY_VALIDATION" [] w = RVal (VBool DEFAULT_SKIP_AUTHENTICITY_VALIDATION) [] w.
Proof. go. Qed.
Definition raw_DEFAULT_BUFFER_SIZE := ltac:(raw run_DEFAULT_BUFFER_SIZE).
Definition raw_DEFAULT_SKIP := ltac:(raw run_DEFAULT_SKIP_AUTHENTICITY_VALIDATION).
#[local] Hint Rewrite raw_DEFAULT_BUFFER_SIZE raw_DEFAULT_SKIP using lia : code.
Lemma run_set_buffer_size f n skip buf_size m w : (1 <= n)%nat ->
  run (C f) n "Server" "set_buffer_size" [v_server skip buf_size; v_usize m] w
  = RVal VUnit [v_server skip m; v_usize m] w.
Proof. unfold v_server, v_usize; go. Qed.
Lemma run_set_skip f n skip buf_size b w : (1 <= n)%nat ->
  run (C f) n "Server" "set_skip_authenticity_validation" [v_server skip buf_size; VBool b] w
  = RVal VUnit [v_server b buf_size; VBool b] w.
Proof. unfold v_server, v_usize; go. Qed.
Lemma run_get_listen_address f n skip buf_size k tr v : (1 <= n)%nat -> ans tr "conn.local_addr" [] = Some v ->
  run (C f) n "Server" "get_listen_address" [v_server skip buf_size] (World k tr)
  = RVal v [v_server skip buf_size] (World k (Event "conn.local_addr" [] (Some v) :: tr)).
Proof. unfold v_server, v_usize; go. Qed.
Lemma run_listen f n host port (b : option (io unit)) k tr : (2 <= n)%nat ->
  ans tr "UdpSocket::bind" [v_text (host ++ ":" ++ dec port)] =
    match b with Some (IoOk _) => Some (vok (VExt "conn")) | Some (IoErr e) => Some (verr (VError (bytes_of_string e))) | None => None end ->
  run (C f) n "Server" "listen" [v_text host; VInt U16 port; VExt "handler"; VExt "provider"] (World k tr)
  = let ps := [v_text host; VInt U16 port; VExt "handler"; VExt "provider"] in
    let tr a := Event "UdpSocket::bind" [v_text (host ++ ":" ++ dec port)] a :: tr in
    match b with
    | Some (IoOk _) => RVal (vok (v_server DEFAULT_SKIP_AUTHENTICITY_VALIDATION DEFAULT_BUFFER_SIZE)) ps (World k (tr (Some (vok (VExt "conn")))))
    | Some (IoErr e) => RVal (verr (VError (bytes_of_string e))) ps (World k (tr (Some (verr (VError (bytes_of_string e))))))
    | None => RWait (World k (tr None))
    end.
Proof.
  intros Hn H; unfold v_text in *; rewrite !bytes_of_string_app in *; revert Hn.
  unfold v_server, v_usize; destruct b as [[|]|]; start; steps; rewrite ?app_nil_r; reflexivity.
Qed.
End Any.
