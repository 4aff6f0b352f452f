(** * The functions of client.rs, run *)
From Coq Require Import String List NArith ZArith Bool Arith Strings.Byte Strings.Ascii Lia ZifyBool ZifyNat ZifyN.
From Verif Require Import Prelude PreludeFacts Md5 Utf8 Utf8Facts Tag Code Avp AvpFacts Attributes Vsa Packet Addr Display Server Client Openssl OpensslFacts PropOpenssl Rust RustEval CodeRun CodeHash RustFacts CodeTactics CodeBase CodeAttributes CodePacket CodeNet.
Import ListNotations.
Local Open Scope string_scope.
Local Open Scope N_scope.
Local Open Scope list_scope.

(** ** The values *)
Definition v_duration (d : N) : value := VInt U64 d.
Definition v_client (c : client) : value :=
  VStruct "Client" [("connection_timeout", v_option v_duration (connection_timeout c));
                    ("socket_timeout", v_option v_duration (socket_timeout c))].
Definition v_client_error (e : client_error) : value :=
  match e with
  | FailedUdpSocketBindingError e => VCtor "ClientError" "FailedUdpSocketBindingError" [v_text e]
  | FailedEstablishingUdpConnectionError a e => VCtor "ClientError" "FailedEstablishingUdpConnectionError" [v_text a; v_text e]
  | FailedRadiusPacketEncodingError e => VCtor "ClientError" "FailedRadiusPacketEncodingError" [v_text e]
  | FailedSendingRadiusPacketError a e => VCtor "ClientError" "FailedSendingRadiusPacketError" [v_text a; v_text e]
  | FailedReceivingResponseError a e => VCtor "ClientError" "FailedReceivingResponseError" [v_text a; v_text e]
  | FailedDecodingRadiusResponseError e => VCtor "ClientError" "FailedDecodingRadiusResponseError" [v_text e]
  | ConnectionTimeoutError => VCtor "ClientError" "ConnectionTimeoutError" []
  | SocketTimeoutError => VCtor "ClientError" "SocketTimeoutError" []
  end.
Definition v_io {A} (f : A -> value) (r : io A) : value :=
  match r with IoOk a => vok (f a) | IoErr t => verr (VError (bytes_of_string t)) end.

(** ** The network of one [send_packet]: the answer of each operation, if it comes at all, and whether the
    deadline that is waited for passes *)
Record replies := Replies {
  r_bind : option (io unit); r_connect : option (io unit); r_send : option (io N); r_recv : option (io bytes);
  r_deadline : bool }.
Definition bind_reply r := option_map (v_io (fun _ => VExt "conn")) (r_bind r).
Definition connect_reply r := option_map (v_io (fun _ => VUnit)) (r_connect r).
Definition send_reply r := option_map (v_io v_usize) (r_send r).
Definition recv_reply r := option_map (v_io VBytes) (r_recv r).
Definition deadline_reply r := if r_deadline r then Some VUnit else None.
Definition replies_of (r : replies) (_ : list event) (op : string) (_ : list value) : option value :=
  if String.eqb op "UdpSocket::bind" then bind_reply r
  else if String.eqb op "conn.connect" then connect_reply r
  else if String.eqb op "conn.send" then send_reply r
  else if String.eqb op "conn.recv" then recv_reply r
  else if String.eqb op "timeout" then deadline_reply r
  else None.

(** ** What the text does with these answers *)
(** waiting for something that does not come, under a deadline *)
Definition waiting (r : replies) (deadline : option N) (e : client_error) (ps : list value) (k : nat) (tr : list event) : rout :=
  match deadline with
  | None => RWait (World k tr)
  | Some d =>
      let tr := Event "timeout" [v_duration d] (deadline_reply r) :: tr in
      if r_deadline r then RVal (verr (v_client_error e)) ps (World k tr) else RWait (World k tr)
  end.
Definition text_recv (cl : client) (remote : socket_addr) (req : packet) (r : replies) ps k tr : rout :=
  let tr := Event "conn.recv" [] (recv_reply r) :: tr in
  match r_recv r with
  | None => waiting r (socket_timeout cl) SocketTimeoutError ps k tr
  | Some (IoErr e) => RVal (verr (v_client_error (FailedReceivingResponseError (socket_addr_to_string remote) e))) ps (World k tr)
  | Some (IoOk d) => v_result v_client_error v_packet (Client.finish req (firstn (N.to_nat MAX_DATAGRAM_SIZE) d)) ps (World k tr)
  end.
Definition text_send (cl : client) (remote : socket_addr) (req : packet) (r : replies) data ps k tr : rout :=
  let tr := Event "conn.send" [VBytes data] (send_reply r) :: tr in
  match r_send r with
  | None => waiting r (socket_timeout cl) SocketTimeoutError ps k tr
  | Some (IoErr e) => RVal (verr (v_client_error (FailedSendingRadiusPacketError (socket_addr_to_string remote) e))) ps (World k tr)
  | Some (IoOk _) => text_recv cl remote req r ps k tr
  end.
Definition text_connect (pr : profile) (cl : client) (remote : socket_addr) (req : packet) (r : replies) ps k tr : rout :=
  let tr := Event "conn.connect" [v_addr remote] (connect_reply r) :: tr in
  match r_connect r with
  | None => waiting r (connection_timeout cl) ConnectionTimeoutError ps k tr
  | Some (IoErr e) => RVal (verr (v_client_error (FailedEstablishingUdpConnectionError (socket_addr_to_string remote) e))) ps (World k tr)
  | Some (IoOk _) =>
      match packet_encode pr req with
      | Ok data => text_send cl remote req r data ps k tr
      | Err e => RVal (verr (v_client_error (FailedRadiusPacketEncodingError (packet_error_display e)))) ps (World k tr)
      | Panic => RPanic
      | OutOfFuel => RNoFuel
      end
  end.
Definition text_send_packet (pr : profile) (cl : client) (remote : socket_addr) (req : packet) (r : replies) ps k tr : rout :=
  let tr := Event "UdpSocket::bind" [v_addr (local_for remote)] (bind_reply r) :: tr in
  match r_bind r with
  | None => RWait (World k tr)
  | Some (IoErr e) => RVal (verr (v_client_error (FailedUdpSocketBindingError e))) ps (World k tr)
  | Some (IoOk _) => text_connect pr cl remote req r ps k tr
  end.


(** ** Running it *)
Ltac replied :=
  lazymatch goal with
  | |- context [replies_of ?r ?tr ?op ?a] =>
      let x := eval lazy beta iota delta [replies_of String.eqb Ascii.eqb Bool.eqb bind_reply connect_reply send_reply recv_reply deadline_reply
                 option_map v_io] in (replies_of r tr op a) in
      change (replies_of r tr op a) with x
  end.
Ltac decided_call :=
  lazymatch goal with
  | |- ?l = _ => focus l ltac:(fun o => lazymatch o with after_call (match ?x with _ => _ end) _ => scrutinee x | _ => fail end)
  end.

Section Any.
Context (pr : profile) (rng : nat -> byte) (he : bytes -> option string)
        (ans : list event -> string -> list value -> option value).
Notation C f := (Cx pr (crate_program f) rng he ans).
Lemma run_client_new f n a b w : (1 <= n)%nat ->
  run (C f) n "Client" "new" [v_option v_duration a; v_option v_duration b] w
  = RVal (v_client (Client a b)) [v_option v_duration a; v_option v_duration b] w.
Proof. unfold v_client; cbn [connection_timeout socket_timeout]; destruct a, b; cbn [v_option]; unfold v_duration; go. Qed.
Lemma run_MAX_DATAGRAM_SIZE f n w : (1 <= n)%nat ->
  run (C f) n "Client" "MAX_DATAGRAM_SIZE" [] w = RVal (v_usize MAX_DATAGRAM_SIZE) [] w.
Proof. go. Qed.
Definition raw_MAX_DATAGRAM_SIZE := ltac:(raw run_MAX_DATAGRAM_SIZE).
End Any.
#[local] Hint Rewrite raw_MAX_DATAGRAM_SIZE using lia : code.

(** what has happened since [tr0], in a call of [send_packet]: the socket was bound first *)
Inductive after (tr0 : list event) : list event -> Prop :=
| after_bind v4 a x : after tr0 (Event "UdpSocket::bind" [VAddr v4 a] x :: tr0)
| after_more op a x tr : String.eqb op "UdpSocket::bind" = false -> after tr0 tr -> after tr0 (Event op a x :: tr).
Ltac after_side := solve [repeat first [eassumption | apply after_bind | apply after_more; [reflexivity|]]].
Section Code.
Context (pr : profile) (rng : nat -> byte) (he : bytes -> option string) (r : replies)
        (ans : list event -> string -> list value -> option value) (tr0 : list event)
        (HB : forall v4 a, ans tr0 "UdpSocket::bind" [VAddr v4 a] = bind_reply r)
        (HO : forall tr op args, after tr0 tr -> mem op ["conn.connect"; "conn.send"; "conn.recv"; "timeout"] = true ->
                ans tr op args = replies_of r [] op args).
Notation C f := (Cx pr (crate_program f) rng he ans).
Ltac asked :=
  lazymatch goal with
  | |- context [ans tr0 "UdpSocket::bind" [VAddr ?v4 ?a]] =>
      rewrite (HB v4 a); cbv beta iota delta [bind_reply option_map v_io]
  | |- context [ans ?tr ?op ?a] => rewrite (HO tr op a ltac:(after_side) eq_refl); replied
  end.
Ltac ask_step :=
  lazymatch goal with
  | |- context [ans _ _ _] => asked
  | |- context [show_value ?pg false (v_packet_error ?e)] => 
      let pg' := eval cbv beta iota delta [cx_program] in pg in
      change (show_value pg false (v_packet_error e)) with (show_value pg' false (v_packet_error e));
      rewrite (show_packet_error _ e)
  | _ => first [decided_call | step]
  end.
Lemma run_client_connect f n l v4 a k tr : (1 <= n)%nat -> after tr0 tr ->
  run (C f) n "Client" "connect" [VStruct "Client" l; VExt "conn"; VAddr v4 a] (World k tr)
  = match r_connect r with
    | None => RWait (World k (Event "conn.connect" [VAddr v4 a] (connect_reply r) :: tr))
    | Some (IoErr e) => RVal (VCtor "" "Err" [VCtor "ClientError" "FailedEstablishingUdpConnectionError" [VStr a; VStr (bytes_of_string e)]])
                          [VStruct "Client" l; VExt "conn"; VAddr v4 a] (World k (Event "conn.connect" [VAddr v4 a] (connect_reply r) :: tr))
    | Some (IoOk _) => RVal (VCtor "" "Ok" [VTuple []])
                         [VStruct "Client" l; VExt "conn"; VAddr v4 a] (World k (Event "conn.connect" [VAddr v4 a] (connect_reply r) :: tr))
    end.
Proof. unfold connect_reply; start; repeat ask_step; reflexivity. Qed.
Lemma run_client_request f n l v4 a data k tr : (2 <= n)%nat -> after tr0 tr ->
  run (C f) n "Client" "request" [VStruct "Client" l; VExt "conn"; VBytes data; VAddr v4 a] (World k tr)
  = match r_send r with
    | None => RWait (World k (Event "conn.send" [VBytes data] (send_reply r) :: tr))
    | Some (IoErr e) => RVal (VCtor "" "Err" [VCtor "ClientError" "FailedSendingRadiusPacketError" [VStr a; VStr (bytes_of_string e)]])
                          [VStruct "Client" l; VExt "conn"; VBytes data; VAddr v4 a] (World k (Event "conn.send" [VBytes data] (send_reply r) :: tr))
    | Some (IoOk _) =>
        match r_recv r with
        | None => RWait (World k (Event "conn.recv" [] (recv_reply r) :: Event "conn.send" [VBytes data] (send_reply r) :: tr))
        | Some (IoErr e) => RVal (VCtor "" "Err" [VCtor "ClientError" "FailedReceivingResponseError" [VStr a; VStr (bytes_of_string e)]])
                              [VStruct "Client" l; VExt "conn"; VBytes data; VAddr v4 a]
                              (World k (Event "conn.recv" [] (recv_reply r) :: Event "conn.send" [VBytes data] (send_reply r) :: tr))
        | Some (IoOk d) => RVal (VCtor "" "Ok" [VBytes (firstn (N.to_nat MAX_DATAGRAM_SIZE) d)])
                             [VStruct "Client" l; VExt "conn"; VBytes data; VAddr v4 a]
                             (World k (Event "conn.recv" [] (recv_reply r) :: Event "conn.send" [VBytes data] (send_reply r) :: tr))
        end
    end.
Proof.
  unfold send_reply, recv_reply; start; repeat ask_step; try reflexivity.
  all: try (rewrite recv_into_prefix, repeat_length; reflexivity).
  all: rewrite recv_into_length in *; discriminate.
Qed.
Lemma run_decode_response f n d secret w : (N.to_nat MAX_DATAGRAM_SIZE + 3 <= n)%nat ->
  run (C f) n "Packet" "decode" [VBytes (firstn (N.to_nat MAX_DATAGRAM_SIZE) d); VBytes secret] w
  = v_result v_packet_error v_packet (packet_decode (firstn (N.to_nat MAX_DATAGRAM_SIZE) d) secret)
      [VBytes (firstn (N.to_nat MAX_DATAGRAM_SIZE) d); VBytes secret] w.
Proof.
  intro H. apply run_packet_decode.
  - unfold len. rewrite firstn_length. assert (MAX_DATAGRAM_SIZE < 9223372036854775808) by reflexivity. lia.
  - rewrite firstn_length. lia.
Qed.
Definition raw_decode_response := ltac:(raw run_decode_response).
Definition raw_encode := ltac:(raw (encode_any pr rng he ans)).
Definition raw_get_secret := ltac:(let T := type of (run_packet_get_secret pr rng he ans) in
  let T' := eval cbv beta iota delta [v_packet v_code v_attributes v_avps vu8 v_bytes packet_get_secret] in T in
  exact (run_packet_get_secret pr rng he ans : T')).
#[local] Hint Rewrite run_client_connect run_client_request raw_decode_response raw_encode raw_get_secret using (lia || assumption || after_side) : code.
(** [send_packet] after the connection is there: client.rs:104-129 *)
Definition send_packet_rest : list stmt * option expr :=
  Eval vm_compute in
    match lookup_fn crate_md5 "Client" "send_packet" with
    | Some f => match f_body f with EBlock (_ :: _ :: _ :: ss) e => (ss, e) | _ => ([], None) end
    | None => ([], None)
    end.
Definition send_packet_type : option ty :=
  Eval vm_compute in match lookup_fn crate_md5 "Client" "send_packet" with Some f => f_ret f | None => None end.
Definition send_packet_vars (ct st remote req : value) : list (string * value) :=
  [("request_packet", req); ("remote_addr", remote);
   ("self", VStruct "Client" [("connection_timeout", ct); ("socket_timeout", st)])].
Ltac rest_start :=
  cbv beta iota delta [send_packet_rest send_packet_type send_packet_vars fst snd];
  intros; subst; unfold v_packet, v_code, v_attributes, v_avps, bind, map_err;
  match goal with f : feature |- _ => destruct f end.
Lemma run_send_packet_rest f n ct st v4 a req w0 la k tr remote :
  hashes he f -> (N.to_nat MAX_DATAGRAM_SIZE + 4 <= n)%nat -> a = bytes_of_string (socket_addr_to_string remote) -> after tr0 tr ->
  RustEval.finish (crate_program f) 3 send_packet_type
    (pop_out (State (send_packet_vars ct (v_option v_duration st) (VAddr v4 a) (v_packet req)) w0)
       (eval_stmts (eval (C f) n "Client" (run (C f) n)) (crate_program f) (snd send_packet_rest)
          (State (("conn", VExt "conn") :: ("local_addr", la) :: send_packet_vars ct (v_option v_duration st) (VAddr v4 a) (v_packet req)) (World k tr))
          (fst send_packet_rest)))
  = match packet_encode pr req with
    | Ok data => text_send (Client None st) remote req r data
                   [VStruct "Client" [("connection_timeout", ct); ("socket_timeout", v_option v_duration st)]; VAddr v4 a; v_packet req] k tr
    | Err e => RVal (verr (v_client_error (FailedRadiusPacketEncodingError (packet_error_display e))))
                 [VStruct "Client" [("connection_timeout", ct); ("socket_timeout", v_option v_duration st)]; VAddr v4 a; v_packet req] (World k tr)
    | Panic => RPanic
    | OutOfFuel => RNoFuel
    end.
Proof.
  unfold text_send, text_recv, waiting, Client.finish, deadline_reply; cbn [socket_timeout].
  destruct st; cbn [v_option]; rest_start; repeat ask_step; try reflexivity.
  all: try (rewrite ?app_nil_r; rhs_known; reflexivity).
Qed.
Ltac until_rest :=
  lazymatch goal with
  | |- RustEval.finish _ _ _ (pop_out _ (eval_stmts _ _ _ (State _ _) (SLet (PVar "request_data") _ _ :: _))) = _ => fail
  | _ => ask_step
  end.
Lemma run_send_packet_after f n cl remote req k : hashes he f -> (N.to_nat MAX_DATAGRAM_SIZE + 5 <= n)%nat ->
  run (C f) n "Client" "send_packet" [v_client cl; v_addr remote; v_packet req] (World k tr0)
  = text_send_packet pr cl remote req r [v_client cl; v_addr remote; v_packet req] k tr0.
Proof.
  intros Hh.
  unfold text_send_packet, text_connect, waiting, bind_reply, deadline_reply.
  destruct cl as [ct st]; unfold v_client; cbn [connection_timeout socket_timeout] in *.
  unfold v_addr; remember (v_packet req) as vr eqn:Evr.
  destruct remote; destruct ct; cbn [v_option local_for]; start; repeat until_rest.
  all: try reflexivity.
  all: subst vr; refine (eq_trans (run_send_packet_rest _ n _ st _ _ req _ _ k _ _ Hh _ eq_refl _) _); [lia|after_side|]; cbn [v_option].
  all: reflexivity.
Qed.
End Code.
(** with the same answers whenever they are asked for *)
Lemma run_client_send_packet pr rng he r f n cl remote req k tr : hashes he f -> (N.to_nat MAX_DATAGRAM_SIZE + 5 <= n)%nat ->
  run (Cx pr (crate_program f) rng he (replies_of r)) n "Client" "send_packet" [v_client cl; v_addr remote; v_packet req] (World k tr)
  = text_send_packet pr cl remote req r [v_client cl; v_addr remote; v_packet req] k tr.
Proof. apply run_send_packet_after; reflexivity. Qed.
