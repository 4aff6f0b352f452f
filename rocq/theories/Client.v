(** * radius/src/client.rs

    [send_packet] is a future. It is modelled as the state machine it is compiled to: it is polled
    at moments chosen by the runtime, and at each moment runs until a socket operation is not
    ready. The environment says what each socket operation would answer at each moment, so every
    network, every scheduler and every cancellation (the list of moments just ends) is covered.

    Simplifications: time is a natural number (nanoseconds, say) that does not advance during a
    poll; [tokio::time::timeout] polls the inner future first and reports a timeout only if that is
    not ready and the deadline has passed; deadlines do not overflow; the number of bytes reported
    by [send] is ignored by the code and not modelled. *)
From Coq Require Import String List NArith Bool Strings.Byte.
From Verif Require Import Prelude Avp Packet Addr Display.
Import ListNotations.
Local Open Scope N_scope.

(** client.rs:12-47 *)
Inductive client_error :=
| FailedUdpSocketBindingError (e : string)
| FailedEstablishingUdpConnectionError (addr e : string)
| FailedRadiusPacketEncodingError (e : string)
| FailedSendingRadiusPacketError (addr e : string)
| FailedReceivingResponseError (addr e : string)
| FailedDecodingRadiusResponseError (e : string)
| ConnectionTimeoutError
| SocketTimeoutError.

(** client.rs:12-47 [#[error(...)]] *)
Definition client_error_display (e : client_error) : string :=
  match e with
  | FailedUdpSocketBindingError e => "failed to bind a UDP socket; " ++ e
  | FailedEstablishingUdpConnectionError a e =>
      "failed to establish a UDP connection to " ++ a ++ "; " ++ e
  | FailedRadiusPacketEncodingError e => "failed to encode a RADIUS request; " ++ e
  | FailedSendingRadiusPacketError a e => "failed to send a UDP datagram to " ++ a ++ "; " ++ e
  | FailedReceivingResponseError a e =>
      "failed to receive the UDP response from " ++ a ++ "; " ++ e
  | FailedDecodingRadiusResponseError e => "failed to decode a RADIUS response packet; " ++ e
  | ConnectionTimeoutError => "connection timeout"
  | SocketTimeoutError => "socket timeout"
  end%string.

(** client.rs:50-53, 66-71 *)
Record client := Client { connection_timeout : option N; socket_timeout : option N }.
(** client.rs:56 *)
Definition MAX_DATAGRAM_SIZE : N := 65507.

(** [io::Result]; an error is represented by its text *)
Inductive io (A : Type) := IoOk (a : A) | IoErr (text : string).
Arguments IoOk {A} a.
Arguments IoErr {A} text.

(** A moment at which the future is polled: the time, and for each socket operation its answer at
    that moment ([None]: not ready). *)
Record moment := Moment {
  m_now : N;
  m_bind : option (io unit); m_connect : option (io unit); m_send : option (io unit);
  m_recv : option (io bytes) }.

(** What happens on the network, oldest first. *)
Inductive net_event :=
| NBound (local : socket_addr)
| NConnected (remote : socket_addr)
| NSent (datagram : bytes)
| NReceived (datagram : bytes).

Inductive client_state :=
| CBinding                                          (* client.rs:89 *)
| CConnecting (deadline : option N)                 (* client.rs:94-102 *)
| CSending (data : bytes) (deadline : option N)     (* client.rs:109-121, 148 *)
| CReceiving (deadline : option N)                  (* client.rs:109-121, 159 *)
| CDone (r : res client_error packet).

(** client.rs:81-87 *)
Definition local_for (remote : socket_addr) : socket_addr :=
  match remote with
  | SockV4 _ _ => SockV4 (Ipv4 x00 x00 x00 x00) 0
  | SockV6 _ _ _ _ =>
      SockV6 (Ipv6 x00 x00 x00 x00 x00 x00 x00 x00 x00 x00 x00 x00 x00 x00 x00 x00) 0 0 0
  end.

Section SendPacket.
  Variables (pr : profile) (cl : client) (remote : socket_addr) (req : packet).

  (** [tokio::time::timeout] *)
  Definition deadline_of (timeout : option N) (m : moment) : option N :=
    match timeout with Some d => Some (m_now m + d) | None => None end.
  Definition expired (deadline : option N) (m : moment) : bool :=
    match deadline with Some t => t <=? m_now m | None => false end.

  (** client.rs:123-129 *)
  Definition finish (response : bytes) : res client_error packet :=
    match packet_decode response (p_secret req) with
    | Ok p => Ok p
    | Err e => Err (FailedDecodingRadiusResponseError (packet_error_display e))
    | Panic => Panic
    | OutOfFuel => OutOfFuel
    end.

  (** client.rs:158-165: [buf[..len]] after [recv] wrote at most 65507 bytes *)
  Definition poll_recv (deadline : option N) (m : moment) : client_state * list net_event :=
    match m_recv m with
    | Some (IoOk d) => (CDone (finish (firstn (N.to_nat MAX_DATAGRAM_SIZE) d)), [NReceived d])
    | Some (IoErr e) =>
        (CDone (Err (FailedReceivingResponseError (socket_addr_to_string remote) e)), [])
    | None =>
        if expired deadline m then (CDone (Err SocketTimeoutError), [])
        else (CReceiving deadline, [])
    end.
  (** client.rs:148-156 *)
  Definition poll_send (data : bytes) (deadline : option N) (m : moment)
    : client_state * list net_event :=
    match m_send m with
    | Some (IoOk _) => let '(st, evs) := poll_recv deadline m in (st, NSent data :: evs)
    | Some (IoErr e) =>
        (CDone (Err (FailedSendingRadiusPacketError (socket_addr_to_string remote) e)), [])
    | None =>
        if expired deadline m then (CDone (Err SocketTimeoutError), [])
        else (CSending data deadline, [])
    end.
  (** client.rs:104-121 *)
  Definition start_request (m : moment) : client_state * list net_event :=
    match packet_encode pr req with
    | Ok data => poll_send data (deadline_of (socket_timeout cl) m) m
    | Err e => (CDone (Err (FailedRadiusPacketEncodingError (packet_error_display e))), [])
    | Panic => (CDone Panic, [])
    | OutOfFuel => (CDone OutOfFuel, [])
    end.
  (** client.rs:94-102, 132-140 *)
  Definition poll_connect (deadline : option N) (m : moment) : client_state * list net_event :=
    match m_connect m with
    | Some (IoOk _) => let '(st, evs) := start_request m in (st, NConnected remote :: evs)
    | Some (IoErr e) =>
        (CDone (Err (FailedEstablishingUdpConnectionError (socket_addr_to_string remote) e)), [])
    | None =>
        if expired deadline m then (CDone (Err ConnectionTimeoutError), [])
        else (CConnecting deadline, [])
    end.
  (** client.rs:89-92 *)
  Definition poll_bind (m : moment) : client_state * list net_event :=
    match m_bind m with
    | Some (IoOk _) =>
        let '(st, evs) := poll_connect (deadline_of (connection_timeout cl) m) m in
        (st, NBound (local_for remote) :: evs)
    | Some (IoErr e) => (CDone (Err (FailedUdpSocketBindingError e)), [])
    | None => (CBinding, [])
    end.

  Definition client_poll (st : client_state) (m : moment) : client_state * list net_event :=
    match st with
    | CBinding => poll_bind m
    | CConnecting d => poll_connect d m
    | CSending data d => poll_send data d m
    | CReceiving d => poll_recv d m
    | CDone r => (CDone r, [])
    end.

  (** client.rs:76-130, polled at the given moments *)
  Fixpoint client_run (st : client_state) (ms : list moment) : client_state * list net_event :=
    match ms with
    | [] => (st, [])
    | m :: ms' =>
        let '(st', evs) := client_poll st m in
        let '(st'', evs') := client_run st' ms' in (st'', evs ++ evs')
    end.
  Definition send_packet (ms : list moment) : client_state * list net_event :=
    client_run CBinding ms.
End SendPacket.
