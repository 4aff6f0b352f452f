(** * The functions of packet.rs and request.rs, run, except [encode] *)
From Coq Require Import String List NArith ZArith Bool Arith Strings.Byte Lia ZifyBool ZifyNat ZifyN.
From Verif Require Import Prelude PreludeFacts Md5 Utf8 Utf8Facts Tag Code Avp AvpFacts Attributes Vsa Packet Addr Server Openssl Rust RustEval CodeRun RustFacts CodeTactics CodeBase CodeAttributes.
Import ListNotations.
Local Open Scope string_scope.
Local Open Scope N_scope.
Local Open Scope list_scope.

Section Code.
Context (pr : profile) (rng : nat -> byte) (he : bytes -> option string)
        (ans : list event -> string -> list value -> option value).
Notation C f := (Cx pr (crate_program f) rng he ans).

(** the world after [k] random bytes *)
Definition drawn (k : nat) (w : world) : world := World (k + w_random w) (w_trace w).
Definition v_u8 : byte -> value := vu8.
Ltac draws :=
  match goal with |- context [map_loop ?f ?l ?s] =>
    let l' := eval vm_compute in l in change (map_loop f l s) with (map_loop f l' s) end;
  repeat (first [rewrite map_loop_cons | rewrite map_loop_nil]; steps).
Lemma run_packet__new f n c secret id w : (1 <= n)%nat ->
  run (C f) n "Packet" "_new" [v_code c; v_bytes secret; v_option v_u8 id] w
  = RVal (v_packet (packet__new (fun k => rng (k + w_random w)%nat) c secret id))
      [v_code c; v_bytes secret; v_option v_u8 id]
      (drawn (match id with Some _ => 16 | None => 17 end) w).
Proof.
  destruct w as [k tr]; destruct id as [id|]; unfold v_u8; cbn [v_option]; start; steps; draws; reflexivity.
Qed.
Lemma run_packet__new_some f n c secret id w : (1 <= n)%nat ->
  run (C f) n "Packet" "_new" [VCtor "Code" (code_debug c) []; VBytes secret; VCtor "" "Some" [VInt U8 (b2n id)]] w
  = RVal (v_packet (packet__new (fun k => rng (k + w_random w)%nat) c secret (Some id)))
      [VCtor "Code" (code_debug c) []; VBytes secret; VCtor "" "Some" [VInt U8 (b2n id)]] (drawn 16 w).
Proof. apply (run_packet__new f n c secret (Some id) w). Qed.
Lemma run_packet__new_none f n c secret w : (1 <= n)%nat ->
  run (C f) n "Packet" "_new" [VCtor "Code" (code_debug c) []; VBytes secret; VCtor "" "None" []] w
  = RVal (v_packet (packet__new (fun k => rng (k + w_random w)%nat) c secret None))
      [VCtor "Code" (code_debug c) []; VBytes secret; VCtor "" "None" []] (drawn 17 w).
Proof. apply (run_packet__new f n c secret None w). Qed.
#[local] Hint Rewrite run_packet__new_some run_packet__new_none using lia : code.
Lemma run_packet_new f n c secret w : (2 <= n)%nat ->
  run (C f) n "Packet" "new" [v_code c; v_bytes secret] w
  = RVal (v_packet (packet_new (fun k => rng (k + w_random w)%nat) c secret))
      [v_code c; v_bytes secret] (drawn 17 w).
Proof. start; steps; reflexivity. Qed.
Lemma run_packet_new_with_identifier f n c secret id w : (2 <= n)%nat ->
  run (C f) n "Packet" "new_with_identifier" [v_code c; v_bytes secret; vu8 id] w
  = RVal (v_packet (packet_new_with_identifier (fun k => rng (k + w_random w)%nat) c secret id))
      [v_code c; v_bytes secret; vu8 id] (drawn 16 w).
Proof. start; steps; reflexivity. Qed.
Lemma run_packet_get_code f n p w : (1 <= n)%nat ->
  run (C f) n "Packet" "get_code" [v_packet p] w = RVal (v_code (packet_get_code p)) [v_packet p] w.
Proof. go. Qed.
Lemma run_packet_get_identifier f n p w : (1 <= n)%nat ->
  run (C f) n "Packet" "get_identifier" [v_packet p] w = RVal (vu8 (packet_get_identifier p)) [v_packet p] w.
Proof. go. Qed.
Lemma run_packet_get_secret f n p w : (1 <= n)%nat ->
  run (C f) n "Packet" "get_secret" [v_packet p] w = RVal (v_bytes (packet_get_secret p)) [v_packet p] w.
Proof. go. Qed.
Lemma run_packet_get_authenticator f n p w : (1 <= n)%nat ->
  run (C f) n "Packet" "get_authenticator" [v_packet p] w = RVal (v_bytes (packet_get_authenticator p)) [v_packet p] w.
Proof. go. Qed.
Lemma run_packet_set_identifier f n p b w : (1 <= n)%nat ->
  run (C f) n "Packet" "set_identifier" [v_packet p; vu8 b] w
  = RVal VUnit [v_packet (packet_set_identifier p b); vu8 b] w.
Proof. go. Qed.
Lemma run_packet_make_response_packet f n p c w : (1 <= n)%nat ->
  run (C f) n "Packet" "make_response_packet" [v_packet p; v_code c] w
  = RVal (v_packet (packet_make_response_packet p c)) [v_packet p; v_code c] w.
Proof. go. Qed.
Lemma run_packet_add f n p a w : (2 <= n)%nat ->
  run (C f) n "Packet" "add" [v_packet p; v_avp a] w = RVal VUnit [v_packet (packet_add p a); v_avp a] w.
Proof. go. Qed.
Lemma run_packet_extend f n p m w : (2 <= n)%nat ->
  run (C f) n "Packet" "extend" [v_packet p; v_avps m] w = RVal VUnit [v_packet (packet_extend p m); v_avps m] w.
Proof. go. Qed.
Lemma run_packet_delete f n p t w : (2 <= n)%nat ->
  run (C f) n "Packet" "delete" [v_packet p; vu8 t] w = RVal VUnit [v_packet (packet_delete p t); vu8 t] w.
Proof. go. Qed.
Lemma run_packet_lookup f n p t w : (2 <= n)%nat ->
  run (C f) n "Packet" "lookup" [v_packet p; vu8 t] w
  = RVal (v_option v_avp (packet_lookup p t)) [v_packet p; vu8 t] w.
Proof. go. Qed.
Lemma run_packet_lookup_all f n p t w : (2 <= n)%nat ->
  run (C f) n "Packet" "lookup_all" [v_packet p; vu8 t] w
  = RVal (v_avps (packet_lookup_all p t)) [v_packet p; vu8 t] w.
Proof. go. Qed.
Lemma length_field bs : 4 <= len bs ->
  len (firstn (N.to_nat (4 - 2)) (skipn (N.to_nat 2) bs)) = 2
  /\ exists l, u16_from_be (firstn (N.to_nat (4 - 2)) (skipn (N.to_nat 2) bs)) = Some l.
Proof.
  intro H. destruct bs as [|a [|b [|c [|d r]]]]; try (unfold len in H; cbn [List.length] in H; lia). split; [reflexivity|]. eexists; reflexivity.
Qed.
Definition raw_decode := ltac:(raw (run_attributes_decode pr rng he ans)).
Lemma run_packet_decode f n bs secret w : len bs < 9223372036854775808 -> (length bs + 3 <= n)%nat ->
  run (C f) n "Packet" "decode" [v_bytes bs; v_bytes secret] w
  = v_result v_packet_error v_packet (packet_decode bs secret) [v_bytes bs; v_bytes secret] w.
Proof.
  unfold packet_decode; go.
  all: try (rewrite raw_decode by (unfold len in *; rewrite firstn_length, skipn_length; lia); steps; try reflexivity).
  all: exfalso; unfold RADIUS_PACKET_HEADER_LENGTH in *;
    assert (L : 4 <= len bs) by lia; apply length_field in L; destruct L as [L1 [l L2]]; (lia || congruence).
Qed.
Ltac known_rest :=
  change (zeros 16) with [n2b 0; n2b 0; n2b 0; n2b 0; n2b 0; n2b 0; n2b 0; n2b 0; n2b 0; n2b 0; n2b 0; n2b 0; n2b 0; n2b 0; n2b 0; n2b 0] in *;
  rewrite <- ?app_assoc in *; rhs_known; reflexivity.
Definition v_verdict (r : res unit bool) (ps : list value) (w : world) : rout :=
  match r with Ok b => RVal (VBool b) ps w | Err _ => RStuck | Panic => RPanic | OutOfFuel => RNoFuel end.
Ltac header := first [exfalso; unfold RADIUS_PACKET_HEADER_LENGTH in *; lia | known_rest].
Lemma run_packet_is_authentic_response_md5 n rs rq secret w : (2 <= n)%nat ->
  run (C Md5Crate) n "Packet" "is_authentic_response" [v_bytes rs; v_bytes rq; v_bytes secret] w
  = v_verdict (packet_is_authentic_response rs rq secret) [v_bytes rs; v_bytes rq; v_bytes secret] w.
Proof. unfold packet_is_authentic_response; start; steps; try reflexivity. Qed.
Lemma run_packet_is_authentic_response_openssl n rs rq secret w : (2 <= n)%nat ->
  run (C Openssl) n "Packet" "is_authentic_response" [v_bytes rs; v_bytes rq; v_bytes secret] w
  = v_verdict (packet_is_authentic_response_ssl he rs rq secret) [v_bytes rs; v_bytes rq; v_bytes secret] w.
Proof. unfold packet_is_authentic_response_ssl, ssl_hash_expect, ssl_hash; start; steps; try reflexivity; header. Qed.
Lemma run_packet_is_authentic_request_md5 n rq secret w : (2 <= n)%nat ->
  run (C Md5Crate) n "Packet" "is_authentic_request" [v_bytes rq; v_bytes secret] w
  = v_verdict (packet_is_authentic_request rq secret) [v_bytes rq; v_bytes secret] w.
Proof. unfold packet_is_authentic_request; start; steps; try reflexivity; header. Qed.
Lemma run_packet_is_authentic_request_openssl n rq secret w : (2 <= n)%nat ->
  run (C Openssl) n "Packet" "is_authentic_request" [v_bytes rq; v_bytes secret] w
  = v_verdict (packet_is_authentic_request_ssl he rq secret) [v_bytes rq; v_bytes secret] w.
Proof. unfold packet_is_authentic_request_ssl, ssl_hash_expect, ssl_hash; start; steps; try reflexivity; header. Qed.

(** ** request.rs *)
Definition v_addr (a : socket_addr) : value :=
  VAddr (match a with SockV4 _ _ => true | SockV6 _ _ _ _ => false end) (bytes_of_string (socket_addr_to_string a)).
Definition v_request (r : request) : value :=
  VStruct "Request" [("local_addr", v_addr (rq_local_addr r)); ("remote_addr", v_addr (rq_remote_addr r)); ("packet", v_packet (rq_packet r))].
Lemma run_request_new f n l r p w : (1 <= n)%nat ->
  run (C f) n "Request" "new" [v_addr l; v_addr r; v_packet p] w
  = RVal (v_request (Request l r p)) [v_addr l; v_addr r; v_packet p] w.
Proof. unfold v_addr, v_request; cbn [rq_local_addr rq_remote_addr rq_packet]; go. Qed.
Lemma run_request_get_local_addr f n r w : (1 <= n)%nat ->
  run (C f) n "Request" "get_local_addr" [v_request r] w = RVal (v_addr (rq_local_addr r)) [v_request r] w.
Proof. unfold v_addr, v_request; go. Qed.
Lemma run_request_get_remote_addr f n r w : (1 <= n)%nat ->
  run (C f) n "Request" "get_remote_addr" [v_request r] w = RVal (v_addr (rq_remote_addr r)) [v_request r] w.
Proof. unfold v_addr, v_request; go. Qed.
Lemma run_request_get_packet f n r w : (1 <= n)%nat ->
  run (C f) n "Request" "get_packet" [v_request r] w = RVal (v_packet (rq_packet r)) [v_request r] w.
Proof. unfold v_addr, v_request; go. Qed.
End Code.
