(** * [Packet::marshal_binary] and [Packet::encode], run *)
From Coq Require Import String List NArith ZArith Bool Arith Strings.Byte Lia ZifyBool ZifyNat ZifyN.
From Verif Require Import Prelude PreludeFacts Md5 Utf8 Utf8Facts Tag Code Avp AvpFacts Attributes Vsa Packet Addr Server Openssl Rust RustEval CodeRun RustFacts CodeTactics CodeBase CodeAttributes.
Import ListNotations.
Local Open Scope string_scope.
Local Open Scope N_scope.
Local Open Scope list_scope.

Section Code.
Context (pr : profile) (rng : nat -> byte) (he : bytes -> option string)
        (ans : list event -> string -> list value -> option value).
Notation C f := (Cx pr (crate_program f) rng he ans).

Lemma run_packet_marshal_binary f n p w : (2 <= n)%nat ->
  run (C f) n "Packet" "marshal_binary" [v_packet p] w
  = v_result v_text v_bytes (packet_marshal_binary pr p) [v_packet p] w.
Proof. unfold packet_marshal_binary; go. Qed.
Definition raw_packet_marshal_binary := ltac:(raw run_packet_marshal_binary).
#[local] Hint Rewrite raw_packet_marshal_binary using lia : code.
Ltac known_rest :=
  change (zeros 16) with [n2b 0; n2b 0; n2b 0; n2b 0; n2b 0; n2b 0; n2b 0; n2b 0; n2b 0; n2b 0; n2b 0; n2b 0; n2b 0; n2b 0; n2b 0; n2b 0] in *;
  rewrite <- ?app_assoc in *; rhs_known; reflexivity.
Lemma run_packet_encode_md5 n p w : (3 <= n)%nat ->
  run (C Md5Crate) n "Packet" "encode" [v_packet p] w
  = v_result v_packet_error v_bytes (packet_encode pr p) [v_packet p] w.
Proof. unfold packet_encode; start; steps; try reflexivity; known_rest. Qed.
Lemma run_packet_encode_openssl n p w : (3 <= n)%nat ->
  run (C Openssl) n "Packet" "encode" [v_packet p] w
  = v_result v_packet_error v_bytes (packet_encode_ssl he pr p) [v_packet p] w.
Proof. unfold packet_encode_ssl, ssl_hash; start; steps; try reflexivity; known_rest. Qed.
End Code.
