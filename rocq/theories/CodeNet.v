(** * What client.rs and server.rs use of the core, for both hash libraries *)
From Coq Require Import String List NArith ZArith Bool Arith Strings.Byte Strings.Ascii Lia ZifyBool ZifyNat ZifyN.
From Verif Require Import Prelude PreludeFacts Md5 Utf8 Utf8Facts Tag Code Avp AvpFacts Attributes Vsa Packet Addr Display Server Openssl OpensslFacts PropOpenssl Rust RustEval CodeRun CodeHash RustFacts CodeTactics CodeBase CodeAttributes CodePacket CodeEncode.
Import ListNotations.
Local Open Scope string_scope.
Local Open Scope N_scope.
Local Open Scope list_scope.

(** the [Display] of an error, from the attributes of packet.rs *)
Lemma bytes_of_string_app a b : bytes_of_string (a ++ b) = bytes_of_string a ++ bytes_of_string b.
Proof. induction a as [|c a IH]; [reflexivity|]. cbn. f_equal. apply IH. Qed.
Lemma render_plain c r args : code_of c =? 123 = false ->
  render (String c r) args = match render r args with Some t => Some (byte_of_ascii c :: t) | None => None end.
Proof. intro H. cbn [render]. now rewrite H. Qed.
Lemma render_0 r v args : render ("{0}" ++ r) (v :: args)
  = match render r (v :: args) with Some t => match show false v with Some b => Some (b ++ t) | None => None end | None => None end.
Proof. reflexivity. Qed.
Lemma render_1 r v0 v args : render ("{1}" ++ r) (v0 :: v :: args)
  = match render r (v0 :: v :: args) with Some t => match show false v with Some b => Some (b ++ t) | None => None end | None => None end.
Proof. reflexivity. Qed.
Lemma render_end args : render "" args = Some []. Proof. reflexivity. Qed.
Ltac rendered :=
  repeat lazymatch goal with
  | |- context [render (String "{" (String "0" (String "}" ?r))) (?v :: ?args)] => rewrite (render_0 r v args : render (String "{" (String "0" (String "}" r))) (v :: args) = _)
  | |- context [render (String "{" (String "1" (String "}" ?r))) (?u :: ?v :: ?args)] => rewrite (render_1 r u v args : render (String "{" (String "1" (String "}" r))) (u :: v :: args) = _)
  | |- context [render (String ?c ?r) ?args] => rewrite (render_plain c r args eq_refl)
  | |- context [render "" ?args] => rewrite (render_end args)
  end; cbn [show].
Lemma show_packet_error f e : show_value (crate_program f) false (v_packet_error e) = Some (bytes_of_string (packet_error_display e)).
Proof.
  destruct f, e; cbn [v_packet_error packet_error_display]; rewrite ?bytes_of_string_app; unfold show_value;
    match goal with |- context [lookup_text ?P ?x ?y] => let r := eval vm_compute in (lookup_text P x y) in change (lookup_text P x y) with r end;
    cbv beta iota; unfold v_usize, v_text; rendered; rewrite ?app_nil_r; reflexivity.
Qed.

Section Code.
Context (pr : profile) (rng : nat -> byte) (he : bytes -> option string)
        (ans : list event -> string -> list value -> option value).
Notation C f := (Cx pr (crate_program f) rng he ans).
Lemma encode_any f n p w : hashes he f -> (3 <= n)%nat ->
  run (C f) n "Packet" "encode" [v_packet p] w = v_result v_packet_error v_bytes (packet_encode pr p) [v_packet p] w.
Proof.
  intros H Hn; destruct f; [now apply run_packet_encode_md5|].
  rewrite run_packet_encode_openssl, packet_encode_ssl_ossl by easy.
  now rewrite (proj1 (C50_same_functions (hash_of he) (hash_of_md5 he) (hash_of_total he (H eq_refl)))).
Qed.
Lemma is_authentic_request_any f n rq secret w : hashes he f -> (2 <= n)%nat ->
  run (C f) n "Packet" "is_authentic_request" [v_bytes rq; v_bytes secret] w
  = v_verdict (packet_is_authentic_request rq secret) [v_bytes rq; v_bytes secret] w.
Proof.
  intros H Hn; destruct f; [now apply run_packet_is_authentic_request_md5|].
  rewrite run_packet_is_authentic_request_openssl, is_authentic_request_ssl by easy.
  now rewrite (proj1 (proj2 (proj2 (C50_same_functions (hash_of he) (hash_of_md5 he) (hash_of_total he (H eq_refl)))))).
Qed.
End Code.

(** what [recv] leaves in the buffer *)
Lemma recv_into_prefix (old d : bytes) :
  firstn (N.to_nat (N.min (len old) (len d))) (firstn (N.to_nat (N.min (len old) (len d))) d ++ skipn (N.to_nat (N.min (len old) (len d))) old)
  = firstn (length old) d.
Proof.
  unfold len. rewrite firstn_app, firstn_firstn, firstn_length.
  replace (N.to_nat (N.min (N.of_nat (length old)) (N.of_nat (length d)))) with (Nat.min (length old) (length d)) by lia.
  replace (_ - _)%nat with 0%nat by lia. rewrite firstn_O, app_nil_r.
  destruct (Nat.le_ge_cases (length old) (length d)) as [L|L].
  - now rewrite !Nat.min_l by lia.
  - rewrite (firstn_all2 d (n := length old)) by lia. apply firstn_all2. lia.
Qed.
Lemma recv_into_length (old d : bytes) :
  (N.min (len old) (len d) <=? len (firstn (N.to_nat (N.min (len old) (len d))) d ++ skipn (N.to_nat (N.min (len old) (len d))) old)) = true.
Proof. apply N.leb_le. unfold len. rewrite app_length, firstn_length, skipn_length. lia. Qed.
