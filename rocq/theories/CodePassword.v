(** * The password functions of avp.rs, run *)
From Coq Require Import String List NArith ZArith Bool Arith Strings.Byte Lia ZifyBool ZifyNat ZifyN.
From Verif Require Import Prelude PreludeFacts Md5 Utf8 Utf8Facts Tag Code Avp AvpFacts Attributes Vsa Packet Openssl Rust RustEval CodeRun RustFacts CodeTactics CodeBase.
Import ListNotations.
Local Open Scope string_scope.
Local Open Scope N_scope.
Local Open Scope list_scope.

Section Code.
Context (pr : profile) (rng : nat -> byte) (he : bytes -> option string)
        (ans : list event -> string -> list value -> option value).
Notation C f := (Cx pr (crate_program f) rng he ans).

Lemma b2n_xor x y : N.lxor (b2n x) (b2n y) = b2n (byte_xor x y).
Proof.
  unfold byte_xor. rewrite b2n_n2b, N.mod_small; [easy|].
  pose proof (b2n_lt x); pose proof (b2n_lt y).
  destruct (N.eq_dec (N.lxor (b2n x) (b2n y)) 0) as [->|Z]; [lia|].
  change 256 with (2 ^ 8). apply N.log2_lt_pow2; [lia|].
  eapply N.le_lt_trans; [apply N.log2_lxor|].
  apply N.max_lub_lt.
  - destruct (N.eq_dec (b2n x) 0) as [->|]; [reflexivity|]. apply N.log2_lt_pow2; [lia|]. exact H.
  - destruct (N.eq_dec (b2n y) 0) as [->|]; [reflexivity|]. apply N.log2_lt_pow2; [lia|]. exact H0.
Qed.
Ltac xored :=
  match goal with
  | |- context [map_loop ?f (zip_values (u8_values ?a) (u8_values ?b)) ?s] =>
      rewrite (xor_loop f a b s); [|intros; unfold vu8; steps; rewrite b2n_xor; reflexivity]
  | |- context [map_loop ?f (zip_values (u8_values ?a) (repeat (VInt Lit ?n) ?k)) ?s] =>
      rewrite (xor_loop_lit f a n k s);
      [|intros; unfold vu8; steps; rewrite <- b2n_xor; reflexivity]
  end.
(** the rounds of the encryption: [c] is what the buffer and the result are before *)
Ltac generalize_cs p cs :=
  pose (cs := chunks 16 p); change (chunks (N.to_nat 16) p) with cs; change (chunks 16 p) with cs; clearbody cs.
Ltac generalize_buff ra b :=
  pose (b := ra);
  match goal with |- context [("buff", VBytes ra)] => change ("buff", VBytes ra) with ("buff", VBytes b) end.
Lemma pad_zeros (c : bytes) : repeat (n2b 0) (N.to_nat (16 - len c)) = zeros (16 - List.length c).
Proof. unfold zeros, len. f_equal. lia. Qed.
Ltac enc_round c cs IH :=
  cbn [map password_enc_loop password_enc_loop_ssl];
  rewrite for_loop_cons; unfold pad_chunk, ssl_hash, map_err, bind; destruct (len c <? 16) eqn:?; steps;
  try (rhs_known; reflexivity); try rewrite pad_zeros; xored; steps; rhs_known; apply IH.
Lemma run_from_user_password_md5 n t p secret ra w : (1 <= n)%nat ->
  run (C Md5Crate) n "AVP" "from_user_password" [vu8 t; v_bytes p; v_bytes secret; v_bytes ra] w
  = v_result v_avp_error v_avp (avp_from_user_password t p secret ra) [vu8 t; v_bytes p; v_bytes secret; v_bytes ra] w.
Proof.
  intros. unfold avp_from_user_password, v_avp; destruct n as [|n]; [lia|].
  steps; try reflexivity; try (xored; steps; reflexivity).
  generalize_cs p cs; generalize_buff ra b; change (password_enc_loop secret ra) with (password_enc_loop secret b); clearbody b.
  generalize (@nil byte) as enc; revert b; induction cs as [|c cs IH]; intros; [cbn [map]; rewrite for_loop_nil; steps; reflexivity|];
  enc_round c cs IH.
Qed.
Lemma run_from_user_password_openssl n t p secret ra w : (1 <= n)%nat ->
  run (C Openssl) n "AVP" "from_user_password" [vu8 t; v_bytes p; v_bytes secret; v_bytes ra] w
  = v_result v_avp_error v_avp (avp_from_user_password_ssl he t p secret ra) [vu8 t; v_bytes p; v_bytes secret; v_bytes ra] w.
Proof.
  intros. unfold avp_from_user_password_ssl, v_avp; destruct n as [|n]; [lia|].
  steps; try reflexivity; try (unfold ssl_hash, map_err, bind; rhs; first [reflexivity | xored; steps; reflexivity]).
  generalize_cs p cs; generalize_buff ra b; change (password_enc_loop_ssl he secret ra) with (password_enc_loop_ssl he secret b); clearbody b.
  generalize (@nil byte) as enc; revert b; induction cs as [|c cs IH]; intros; [cbn [map]; rewrite for_loop_nil; steps; reflexivity|];
  enc_round c cs IH.
Qed.
(** ** from_tunnel_password *)
Definition drawn (k : nat) (w : world) : world := World (k + w_random w) (w_trace w).
Ltac tunnel_rounds p :=
  let cs := fresh "cs" in generalize_cs p cs;
  let buff := fresh "buff" in
  match goal with |- context [("buff", VBytes ?b)] => pose (buff := b);
    change ("buff", VBytes b) with ("buff", VBytes buff);
    match goal with |- context [password_enc_loop ?s b] => change (password_enc_loop s b) with (password_enc_loop s buff)
    | |- context [password_enc_loop_ssl ?h ?s b] => change (password_enc_loop_ssl h s b) with (password_enc_loop_ssl h s buff) end
  end; clearbody buff;
  match goal with |- context [("enc", VBytes ?e)] => generalize e end; revert buff;
  let c := fresh "c" in let IH := fresh "IH" in
  induction cs as [|c cs IH]; intros; [cbn [map]; rewrite for_loop_nil; steps; reflexivity|];
  enc_round c cs IH.
Lemma run_from_tunnel_password_md5 n t tg p secret ra w : (2 <= n)%nat ->
  run (C Md5Crate) n "AVP" "from_tunnel_password" [vu8 t; v_option v_tag tg; v_bytes p; v_bytes secret; v_bytes ra] w
  = v_result v_avp_error v_avp
      (avp_from_tunnel_password (rng (w_random w)) (rng (S (w_random w))) t tg p secret ra)
      [vu8 t; v_option v_tag tg; v_bytes p; v_bytes secret; v_bytes ra]
      (if 240 <? len ra then w else drawn 2 w).
Proof.
  intros. unfold avp_from_tunnel_password, v_avp; destruct n as [|n]; [lia|]; destruct w as [k tr]; cbn [w_random]; unfold drawn; cbn [w_random w_trace Nat.add].
  destruct tg as [tg|]; unfold v_tag; cbn [v_option].
  all: steps; try reflexivity; rewrite ?n2b_b2n; first [tunnel_rounds p | xored; steps; reflexivity].
Qed.
Lemma run_from_tunnel_password_openssl n t tg p secret ra w : (2 <= n)%nat ->
  run (C Openssl) n "AVP" "from_tunnel_password" [vu8 t; v_option v_tag tg; v_bytes p; v_bytes secret; v_bytes ra] w
  = v_result v_avp_error v_avp
      (avp_from_tunnel_password_ssl he (rng (w_random w)) (rng (S (w_random w))) t tg p secret ra)
      [vu8 t; v_option v_tag tg; v_bytes p; v_bytes secret; v_bytes ra]
      (if 240 <? len ra then w else drawn 2 w).
Proof.
  intros. unfold avp_from_tunnel_password_ssl, v_avp; destruct n as [|n]; [lia|]; destruct w as [k tr]; cbn [w_random]; unfold drawn; cbn [w_random w_trace Nat.add].
  destruct tg as [tg|]; unfold v_tag; cbn [v_option].
  all: steps; try reflexivity; rewrite ?n2b_b2n in *; unfold ssl_hash, map_err, bind; rhs_known; try reflexivity;
    first [tunnel_rounds p | xored; steps; reflexivity].
Qed.

(** ** encode_user_password, encode_tunnel_password *)
Ltac dec_round c cs IH :=
  cbn [map password_dec_loop password_dec_loop_ssl];
  rewrite for_loop_cons; unfold ssl_hash, map_err, bind; steps;
  try (rhs_known; reflexivity); xored; steps; rhs_known; apply IH.
Ltac splitted :=
  match goal with
  | |- context [split_loop ?f ?l [] ?s] =>
      let r := fresh "r" in let Hr := fresh "Hr" in
      destruct (split_loop_zero f l [] s) as [r Hr];
      [intros; unfold vu8; steps; change 0 with (b2n x00); rewrite b2n_eqb; reflexivity
      |rewrite Hr; clear Hr; steps]
  end.
Ltac dec_rounds :=
  let cs := fresh "cs" in let buff := fresh "buff" in
  match goal with |- context [map VBytes ?l] => pose (cs := l); change l with cs end;
  match goal with |- context [password_dec_loop ?s ?b ?l] => change (password_dec_loop s b l) with (password_dec_loop s b cs)
  | |- context [password_dec_loop_ssl ?h ?s ?b ?l] => change (password_dec_loop_ssl h s b l) with (password_dec_loop_ssl h s b cs) end;
  clearbody cs;
  match goal with |- context [("buff", VBytes ?b)] => pose (buff := b);
    change ("buff", VBytes b) with ("buff", VBytes buff);
    match goal with |- context [password_dec_loop ?s b] => change (password_dec_loop s b) with (password_dec_loop s buff)
    | |- context [password_dec_loop_ssl ?h ?s b] => change (password_dec_loop_ssl h s b) with (password_dec_loop_ssl h s buff) end
  end; clearbody buff;
  generalize (@nil byte) as dec; revert buff;
  let c := fresh "c" in let IH := fresh "IH" in
  induction cs as [|c cs IH]; intros; [cbn [map]; rewrite for_loop_nil; steps; splitted; reflexivity|];
  dec_round c cs IH.
Lemma run_encode_user_password_md5 n t v secret ra w : (1 <= n)%nat ->
  run (C Md5Crate) n "AVP" "encode_user_password" [v_avp (AVP t v); v_bytes secret; v_bytes ra] w
  = v_result v_avp_error v_bytes (avp_encode_user_password (AVP t v) secret ra) [v_avp (AVP t v); v_bytes secret; v_bytes ra] w.
Proof.
  intros. unfold avp_encode_user_password, v_avp; cbn [avp_typ avp_value]; destruct n as [|n]; [lia|].
  steps; rhs_known; try reflexivity; dec_rounds.
Qed.
Lemma run_encode_user_password_openssl n t v secret ra w : (1 <= n)%nat ->
  run (C Openssl) n "AVP" "encode_user_password" [v_avp (AVP t v); v_bytes secret; v_bytes ra] w
  = v_result v_avp_error v_bytes (avp_encode_user_password_ssl he (AVP t v) secret ra) [v_avp (AVP t v); v_bytes secret; v_bytes ra] w.
Proof.
  intros. unfold avp_encode_user_password_ssl, v_avp; cbn [avp_typ avp_value]; destruct n as [|n]; [lia|].
  steps; rhs_known; try reflexivity; dec_rounds.
Qed.
Lemma run_encode_tunnel_password_md5 n t v secret ra w : (1 <= n)%nat ->
  run (C Md5Crate) n "AVP" "encode_tunnel_password" [v_avp (AVP t v); v_bytes secret; v_bytes ra] w
  = v_result v_avp_error (v_pair v_bytes v_tag) (avp_encode_tunnel_password (AVP t v) secret ra) [v_avp (AVP t v); v_bytes secret; v_bytes ra] w.
Proof.
  intros. unfold avp_encode_tunnel_password, v_avp; cbn [avp_typ avp_value]; destruct n as [|n]; [lia|].
  steps; unfold index, slice, slice_from, bind; rhs_known; try reflexivity; dec_rounds.
Qed.
Lemma run_encode_tunnel_password_openssl n t v secret ra w : (1 <= n)%nat ->
  run (C Openssl) n "AVP" "encode_tunnel_password" [v_avp (AVP t v); v_bytes secret; v_bytes ra] w
  = v_result v_avp_error (v_pair v_bytes v_tag) (avp_encode_tunnel_password_ssl he (AVP t v) secret ra) [v_avp (AVP t v); v_bytes secret; v_bytes ra] w.
Proof.
  intros. unfold avp_encode_tunnel_password_ssl, v_avp; cbn [avp_typ avp_value]; destruct n as [|n]; [lia|].
  steps; unfold index, slice, slice_from, bind; rhs_known; try reflexivity; dec_rounds.
Qed.
End Code.
