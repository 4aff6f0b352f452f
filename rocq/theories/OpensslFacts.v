(** * [Openssl.v], used where the source text is run, and AvpOpenssl.v / PacketOpenssl.v are the same *)
From Coq Require Import String List NArith Bool Strings.Byte Lia.
From Verif Require Import Prelude Md5 Tag Code Avp AvpOpenssl Attributes Packet PacketOpenssl Openssl.
Import ListNotations.
Local Open Scope N_scope.

(** the hash that fails on the inputs [he] gives an error for *)
Definition hash_of (he : bytes -> option string) : hash_fn :=
  fun b => match he b with None => inr (md5 b) | Some m => inl m end.

Section Same.
Context (he : bytes -> option string).
Lemma avp_hash_ssl b : map_err AvpHashComputationFailed (ssl_hash he b) = avp_hash (hash_of he) b.
Proof. unfold ssl_hash, avp_hash, hash_of. destruct (he b); reflexivity. Qed.
Lemma enc_loop_ssl secret cs : forall buff enc,
  password_enc_loop_ssl he secret buff cs enc = password_enc_loop_ossl (hash_of he) secret buff cs enc.
Proof.
  induction cs as [|c cs IH]; intros; cbn [password_enc_loop_ssl password_enc_loop_ossl]; [reflexivity|].
  rewrite avp_hash_ssl. destruct (avp_hash _ _); cbn [bind]; try reflexivity. apply IH.
Qed.
Lemma dec_loop_ssl secret cs : forall buff dec,
  password_dec_loop_ssl he secret buff cs dec = password_dec_loop_ossl (hash_of he) secret buff cs dec.
Proof.
  induction cs as [|c cs IH]; intros; cbn [password_dec_loop_ssl password_dec_loop_ossl]; [reflexivity|].
  rewrite avp_hash_ssl. destruct (avp_hash _ _); cbn [bind]; try reflexivity. apply IH.
Qed.
Lemma from_user_password_ssl t p s ra :
  avp_from_user_password_ssl he t p s ra = avp_from_user_password_ossl (hash_of he) t p s ra.
Proof.
  unfold avp_from_user_password_ssl, avp_from_user_password_ossl. now rewrite avp_hash_ssl, enc_loop_ssl.
Qed.
Lemma from_tunnel_password_ssl r0 r1 typ t p s ra :
  avp_from_tunnel_password_ssl he r0 r1 typ t p s ra = avp_from_tunnel_password_ossl (hash_of he) r0 r1 typ t p s ra.
Proof.
  unfold avp_from_tunnel_password_ssl, avp_from_tunnel_password_ossl. now rewrite avp_hash_ssl, enc_loop_ssl.
Qed.
Lemma encode_user_password_ssl a s ra :
  avp_encode_user_password_ssl he a s ra = avp_encode_user_password_ossl (hash_of he) a s ra.
Proof. unfold avp_encode_user_password_ssl, avp_encode_user_password_ossl. now rewrite dec_loop_ssl. Qed.
Lemma encode_tunnel_password_ssl a s ra :
  avp_encode_tunnel_password_ssl he a s ra = avp_encode_tunnel_password_ossl (hash_of he) a s ra.
Proof.
  unfold avp_encode_tunnel_password_ssl, avp_encode_tunnel_password_ossl. cbv zeta.
  destruct (_ || _ || _); [reflexivity|].
  destruct (index (avp_value a) 1); cbn [bind]; try reflexivity.
  destruct (negb _); try reflexivity. destruct (len s =? 0); try reflexivity. destruct (negb (len ra =? 16)); try reflexivity.
  destruct (index (avp_value a) 0); cbn [bind]; try reflexivity.
  destruct (slice (avp_value a) 1 3); cbn [bind]; try reflexivity.
  destruct (slice_from (avp_value a) 3); cbn [bind]; try reflexivity.
  now rewrite dec_loop_ssl.
Qed.
Lemma packet_encode_ssl_ossl pr p : packet_encode_ssl he pr p = packet_encode_ossl (hash_of he) pr p.
Proof.
  unfold packet_encode_ssl, packet_encode_ossl, ssl_hash, hash_of.
  destruct (map_err EncodingError (packet_marshal_binary pr p)); cbn [bind]; try reflexivity.
  destruct (p_code p); try reflexivity.
  all: destruct (slice_to a 4); cbn [bind]; try reflexivity.
  all: destruct (slice_from a RADIUS_PACKET_HEADER_LENGTH); cbn [bind]; try reflexivity.
  all: destruct (he _); reflexivity.
Qed.
Lemma is_authentic_response_ssl rs rq s :
  packet_is_authentic_response_ssl he rs rq s = packet_is_authentic_response_ossl (hash_of he) rs rq s.
Proof.
  unfold packet_is_authentic_response_ssl, packet_is_authentic_response_ossl, ssl_hash_expect, ssl_hash, hash_of.
  destruct (_ || _ || _); [reflexivity|].
  destruct (slice_to rs 4); cbn [bind]; try reflexivity.
  destruct (slice rq 4 _); cbn [bind]; try reflexivity.
  destruct (slice_from rs _); cbn [bind]; try reflexivity.
  destruct (he _); reflexivity.
Qed.
Lemma is_authentic_request_ssl rq s :
  packet_is_authentic_request_ssl he rq s = packet_is_authentic_request_ossl (hash_of he) rq s.
Proof.
  unfold packet_is_authentic_request_ssl, packet_is_authentic_request_ossl, ssl_hash_expect, ssl_hash, hash_of.
  destruct (_ || _); [reflexivity|].
  destruct (index rq 0); cbn [bind]; try reflexivity.
  destruct (code_from a); try reflexivity.
  all: destruct (slice_to rq 4); cbn [bind]; try reflexivity.
  all: destruct (slice_from rq _); cbn [bind]; try reflexivity.
  all: destruct (he _); reflexivity.
Qed.
Lemma hash_of_md5 b d : hash_of he b = inr d -> d = md5 b.
Proof. unfold hash_of. destruct (he b); congruence. Qed.
Lemma hash_of_total : (forall b, he b = None) -> forall b, exists d, hash_of he b = inr d.
Proof. intros H b. unfold hash_of. rewrite H. eauto. Qed.

(** the checks: a failing hash is a panic *)
Lemma is_authentic_response_panics rs rq s :
  20 <= len rs -> 20 <= len rq -> s <> [] -> (forall b, he b <> None) ->
  packet_is_authentic_response_ossl (hash_of he) rs rq s = Panic.
Proof.
  intros R Q S H. unfold packet_is_authentic_response_ossl, RADIUS_PACKET_HEADER_LENGTH.
  replace (len rs <? 20) with false by (symmetry; apply N.ltb_ge; exact R).
  replace (len rq <? 20) with false by (symmetry; apply N.ltb_ge; exact Q).
  assert (Z : (len s =? 0) = false) by (apply N.eqb_neq; destruct s; [congruence|unfold len; cbn; lia]).
  rewrite Z. cbn [orb]. unfold slice_to, slice, slice_from.
  replace (4 <=? len rs) with true by (symmetry; apply N.leb_le; lia).
  replace (20 <=? len rq) with true by (symmetry; apply N.leb_le; lia).
  replace (20 <=? len rs) with true by (symmetry; apply N.leb_le; lia).
  cbn [andb bind]. change (4 <=? 20) with true. cbn [andb bind].
  unfold hash_of.
  match goal with |- context [he ?b] => specialize (H b); destruct (he b); [reflexivity|congruence] end.
Qed.
Lemma is_authentic_request_panics rq s :
  20 <= len rq -> s <> [] -> (forall b, he b <> None) ->
  nth_error rq 0 = Some x04 \/ nth_error rq 0 = Some x28 \/ nth_error rq 0 = Some x2b ->
  packet_is_authentic_request_ossl (hash_of he) rq s = Panic.
Proof.
  intros Q S H K. unfold packet_is_authentic_request_ossl, RADIUS_PACKET_HEADER_LENGTH.
  replace (len rq <? 20) with false by (symmetry; apply N.ltb_ge; exact Q).
  assert (Z : (len s =? 0) = false) by (apply N.eqb_neq; destruct s; [congruence|unfold len; cbn; lia]).
  rewrite Z. cbn [orb]. unfold index, slice_to, slice, slice_from.
  replace (4 <=? len rq) with true by (symmetry; apply N.leb_le; lia).
  replace (20 <=? len rq) with true by (symmetry; apply N.leb_le; lia).
  change (N.to_nat 0) with 0%nat.
  destruct K as [-> | [-> | ->]]; cbn [bind]; cbv [code_from code_try_from]; cbn [andb bind];
    unfold hash_of;
    match goal with |- context [he ?b] => specialize (H b); destruct (he b); [reflexivity|congruence] end.
Qed.
End Same.
