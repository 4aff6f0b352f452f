(** * Final theorems about the two hash back ends: C50 *)
From Coq Require Import String List NArith ZArith Bool Strings.Byte Lia ZifyBool ZifyNat ZifyN.
From Verif Require Import Prelude PreludeFacts Md5 Tag Code Avp AvpOpenssl Attributes Packet
  PacketOpenssl Spec Samples.
Import ListNotations.
Local Open Scope N_scope.
Local Open Scope list_scope.

(** A back end computes MD5 whenever it does not fail. *)
Definition computes_md5 (hash : hash_fn) : Prop := forall data d, hash data = inr d -> d = md5 data.
Definition never_fails (hash : hash_fn) : Prop := forall data, exists d, hash data = inr d.

(** The two builds agree, or the hash failed where the other build succeeds and its error is
    reported (no other error, no partial result). *)
Definition agree {E A} (hash : hash_fn) (failure : string -> E) (md5_build ossl_build : res E A) : Prop :=
  ossl_build = md5_build
  \/ ((exists v, md5_build = Ok v)
      /\ exists data err, hash data = inl err /\ ossl_build = Err (failure err)).

Section backend.
  Context (hash : hash_fn) (H : computes_md5 hash).

  Lemma hash_cases data : hash data = inr (md5 data) \/ exists err, hash data = inl err.
  Proof.
    destruct (hash data) as [err|d] eqn:E; [right; eauto|left; rewrite (H _ _ E); reflexivity].
  Qed.

  Lemma enc_loop_agree secret cs : forall buff enc,
    password_enc_loop_ossl hash secret buff cs enc = Ok (password_enc_loop secret buff cs enc)
    \/ exists data err, hash data = inl err
       /\ password_enc_loop_ossl hash secret buff cs enc = Err (AvpHashComputationFailed err).
  Proof.
    induction cs as [|c cs IH]; intros buff enc; [left; reflexivity|].
    cbn [password_enc_loop_ossl password_enc_loop]. unfold avp_hash at 1 2.
    destruct (hash_cases (secret ++ buff)) as [E|(err & E)]; rewrite E; cbn [bind].
    - apply IH.
    - right. exists (secret ++ buff), err. auto.
  Qed.
  Lemma dec_loop_agree secret cs : forall buff dec,
    password_dec_loop_ossl hash secret buff cs dec = Ok (password_dec_loop secret buff cs dec)
    \/ exists data err, hash data = inl err
       /\ password_dec_loop_ossl hash secret buff cs dec = Err (AvpHashComputationFailed err).
  Proof.
    induction cs as [|c cs IH]; intros buff dec; [left; reflexivity|].
    cbn [password_dec_loop_ossl password_dec_loop]. unfold avp_hash at 1 2.
    destruct (hash_cases (secret ++ buff)) as [E|(err & E)]; rewrite E; cbn [bind].
    - apply IH.
    - right. exists (secret ++ buff), err. auto.
  Qed.
  Lemma agree_refl {E A} (f : string -> E) (r : res E A) : agree hash f r r.
  Proof. left. reflexivity. Qed.
  Lemma agree_fail {E A} (f : string -> E) (v : A) data err :
    hash data = inl err -> agree hash f (Ok v) (Err (f err)).
  Proof. intros X. right. split; eauto. Qed.
End backend.
#[local] Hint Resolve agree_refl agree_fail : core.

(** ** Passwords *)
Theorem C50_user_password : forall hash typ pw secret auth, computes_md5 hash ->
  agree hash AvpHashComputationFailed (avp_from_user_password typ pw secret auth)
    (avp_from_user_password_ossl hash typ pw secret auth).
Proof.
  intros hash typ pw secret auth H.
  unfold avp_from_user_password, avp_from_user_password_ossl. cbv zeta.
  destruct (128 <? len pw); auto. destruct (len secret =? 0); auto.
  destruct (negb (len auth =? 16)); auto. destruct (len pw =? 0).
  - unfold avp_hash. destruct (hash_cases hash H (secret ++ auth)) as [E|(err & E)]; rewrite E;
      cbn [bind]; eauto.
  - destruct (enc_loop_agree hash H secret (chunks 16 pw) auth []) as [E|(data & err & X & E)];
      rewrite E; cbn [bind]; eauto.
Qed.
Theorem C50_user_password_decode : forall hash a secret auth, computes_md5 hash ->
  agree hash AvpHashComputationFailed (avp_encode_user_password a secret auth)
    (avp_encode_user_password_ossl hash a secret auth).
Proof.
  intros hash a secret auth H.
  unfold avp_encode_user_password, avp_encode_user_password_ossl. cbv zeta.
  destruct (_ || _); auto. destruct (len secret =? 0); auto.
  destruct (negb (len auth =? 16)); auto.
  destruct (dec_loop_agree hash H secret (chunks 16 (avp_value a)) auth [])
    as [E|(data & err & X & E)]; rewrite E; cbn [bind]; eauto.
Qed.
Theorem C50_tunnel_password : forall hash r0 r1 typ t pw secret auth, computes_md5 hash ->
  agree hash AvpHashComputationFailed (avp_from_tunnel_password r0 r1 typ t pw secret auth)
    (avp_from_tunnel_password_ossl hash r0 r1 typ t pw secret auth).
Proof.
  intros hash r0 r1 typ t pw secret auth H.
  unfold avp_from_tunnel_password, avp_from_tunnel_password_ossl. cbv zeta.
  destruct (240 <? len auth); auto. destruct (len secret =? 0); auto.
  destruct (negb (len auth =? 16)); auto.
  set (salt := [n2b (N.lor (b2n r0) 0x80); r1]).
  set (enc := [match t with None => UNUSED_TAG_VALUE | Some t => tag_value t end] ++ salt).
  unfold avp_hash.
  destruct (hash_cases hash H (secret ++ auth ++ salt)) as [E|(err & E)]; rewrite E; cbn [bind];
    destruct (len pw =? 0); eauto.
  destruct (enc_loop_agree hash H secret (chunks 16 pw) (auth ++ salt) enc)
    as [F|(data & err & X & F)]; rewrite F; cbn [bind]; eauto.
Qed.
Theorem C50_tunnel_password_decode : forall hash a secret auth, computes_md5 hash ->
  agree hash AvpHashComputationFailed (avp_encode_tunnel_password a secret auth)
    (avp_encode_tunnel_password_ossl hash a secret auth).
Proof.
  intros hash a secret auth H.
  unfold avp_encode_tunnel_password, avp_encode_tunnel_password_ossl. cbv zeta.
  destruct (_ || _); auto.
  destruct (index (avp_value a) 1); cbn [bind]; auto.
  destruct (negb _); auto. destruct (len secret =? 0); auto. destruct (negb (len auth =? 16)); auto.
  destruct (index (avp_value a) 0); cbn [bind]; auto.
  destruct (slice (avp_value a) 1 3) as [salt|e| |]; cbn [bind]; auto.
  destruct (slice_from (avp_value a) 3) as [body|e| |]; cbn [bind]; auto.
  destruct (dec_loop_agree hash H secret (chunks 16 body) (auth ++ salt) [])
    as [E|(data & err & X & E)]; rewrite E; cbn [bind]; eauto.
Qed.

(** ** Packets *)
Theorem C50_encode : forall hash pr p, computes_md5 hash ->
  agree hash HashComputationFailed (packet_encode pr p) (packet_encode_ossl hash pr p).
Proof.
  intros hash pr p H. unfold packet_encode, packet_encode_ossl.
  destruct (map_err EncodingError (packet_marshal_binary pr p)) as [bs|e| |] eqn:M; cbn [bind]; auto.
  destruct (p_code p); auto.
  all: destruct (slice_to bs 4) as [hdr|e| |]; cbn [bind]; auto.
  all: destruct (slice_from bs RADIUS_PACKET_HEADER_LENGTH) as [tail|e| |] eqn:T; cbn [bind]; auto; cbv zeta.
  all: match goal with H : computes_md5 ?h |- context [match ?h ?d with inl _ => _ | inr _ => _ end] =>
         destruct (hash_cases h H d) as [E|(err & E)]; rewrite E; auto end.
  all: right; split; [|eauto].
  all: unfold splice; unfold slice_from in T.
  all: assert (L : len bs <? RADIUS_PACKET_HEADER_LENGTH = false)
    by (destruct (len bs <? RADIUS_PACKET_HEADER_LENGTH) eqn:Q; [|reflexivity]; exfalso;
        revert T; unfold RADIUS_PACKET_HEADER_LENGTH in *;
        repeat match goal with |- context [if ?b then _ else _] => destruct b eqn:? end;
        intros; try discriminate; lia).
  all: unfold RADIUS_PACKET_HEADER_LENGTH in L;
       repeat match goal with |- context [if ?b then _ else _] => destruct b eqn:? end; eauto; lia.
Qed.

(** [is_authentic_*] have no error to report: a failing hash aborts the task. *)
Definition agree_or_panic (hash : hash_fn) (md5_build ossl_build : res unit bool) : Prop :=
  ossl_build = md5_build
  \/ (ossl_build = Panic /\ exists data err, hash data = inl err).
Theorem C50_is_authentic_response : forall hash response request secret, computes_md5 hash ->
  agree_or_panic hash (packet_is_authentic_response response request secret)
    (packet_is_authentic_response_ossl hash response request secret).
Proof.
  intros hash response request secret H.
  unfold packet_is_authentic_response, packet_is_authentic_response_ossl.
  destruct (_ || _); [left; reflexivity|].
  destruct (slice_to response 4) as [a| | |]; cbn [bind]; try (left; reflexivity).
  destruct (slice request 4 _) as [b| | |]; cbn [bind]; try (left; reflexivity).
  destruct (slice_from response _) as [c| | |]; cbn [bind]; try (left; reflexivity).
  destruct (hash_cases hash H (a ++ b ++ c ++ secret)) as [E|(err & E)]; rewrite E;
    [left; reflexivity|right; eauto].
Qed.
Theorem C50_is_authentic_request : forall hash request secret, computes_md5 hash ->
  agree_or_panic hash (packet_is_authentic_request request secret)
    (packet_is_authentic_request_ossl hash request secret).
Proof.
  intros hash request secret H.
  unfold packet_is_authentic_request, packet_is_authentic_request_ossl.
  destruct (_ || _); [left; reflexivity|].
  destruct (index request 0) as [b| | |]; cbn [bind]; try (left; reflexivity).
  destruct (code_from b); try (left; reflexivity).
  all: destruct (slice_to request 4) as [a| | |]; cbn [bind]; try (left; reflexivity).
  all: destruct (slice_from request _) as [c| | |]; cbn [bind]; try (left; reflexivity).
  all: destruct (hash_cases hash H (a ++ zeros 16 ++ c ++ secret)) as [E|(err & E)]; rewrite E;
    [left; reflexivity|right; eauto].
Qed.

(** If the hash never fails the two builds are the same functions. *)
Theorem C50_same_functions : forall hash, computes_md5 hash -> never_fails hash ->
  (forall pr p, packet_encode_ossl hash pr p = packet_encode pr p)
  /\ (forall response request secret,
        packet_is_authentic_response_ossl hash response request secret
        = packet_is_authentic_response response request secret)
  /\ (forall request secret,
        packet_is_authentic_request_ossl hash request secret
        = packet_is_authentic_request request secret)
  /\ (forall typ pw secret auth,
        avp_from_user_password_ossl hash typ pw secret auth
        = avp_from_user_password typ pw secret auth)
  /\ (forall a secret auth,
        avp_encode_user_password_ossl hash a secret auth = avp_encode_user_password a secret auth)
  /\ (forall r0 r1 typ t pw secret auth,
        avp_from_tunnel_password_ossl hash r0 r1 typ t pw secret auth
        = avp_from_tunnel_password r0 r1 typ t pw secret auth)
  /\ (forall a secret auth,
        avp_encode_tunnel_password_ossl hash a secret auth
        = avp_encode_tunnel_password a secret auth).
Proof.
  intros hash H NF.
  assert (X : forall data err, hash data <> inl err).
  { intros data err E. destruct (NF data) as [d D]. congruence. }
  assert (Y : forall E A f (a b : res E A), agree hash f a b -> b = a).
  { intros E A f a b [Q|(_ & data & err & Q & _)]; [exact Q|destruct (X _ _ Q)]. }
  assert (Z : forall a b, agree_or_panic hash a b -> b = a).
  { intros a b [Q|(_ & data & err & Q)]; [exact Q|destruct (X _ _ Q)]. }
  repeat split; intros.
  - eapply Y, C50_encode, H.
  - apply Z, C50_is_authentic_response, H.
  - apply Z, C50_is_authentic_request, H.
  - eapply Y, C50_user_password, H.
  - eapply Y, C50_user_password_decode, H.
  - eapply Y, C50_tunnel_password, H.
  - eapply Y, C50_tunnel_password_decode, H.
Qed.

(** Back ends as assumed exist: a working one, one that always fails, and one that fails on long
    inputs only. *)
Example C50_example_hash : computes_md5 (fun d => inr (md5 d)) /\ never_fails (fun d => inr (md5 d)).
Proof. split; [intros data d E; congruence|intros data; eauto]. Qed.
Example C50_example_failing :
  let hash := fun d => if len d <? 20 then inr (md5 d) else inl "disabled in FIPS mode"%string in
  computes_md5 hash
  /\ packet_encode_ossl hash Debug sample_packet = Ok sample_request
  /\ packet_encode_ossl hash Debug (packet_make_response_packet sample_packet AccessAccept)
     = Err (HashComputationFailed "disabled in FIPS mode")
  /\ packet_is_authentic_response_ossl hash sample_response sample_request sample_secret = Panic.
Proof.
  cbv zeta. split.
  - intros data d. destruct (len data <? 20); congruence.
  - repeat split; vm_compute; reflexivity.
Qed.

(** * Assumptions *)
Print Assumptions C50_user_password.
Print Assumptions C50_user_password_decode.
Print Assumptions C50_tunnel_password.
Print Assumptions C50_tunnel_password_decode.
Print Assumptions C50_encode.
Print Assumptions C50_is_authentic_response.
Print Assumptions C50_is_authentic_request.
Print Assumptions C50_same_functions.
