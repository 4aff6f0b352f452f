(** * C56, C63: passwords and peers that follow RFC 2865 and RFC 2868; C59: padding *)
From Coq Require Import String List NArith ZArith Bool Arith Strings.Byte Lia ZifyBool ZifyNat ZifyN.
From Verif Require Import Prelude Md5 Tag Code Avp Attributes Packet PreludeFacts Spec AuthFacts Samples PropPacket
  AvpSpec AvpFacts PropAvp AccessorFacts InteropSpec.
Import ListNotations.
Local Open Scope N_scope.
Local Open Scope list_scope.

(** ** what the decoders make of hidden blocks *)
Lemma hidden_is_enc secret prev blocks cs : hidden_blocks secret prev blocks cs -> cs = enc_blocks secret prev blocks.
Proof. intros H. eapply C22_hidden_unique; [exact H|apply enc_blocks_hidden]. Qed.

Lemma up_to_nul_before plain : up_to_nul plain (before_first_zero plain).
Proof.
  induction plain as [|x l IH]; [split; [intros []|left; reflexivity]|].
  cbn [before_first_zero]. destruct (Byte.eqb x x00) eqn:E.
  - apply byte_eqb_iff in E. subst x. split; [intros []|right]. exists l. reflexivity.
  - apply byte_eqb_neq in E. destruct IH as [N [D|(rest & D)]].
    + split; [intros [X|X]; [congruence|exact (N X)]|left]. f_equal. exact D.
    + split; [intros [X|X]; [congruence|exact (N X)]|right]. exists rest. cbn [app]. f_equal. exact D.
Qed.
Lemma up_to_nul_unique plain a b : up_to_nul plain a -> up_to_nul plain b -> a = b.
Proof.
  revert a b. induction plain as [|x l IH]; intros a b [Na Da] [Nb Db].
  - destruct Da as [<-|(r & Da)]; [|destruct a; discriminate]. destruct Db as [<-|(r & Db)]; [reflexivity|destruct b; discriminate].
  - assert (G : forall c, ~ In x00 c -> (x :: l = c \/ exists r, x :: l = c ++ x00 :: r) ->
        (c = [] /\ x = x00) \/ exists c', c = x :: c' /\ x <> x00 /\ up_to_nul l c').
    { intros c N D. destruct c as [|y c'].
      - left. destruct D as [D|(r & D)]; [discriminate|]. injection D as -> _. auto.
      - right. exists c'. assert (y = x) as -> by (destruct D as [D|(r & D)]; injection D as -> _; reflexivity).
        split; [reflexivity|]. split; [intros ->; apply N; left; reflexivity|].
        split; [intros I; apply N; right; exact I|].
        destruct D as [D|(r & D)]; injection D as D; [left; exact D|right; exists r; exact D]. }
    destruct (G a Na Da) as [[-> Ea]|(a' & -> & Xa & Ha)], (G b Nb Db) as [[-> Eb]|(b' & -> & Xb & Hb)]; try congruence.
    f_equal. apply IH; assumption.
Qed.

Lemma user_decode_blocks typ secret auth blocks :
  Forall (fun p => len p = 16) blocks -> 1 <= len blocks <= 8 -> secret <> [] -> len auth = 16 ->
  avp_encode_user_password (AVP typ (concat (enc_blocks secret auth blocks))) secret auth
  = Ok (before_first_zero (concat blocks)).
Proof.
  intros F L S A. destruct (enc_blocks_len secret blocks F auth) as [F' L'].
  assert (LC : len (concat (enc_blocks secret auth blocks)) = 16 * len blocks) by (rewrite (concat_len 16 _ F'), L'; reflexivity).
  unfold avp_encode_user_password. cbn [avp_value]. rewrite LC.
  replace ((16 * len blocks <? 16) || (128 <? 16 * len blocks)) with false by lia.
  destruct secret as [|x secret]; [congruence|].
  replace (len (x :: secret) =? 0) with false by (rewrite len_cons; lia).
  rewrite A. cbn [N.eqb Pos.eqb negb]. cbv zeta.
  rewrite chunks_concat_blocks by exact F'. rewrite dec_loop by exact F. reflexivity.
Qed.

Lemma salt_bit s0 : 0x80 <= b2n s0 -> N.land (b2n s0) 0x80 =? 0x80 = true.
Proof.
  intros H. assert (G : forall s, (b2n s <? 0x80) || (N.land (b2n s) 0x80 =? 0x80) = true).
  { apply forall_bytes. vm_compute. reflexivity. }
  specialize (G s0). lia.
Qed.
Lemma tunnel_decode_blocks typ secret auth tg s0 s1 blocks :
  Forall (fun p => len p = 16) blocks -> 1 <= len blocks <= 15 -> secret <> [] -> len auth = 16 ->
  0x80 <= b2n s0 ->
  avp_encode_tunnel_password
    (AVP typ (tg :: s0 :: s1 :: concat (enc_blocks secret (auth ++ [s0; s1]) blocks))) secret auth
  = Ok (before_first_zero (concat blocks), Tag tg).
Proof.
  intros F L S A H. destruct (enc_blocks_len secret blocks F (auth ++ [s0; s1])) as [F' L'].
  set (body := concat (enc_blocks secret (auth ++ [s0; s1]) blocks)).
  assert (Lb : len body = 16 * len blocks) by (unfold body; rewrite (concat_len 16 _ F'), L'; reflexivity).
  unfold avp_encode_tunnel_password. cbn [avp_value]. cbv zeta. rewrite !len_cons, Lb.
  replace (1 + (1 + (1 + 16 * len blocks)) <? 19) with false by lia.
  replace (243 <? 1 + (1 + (1 + 16 * len blocks))) with false by lia.
  replace ((1 + (1 + (1 + 16 * len blocks)) - 3) mod 16 =? 0) with true by lia.
  cbn [negb orb].
  replace (@index avp_error (tg :: s0 :: s1 :: body) 1) with (@Ok avp_error byte s0) by reflexivity.
  cbn [bind]. rewrite salt_bit by exact H. cbn [negb].
  destruct secret as [|x secret]; [congruence|].
  replace (len (x :: secret) =? 0) with false by (rewrite len_cons; lia).
  rewrite A. cbn [N.eqb Pos.eqb negb].
  replace (@index avp_error (tg :: s0 :: s1 :: body) 0) with (@Ok avp_error byte tg) by reflexivity.
  cbn [bind].
  rewrite (slice_app [tg] [s0; s1] body) by reflexivity. cbn [bind].
  rewrite (slice_from_app [tg; s0; s1] body) by reflexivity. cbn [bind].
  unfold body. rewrite chunks_concat_blocks by exact F'. rewrite dec_loop by exact F. reflexivity.
Qed.

(** the hiding can be undone *)
Lemma xor_cancel p m : len p = 16 -> len m = 16 -> xor_octets (xor_octets p m) m = p.
Proof.
  intros P M. rewrite <- !xor_zip_octets. rewrite (xor_zip_comm (xor_zip p m)), (xor_zip_comm p).
  apply xor_zip_invol. lia.
Qed.
Lemma enc_blocks_inj secret : forall blocks blocks' prev,
  Forall (fun p => len p = 16) blocks -> Forall (fun p => len p = 16) blocks' ->
  enc_blocks secret prev blocks = enc_blocks secret prev blocks' -> blocks = blocks'.
Proof.
  induction blocks as [|p ps IH]; intros [|p' ps'] prev F F' E; try discriminate; [reflexivity|].
  cbn [enc_blocks] in E. injection E as E1 E2.
  assert (p = p') as <-.
  { rewrite <- (xor_cancel p (md5 (secret ++ prev))), E1, xor_cancel; try reflexivity;
      try (apply Forall_inv in F, F'; assumption); apply len_md5. }
  f_equal. eapply IH; [exact (Forall_inv_tail F)|exact (Forall_inv_tail F')|exact E2].
Qed.

(** ** C56: no Tunnel-Password survives the exchange with a peer that follows RFC 2868 *)
Lemma zero_head l : forall c k k', l ++ repeat x00 k = c :: l ++ repeat x00 k' -> c = x00.
Proof.
  induction l as [|x l IH]; intros c k k' E.
  - destruct k; [discriminate|]. injection E as <- _. reflexivity.
  - cbn [app] in E. injection E as <- E. exact (IH _ _ _ E).
Qed.
Lemma n2b_not_zero n : 0 < n -> n < 256 -> n2b n <> x00.
Proof. intros H H' X. apply (f_equal b2n) in X. rewrite b2n_n2b_small in X by exact H'. change (b2n x00) with 0 in X. lia. Qed.

(** What is read from an attribute that follows RFC 2868: the octet with the length, and the
    password; so never the password (unless it is empty). *)
Theorem C56_received : forall typ secret auth tag_field pw value,
  rfc2868_tunnel_password secret auth tag_field pw value -> secret <> [] -> len auth = 16 ->
  exists got, avp_encode_tunnel_password (AVP typ value) secret auth = Ok (got, Tag tag_field)
    /\ up_to_nul (n2b (len pw) :: pw) got
    /\ (pw <> [] -> got <> pw).
Proof.
  intros typ secret auth tg pw value (s0 & s1 & blocks & cs & k & -> & H & L & F & C & K & HB) S A.
  rewrite (hidden_is_enc _ _ _ _ HB). exists (before_first_zero (concat blocks)).
  assert (LB : 16 * len blocks = 1 + len pw + N.of_nat k).
  { pose proof (concat_len 16 _ F) as X. rewrite C in X. rewrite len_cons, len_app in X.
    assert (Y : len (repeat x00 k) = N.of_nat k) by (unfold len; rewrite repeat_length; reflexivity). rewrite Y in X. etransitivity; [symmetry; exact X|lia]. }
  split; [apply tunnel_decode_blocks; auto; lia|].
  assert (U : up_to_nul (n2b (len pw) :: pw) (before_first_zero (concat blocks))).
  { rewrite C. change (n2b (len pw) :: pw ++ repeat x00 k) with ((n2b (len pw) :: pw) ++ zeros k).
    rewrite before_first_zero_pad. apply up_to_nul_before. }
  split; [exact U|]. intros NE E. rewrite E in U. destruct U as [N [D|(rest & D)]].
  - apply (f_equal (@length byte)) in D. cbn [length] in D. lia.
  - assert (Lz : forall (l : bytes) c r, c :: l = l ++ x00 :: r -> l = [] \/ c <> x00 -> In x00 l \/ (l = [] /\ c = x00)).
    { intros l c r X _. assert (length r = 0%nat).
      { apply (f_equal (@length byte)) in X. rewrite app_length in X. cbn [length] in X. lia. }
      destruct r; [|discriminate].
      assert (c = x00).
      { apply (zero_head l c 1 0). cbn [repeat]. rewrite app_nil_r. symmetry. exact X. }
      destruct l as [|y l]; [right; auto|left]. subst c. injection X as X _. left. symmetry. exact X. }
    destruct (Lz pw _ rest D) as [I|[I _]]; [|exact (N I)|exact (NE I)].
    right. destruct pw as [|y pw]; [congruence|]. apply n2b_not_zero; [rewrite len_cons; lia|lia].
Qed.
(** the same in the common case *)
Theorem C56_received_text : forall typ secret auth tag_field pw value,
  rfc2868_tunnel_password secret auth tag_field pw value -> secret <> [] -> len auth = 16 ->
  pw <> [] -> ~ In x00 pw ->
  avp_encode_tunnel_password (AVP typ value) secret auth = Ok (n2b (len pw) :: pw, Tag tag_field).
Proof.
  intros typ secret auth tg pw value R S A NE N.
  pose proof R as (_ & _ & _ & _ & _ & _ & _ & L & _).
  destruct (C56_received typ _ _ _ _ _ R S A) as (got & E & U & _). rewrite E. do 2 f_equal.
  apply (up_to_nul_unique (n2b (len pw) :: pw)); [exact U|]. split; [|left; reflexivity].
  intros [X|X]; [|exact (N X)]. destruct pw as [|y pw]; [congruence|].
  apply (n2b_not_zero (len (y :: pw))); [rewrite len_cons; lia|lia|exact X].
Qed.
(** No attribute made by this library is one that RFC 2868 prescribes for the password (unless
    that is empty). *)
Theorem C56_sent : forall r0 r1 typ t pw secret auth a tag_field,
  avp_from_tunnel_password r0 r1 typ t pw secret auth = Ok a -> pw <> [] ->
  ~ rfc2868_tunnel_password secret auth tag_field pw (avp_value a).
Proof.
  intros r0 r1 typ t pw secret auth a tg E NE (s0 & s1 & blocks & cs & k & V & _ & L & F & C & _ & HB).
  destruct (from_tunnel_password_cases r0 r1 typ t pw secret auth)
    as [(_ & e & X)|[(_ & _ & X)|(_ & _ & X)]]; try congruence.
  cbv zeta in X. rewrite X in E. injection E as <-. cbn [avp_value app] in V.
  rewrite (hidden_is_enc _ _ _ _ HB) in V. injection V as _ <- <- V.
  apply (f_equal (chunks 16)) in V.
  rewrite !chunks_concat_blocks in V
    by (apply enc_blocks_len; assumption || apply pw_blocks_forall).
  apply enc_blocks_inj in V; [|apply pw_blocks_forall|exact F].
  destruct (pw_blocks_concat pw) as (k' & C' & _). rewrite V, C in C'. symmetry in C'.
  apply zero_head in C'. destruct pw as [|y pw]; [congruence|].
  apply (n2b_not_zero (len (y :: pw))); [rewrite len_cons; lia|lia|exact C'].
Qed.
(** What remains: the empty password. *)
Theorem C56_empty_password_partial : forall r0 r1 typ t secret auth,
  secret <> [] -> len auth = 16 ->
  (exists a, avp_from_tunnel_password r0 r1 typ t [] secret auth = Ok a
     /\ rfc2868_tunnel_password secret auth (n2b (tag_octet t)) [] (avp_value a))
  /\ (forall tag_field value, rfc2868_tunnel_password secret auth tag_field [] value ->
      avp_encode_tunnel_password (AVP typ value) secret auth = Ok ([], Tag tag_field)).
Proof.
  intros r0 r1 typ t secret auth S A. split.
  - destruct (from_tunnel_password_cases r0 r1 typ t [] secret auth)
      as [(X & _)|[(_ & X & _)|(_ & _ & X)]]; try contradiction.
    eexists. split; [exact X|]. cbn [avp_value app].
    exists (n2b (N.lor (b2n r0) 0x80)), r1, (pw_blocks []), (enc_blocks secret (auth ++ [n2b (N.lor (b2n r0) 0x80); r1]) (pw_blocks [])), 15%nat.
    split; [reflexivity|]. split; [apply salt_high|]. split; [apply N.le_0_l|].
    split; [apply pw_blocks_forall|]. split; [reflexivity|]. split; [reflexivity|]. apply enc_blocks_hidden.
  - intros tg value R. destruct (C56_received typ _ _ _ _ _ R S A) as (got & E & U & _). rewrite E.
    do 2 f_equal. apply (up_to_nul_unique [x00]); [exact U|]. split; [intros []|right; exists []; reflexivity].
Qed.
(** REFUTED as expected by a user: *)
Theorem C56_rfc2868_peer_refuted : exists typ secret auth tag_field pw value,
  rfc2868_tunnel_password secret auth tag_field pw value
  /\ avp_encode_tunnel_password (AVP typ value) secret auth <> Ok (pw, Tag tag_field).
Proof.
  set (pw := bytes_of_string "secret"). set (s := sample_secret). set (au := sample_authenticator).
  set (bl := [n2b 6 :: pw ++ repeat x00 9]).
  assert (R : rfc2868_tunnel_password s au x01 pw (x01 :: x80 :: x07 :: concat (enc_blocks s (au ++ [x80; x07]) bl))).
  { exists x80, x07, bl, (enc_blocks s (au ++ [x80; x07]) bl), 9%nat.
    split; [reflexivity|]. split; [vm_compute; discriminate|]. split; [vm_compute; discriminate|].
    split; [repeat constructor|]. split; [reflexivity|]. split; [reflexivity|]. apply enc_blocks_hidden. }
  exists (n2b 69), s, au, x01, pw. eexists. split; [exact R|].
  rewrite (C56_received_text _ _ _ _ _ _ R); try (vm_compute; intuition discriminate). 
Qed.

(** ** C63: what is read from any User-Password attribute *)
Lemma decrypt_exists secret cs : Forall (fun p => len p = 16) cs -> forall prev,
  exists blocks, Forall (fun p => len p = 16) blocks /\ cs = enc_blocks secret prev blocks.
Proof.
  induction 1 as [|c cs H _ IH]; intros prev; [exists []; split; [constructor|reflexivity]|].
  destruct (IH c) as (bl & F & E). exists (xor_octets c (md5 (secret ++ prev)) :: bl). split.
  - constructor; [|exact F]. rewrite <- xor_zip_octets. autorewrite with len. lia.
  - cbn [enc_blocks]. rewrite xor_cancel by (exact H || apply len_md5). f_equal. exact E.
Qed.
Lemma whole_blocks (v : bytes) : len v mod 16 = 0 -> exists cs, Forall (fun p => len p = 16) cs /\ v = concat cs.
Proof.
  assert (H16 : (0 < 16)%nat) by lia.
  pattern v. apply (chunks_ind 16 H16); clear v; [intros _; exists []; split; [constructor|reflexivity]|].
  intros l Hl IH M.
  assert (L : 16 <= len l).
  { destruct l as [|x l]; [congruence|]. rewrite len_cons in M |- *. lia. }
  assert (Ls : len (skipn 16 l) = len l - 16) by (unfold len in *; rewrite skipn_length; lia).
  destruct IH as (cs & F & E).
  { rewrite Ls. lia. }
  exists (firstn 16 l :: cs). split.
  - constructor; [|exact F]. unfold len in *. rewrite firstn_length. lia.
  - cbn [concat]. rewrite <- E, firstn_skipn. reflexivity.
Qed.
(** Whole blocks: there is exactly one plain text, and what is returned is the part of it before
    the first NUL. *)
Theorem C63_user_password_read_partial : forall typ value secret auth,
  len value mod 16 = 0 -> 16 <= len value <= 128 -> secret <> [] -> len auth = 16 ->
  exists blocks pw, rfc2865_hidden secret auth blocks value
    /\ (forall blocks', rfc2865_hidden secret auth blocks' value -> blocks' = blocks)
    /\ up_to_nul (concat blocks) pw
    /\ avp_encode_user_password (AVP typ value) secret auth = Ok pw.
Proof.
  intros typ value secret auth M L S A. destruct (whole_blocks value M) as (cs & F & ->).
  destruct (decrypt_exists secret cs F auth) as (blocks & FB & ->).
  exists blocks, (before_first_zero (concat blocks)). split; [|split; [|split]].
  - exists (enc_blocks secret auth blocks). split; [reflexivity|]. split; [exact FB|apply enc_blocks_hidden].
  - intros blocks' (cs' & E & FB' & HB). rewrite (hidden_is_enc _ _ _ _ HB) in E.
    apply (f_equal (chunks 16)) in E.
    rewrite !chunks_concat_blocks in E by (exact F || apply enc_blocks_len; assumption).
    apply enc_blocks_inj in E; auto.
  - apply up_to_nul_before.
  - apply user_decode_blocks; auto. rewrite (concat_len 16 _ F) in L.
    destruct (enc_blocks_len secret blocks FB auth) as [_ LE]. rewrite LE in L. lia.
Qed.
(** The attribute is accepted exactly when it has 16 to 128 octets, also if the last block is
    incomplete. *)
Theorem C63_accepted_iff : forall a secret auth, secret <> [] -> len auth = 16 ->
  (16 <= len (avp_value a) <= 128 <-> exists pw, avp_encode_user_password a secret auth = Ok pw).
Proof.
  intros a secret auth S A. unfold avp_encode_user_password.
  destruct ((len (avp_value a) <? 16) || (128 <? len (avp_value a))) eqn:E.
  - split; [lia|]. intros (pw & X). discriminate.
  - destruct secret as [|x secret]; [congruence|].
    replace (len (x :: secret) =? 0) with false by (rewrite len_cons; lia).
    rewrite A. cbn [N.eqb Pos.eqb negb]. cbv zeta. split; [intros _; eexists; reflexivity|intros _; lia].
Qed.
Theorem C63_incomplete_block_refuted : exists a secret auth pw,
  len (avp_value a) mod 16 <> 0 /\ avp_encode_user_password a secret auth = Ok pw /\ pw <> [].
Proof.
  exists (AVP (n2b 2) (repeat x01 17)), sample_secret, sample_authenticator. eexists.
  split; [vm_compute; discriminate|]. split; [vm_compute; reflexivity|discriminate].
Qed.
Example C63_example :
  avp_encode_user_password (AVP (n2b 2) (octets sample_request 28 44)) sample_secret sample_authenticator
  = Ok (bytes_of_string "arctangent").
Proof. vm_compute. reflexivity. Qed.

(** ** C59: octets after the end of the packet *)
Lemma authentic_request_cases data secret :
  (packet_is_authentic_request data secret = Ok true /\ request_authentic data secret)
  \/ (packet_is_authentic_request data secret = Ok false /\ ~ request_authentic data secret).
Proof.
  destruct (C12_is_authentic_request data secret) as (b & E & H). destruct b; [left|right]; split; auto.
  - apply H. reflexivity.
  - intros X. apply H in X. discriminate.
Qed.
Lemma octets_app (a b : bytes) i j : (j <= length a)%nat -> octets (a ++ b) i j = octets a i j.
Proof.
  intros H. unfold octets. destruct (Nat.le_gt_cases i j) as [I|I].
  - rewrite skipn_app, firstn_app, skipn_length.
    replace (j - i - (length a - i))%nat with 0%nat by lia. cbn [firstn]. apply app_nil_r.
  - replace (j - i)%nat with 0%nat by lia. reflexivity.
Qed.
(** It does not change the verdict for Access-Request and Status-Server... *)
Theorem C59_padding_request_partial : forall c rest padding secret,
  20 <= len (c :: rest) -> b2n c = 1 \/ b2n c = 12 ->
  packet_is_authentic_request ((c :: rest) ++ padding) secret
  = packet_is_authentic_request (c :: rest) secret.
Proof.
  intros c rest padding secret L C.
  destruct (authentic_request_cases ((c :: rest) ++ padding) secret) as [(-> & A)|(-> & A)];
  destruct (authentic_request_cases (c :: rest) secret) as [(-> & B)|(-> & B)]; try reflexivity; exfalso.
  - apply B. destruct A as (_ & S & _). split; [exact L|]. split; [exact S|].
    exists c, rest. split; [reflexivity|tauto].
  - apply A. destruct B as (_ & S & _). split; [rewrite len_app; lia|]. split; [exact S|].
    exists c, (rest ++ padding). split; [reflexivity|tauto].
Qed.
(** ... but for the other requests and for replies the padding is hashed: the padded datagram is
    only accepted as well if MD5 collides. *)
Theorem C59_padding_is_hashed : forall c rest padding secret,
  b2n c = 4 \/ b2n c = 40 \/ b2n c = 43 -> padding <> [] ->
  packet_is_authentic_request (c :: rest) secret = Ok true ->
  packet_is_authentic_request ((c :: rest) ++ padding) secret = Ok true ->
  exists x y, x <> y /\ md5 x = md5 y.
Proof.
  intros c rest padding secret C NP A B.
  destruct (authentic_request_cases (c :: rest) secret) as [(_ & RA)|(X & _)]; [|congruence].
  destruct (authentic_request_cases ((c :: rest) ++ padding) secret) as [(_ & RB)|(X & _)]; [|congruence].
  destruct RA as (L & _ & c1 & r1 & E1 & HA). destruct RB as (_ & _ & c2 & r2 & E2 & HB).
  injection E1 as <- <-. injection E2 as <- <-.
  destruct HA as [X|[X|[_ HA]]]; try lia. destruct HB as [X|[X|[_ HB]]]; try lia.
  exists (request_hash_input (c :: rest) secret), (request_hash_input ((c :: rest) ++ padding) secret).
  split.
  - intros E. unfold request_hash_input in E. apply (f_equal (@length byte)) in E.
    rewrite octets_app in E by (unfold len in L; lia).
    rewrite skipn_app in E. rewrite !app_length, skipn_length in E.
    replace (20 - length (c :: rest))%nat with 0%nat in E by (unfold len in L; lia). cbn [skipn] in E.
    destruct padding; [congruence|]. cbn [length] in E. lia.
  - rewrite <- HA, <- HB. symmetry. apply octets_app. unfold len in L. lia.
Qed.
Theorem C59_response_padding_is_hashed : forall response request padding secret, padding <> [] ->
  packet_is_authentic_response response request secret = Ok true ->
  packet_is_authentic_response (response ++ padding) request secret = Ok true ->
  exists x y, x <> y /\ md5 x = md5 y.
Proof.
  intros response request padding secret NP A B.
  destruct (C11_is_authentic_response response request secret) as (b & Eb & Hb).
  destruct (C11_is_authentic_response (response ++ padding) request secret) as (b' & Eb' & Hb').
  rewrite Eb in A. rewrite Eb' in B. injection A as ->. injection B as ->.
  destruct (proj1 Hb eq_refl) as (L & _ & _ & HA). destruct (proj1 Hb' eq_refl) as (_ & _ & _ & HB).
  exists (response_hash_input response request secret), (response_hash_input (response ++ padding) request secret).
  split.
  - intros E. unfold response_hash_input in E. apply (f_equal (@length byte)) in E.
    rewrite octets_app in E by (unfold len in L; lia).
    rewrite skipn_app in E. rewrite !app_length, skipn_length in E.
    replace (20 - length response)%nat with 0%nat in E by (unfold len in L; lia). cbn [skipn] in E.
    destruct padding; [congruence|]. cbn [length] in E. lia.
  - rewrite <- HA, <- HB. symmetry. apply octets_app. unfold len in L. lia.
Qed.
(** REFUTED: an authentic Accounting-Request with padding decodes to the same packet (C02) but is
    not accepted as authentic. *)
Theorem C59_padding_ignored_refuted : exists datagram padding secret p,
  packet_decode datagram secret = Ok p /\ packet_decode (datagram ++ padding) secret = Ok p
  /\ packet_is_authentic_request datagram secret = Ok true
  /\ packet_is_authentic_request (datagram ++ padding) secret = Ok false.
Proof.
  destruct (packet_encode Release sample_accounting) as [d| | |] eqn:E; try (vm_compute in E; discriminate E).
  exists d, [x00], sample_secret. vm_compute in E. injection E as <-. eexists.
  split; [vm_compute; reflexivity|]. split; [vm_compute; reflexivity|]. split; vm_compute; reflexivity.
Qed.

(** * Assumptions *)
Print Assumptions C56_received.
Print Assumptions C56_received_text.
Print Assumptions C56_sent.
Print Assumptions C56_empty_password_partial.
Print Assumptions C56_rfc2868_peer_refuted.
Print Assumptions C63_user_password_read_partial.
Print Assumptions C63_accepted_iff.
Print Assumptions C63_incomplete_block_refuted.
Print Assumptions C59_padding_request_partial.
Print Assumptions C59_padding_is_hashed.
Print Assumptions C59_response_padding_is_hashed.
Print Assumptions C59_padding_ignored_refuted.
