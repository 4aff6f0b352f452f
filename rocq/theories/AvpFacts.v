(** * Lemmas about attribute values *)
From Coq Require Import String List NArith ZArith Bool Strings.Byte Lia ZifyBool ZifyNat ZifyN.
From Verif Require Import Prelude PreludeFacts Md5 Utf8 Tag Avp AvpSpec Utf8Facts.
Import ListNotations.
Local Open Scope N_scope.

(** ** integers *)
Lemma be_value_u32 v : v < 2 ^ 32 -> be_value (u32_be v) = v.
Proof.
  intros H. change (2 ^ 32) with 4294967296 in H. unfold be_value, u32_be. cbn [fold_left].
  rewrite !b2n_n2b. lia.
Qed.
Lemma be_value_u16 v : v < 2 ^ 16 -> be_value (u16_be v) = v.
Proof.
  intros H. change (2 ^ 16) with 65536 in H. unfold be_value, u16_be. cbn [fold_left].
  rewrite !b2n_n2b. lia.
Qed.
Lemma be_value_4 a b c d :
  be_value [a; b; c; d] = ((b2n a * 256 + b2n b) * 256 + b2n c) * 256 + b2n d.
Proof. unfold be_value. cbn [fold_left]. lia. Qed.
Lemma be_value_2 a b : be_value [a; b] = b2n a * 256 + b2n b.
Proof. unfold be_value. cbn [fold_left]. lia. Qed.

Lemma slice_to_all {E} bs n : len bs = n -> @slice_to E bs n = Ok bs.
Proof. intros H. rewrite <- (app_nil_r bs) at 1. apply slice_to_app. auto. Qed.

Lemma decode_u32 a :
  (len (avp_value a) = 4 /\ avp_encode_u32 a = Ok (be_value (avp_value a)))
  \/ (len (avp_value a) <> 4
      /\ avp_encode_u32 a = Err (InvalidAttributeLengthError "4 bytes" (len (avp_value a)))).
Proof.
  unfold avp_encode_u32. destruct (len (avp_value a) =? 4) eqn:E; [left|right]; cbn [negb].
  - split; [lia|]. apply N.eqb_eq in E. rewrite slice_to_all by exact E. cbn [bind].
    apply len4 in E as (w & x & y & z & ->). rewrite be_value_4. reflexivity.
  - split; [lia|reflexivity].
Qed.
Lemma decode_u16 a :
  (len (avp_value a) = 2 /\ avp_encode_u16 a = Ok (be_value (avp_value a)))
  \/ (len (avp_value a) <> 2
      /\ avp_encode_u16 a = Err (InvalidAttributeLengthError "2 bytes" (len (avp_value a)))).
Proof.
  unfold avp_encode_u16. destruct (len (avp_value a) =? 2) eqn:E; [left|right]; cbn [negb].
  - split; [lia|]. apply N.eqb_eq in E. rewrite slice_to_all by exact E. cbn [bind].
    apply len2 in E as (w & x & ->). rewrite be_value_2. reflexivity.
  - split; [lia|reflexivity].
Qed.
Lemma roundtrip_u32 typ v : v < 2 ^ 32 ->
  avp_encode_u32 (avp_from_u32 typ v) = Ok v
  /\ be_value (avp_value (avp_from_u32 typ v)) = v
  /\ len (avp_value (avp_from_u32 typ v)) = 4 /\ avp_typ (avp_from_u32 typ v) = typ.
Proof.
  intros H. destruct (decode_u32 (avp_from_u32 typ v)) as [[_ ->]|[X _]]; [|contradiction X; reflexivity].
  cbn [avp_value avp_from_u32]. rewrite be_value_u32 by exact H. auto.
Qed.
Lemma roundtrip_u16 typ v : v < 2 ^ 16 ->
  avp_encode_u16 (avp_from_u16 typ v) = Ok v
  /\ be_value (avp_value (avp_from_u16 typ v)) = v
  /\ len (avp_value (avp_from_u16 typ v)) = 2 /\ avp_typ (avp_from_u16 typ v) = typ.
Proof.
  intros H. destruct (decode_u16 (avp_from_u16 typ v)) as [[_ ->]|[X _]]; [|contradiction X; reflexivity].
  cbn [avp_value avp_from_u16]. rewrite be_value_u16 by exact H. auto.
Qed.

(** ** strings *)
Lemma string_from_utf8_cases bs :
  (is_str bs /\ string_from_utf8 bs = Ok bs)
  \/ (~ is_str bs /\ exists m, string_from_utf8 bs = Err (AvpDecodingError m)).
Proof.
  unfold string_from_utf8. destruct (from_utf8_total bs) as [[S ->]|[S [e ->]]]; cbn [map_err]; eauto.
Qed.
Lemma string_from_utf8_str bs : is_str bs -> string_from_utf8 bs = Ok bs.
Proof. intros S. destruct (string_from_utf8_cases bs) as [[_ E]|[N _]]; [exact E|contradiction]. Qed.

(** ** tagged integers *)
Lemma tag_valid_iff b : (tag_is_valid_value (Tag b) = true <-> 1 <= b2n b <= 0x1f)
  /\ (tag_is_zero (Tag b) = true <-> b2n b = 0).
Proof. unfold tag_is_valid_value, tag_is_zero. cbn [tag_value]. lia. Qed.

Lemma decode_tagged_u32 a :
  match avp_value a with
  | [] => avp_encode_tagged_u32 a = Err TagMissingError
  | t :: rest =>
      (0x1f < b2n t /\ avp_encode_tagged_u32 a = Err InvalidTagForIntegerValueError)
      \/ (b2n t <= 0x1f /\ len rest <> 4
          /\ avp_encode_tagged_u32 a
             = Err (InvalidAttributeLengthError "5 bytes" (len (avp_value a))))
      \/ (b2n t <= 0x1f /\ len rest = 4 /\ avp_encode_tagged_u32 a = Ok (be_value rest, Tag t))
  end.
Proof.
  unfold avp_encode_tagged_u32. destruct (avp_value a) as [|t rest]; [reflexivity|].
  rewrite len_cons. replace (1 + len rest =? 0) with false by lia.
  replace (@index avp_error (t :: rest) 0) with (@Ok avp_error byte t) by reflexivity. cbn [bind].
  destruct (tag_valid_iff t) as [V Z].
  destruct (negb (tag_is_valid_value (Tag t)) && negb (tag_is_zero (Tag t))) eqn:E.
  - left. split; [|reflexivity]. destruct (tag_is_valid_value (Tag t)), (tag_is_zero (Tag t)); cbn in E; lia.
  - right. assert (Hle : b2n t <= 0x1f).
    { destruct (tag_is_valid_value (Tag t)), (tag_is_zero (Tag t)); cbn in E; lia. }
    assert (S : @slice_from avp_error (t :: rest) 1 = Ok rest) by (apply (slice_from_app [t]); reflexivity).
    rewrite S. cbn [bind]. destruct (len rest =? 4) eqn:L; cbn [negb].
    + right. split; [exact Hle|]. apply N.eqb_eq in L. split; [exact L|].
      rewrite slice_to_all by exact L. cbn [bind].
      apply len4 in L as (w & x & y & z & ->). rewrite be_value_4. reflexivity.
    + left. split; [exact Hle|]. split; [lia|reflexivity].
Qed.

(** ** tagged strings *)
Lemma decode_tagged_string a :
  match avp_value a with
  | [] => avp_encode_tagged_string a = Err TagMissingError
  | t :: rest =>
      (b2n t = 0 /\ avp_encode_tagged_string a = Err InvalidTagForStringValueError)
      \/ (1 <= b2n t <= 0x1f /\ is_str rest /\ avp_encode_tagged_string a = Ok (rest, Some (Tag t)))
      \/ (0x1f < b2n t /\ is_str (t :: rest) /\ avp_encode_tagged_string a = Ok (t :: rest, None))
      \/ (((1 <= b2n t <= 0x1f /\ ~ is_str rest) \/ (0x1f < b2n t /\ ~ is_str (t :: rest)))
          /\ exists m, avp_encode_tagged_string a = Err (AvpDecodingError m))
  end.
Proof.
  unfold avp_encode_tagged_string. cbv zeta. destruct (avp_value a) as [|t rest]; [reflexivity|].
  rewrite len_cons. replace (1 + len rest =? 0) with false by lia.
  replace (@index avp_error (t :: rest) 0) with (@Ok avp_error byte t) by reflexivity. cbn [bind].
  destruct (tag_valid_iff t) as [V Z]. destruct (tag_is_valid_value (Tag t)).
  - assert (Hv : 1 <= b2n t <= 0x1f) by (apply V; reflexivity).
    assert (S : @slice_from avp_error (t :: rest) 1 = Ok rest) by (apply (slice_from_app [t]); reflexivity).
    rewrite S. cbn [bind].
    destruct (string_from_utf8_cases rest) as [[U ->]|[U [m ->]]]; cbn [bind].
    + right. left. auto.
    + right. right. right. split; [left; auto|]. eauto.
  - destruct (tag_is_zero (Tag t)).
    + left. split; [apply Z; reflexivity|reflexivity].
    + assert (Hv : 0x1f < b2n t).
      { destruct (N.lt_ge_cases 0x1f (b2n t)); auto. exfalso.
        destruct (N.eq_dec (b2n t) 0) as [e|ne]; [apply Z in e; discriminate|].
        assert (X : 1 <= b2n t <= 0x1f) by lia. apply V in X. discriminate. }
      destruct (string_from_utf8_cases (t :: rest)) as [[U ->]|[U [m ->]]]; cbn [bind].
      * right. right. left. auto.
      * right. right. right. split; [right; auto|]. eauto.
Qed.

(** ** addresses *)
Lemma decode_ipv4 a ip : avp_encode_ipv4 a = Ok ip <-> avp_value a = ipv4_octets ip.
Proof.
  unfold avp_encode_ipv4. split.
  - destruct (len (avp_value a) =? 4) eqn:E; cbn [negb]; [|discriminate].
    apply N.eqb_eq in E. rewrite slice_to_all by exact E. cbn [bind].
    apply len4 in E as (w & x & y & z & ->). intros H. injection H as <-. reflexivity.
  - intros ->. destruct ip. reflexivity.
Qed.
Lemma decode_ipv4_err a : len (avp_value a) <> 4 ->
  avp_encode_ipv4 a = Err (InvalidAttributeLengthError "4 bytes" (len (avp_value a))).
Proof. intros H. unfold avp_encode_ipv4. replace (_ =? 4) with false by lia. reflexivity. Qed.
Lemma ipv4_octets_all bs : len bs = 4 <-> exists ip, bs = ipv4_octets ip.
Proof.
  split.
  - intros E. apply len4 in E as (w & x & y & z & ->). exists (Ipv4 w x y z). reflexivity.
  - intros [[w x y z] ->]. reflexivity.
Qed.
Lemma len16 {A} (l : list A) : len l = 16 -> exists o0 o1 o2 o3 o4 o5 o6 o7 o8 o9 o10 o11 o12 o13 o14 o15,
  l = [o0; o1; o2; o3; o4; o5; o6; o7; o8; o9; o10; o11; o12; o13; o14; o15].
Proof.
  unfold len. intros H. assert (L : length l = 16%nat) by lia. clear H.
  do 16 (destruct l as [|? l]; [discriminate|]). destruct l; [|discriminate].
  repeat eexists.
Qed.
Lemma ipv6_octets_all bs : len bs = 16 <-> exists ip, bs = ipv6_octets ip.
Proof.
  split.
  - intros E. apply len16 in E. do 16 destruct E as [? E]. subst.
    eexists (Ipv6 _ _ _ _ _ _ _ _ _ _ _ _ _ _ _ _). reflexivity.
  - intros [[] ->]. reflexivity.
Qed.
Lemma decode_ipv6 a ip : avp_encode_ipv6 a = Ok ip <-> avp_value a = ipv6_octets ip.
Proof.
  unfold avp_encode_ipv6. split.
  - destruct (len (avp_value a) =? 16) eqn:E; cbn [negb]; [|discriminate].
    apply N.eqb_eq in E. rewrite slice_to_all by exact E. cbn [bind].
    apply ipv6_octets_all in E as [ip' ->]. destruct ip'. cbn [ipv6_octets ipv6_from].
    intros H. injection H as <-. reflexivity.
  - intros ->. destruct ip. reflexivity.
Qed.
Lemma decode_ipv6_err a : len (avp_value a) <> 16 ->
  avp_encode_ipv6 a = Err (InvalidAttributeLengthError "16 bytes" (len (avp_value a))).
Proof. intros H. unfold avp_encode_ipv6. replace (_ =? 16) with false by lia. reflexivity. Qed.

(** ** prefixes *)
Lemma from_ipv4_prefix typ prefix :
  (len prefix = 4 /\ avp_from_ipv4_prefix typ prefix = Ok (AVP typ (x00 :: n2b 4 :: prefix)))
  \/ (len prefix <> 4
      /\ avp_from_ipv4_prefix typ prefix = Err (InvalidAttributeLengthError "4 bytes" (len prefix))).
Proof.
  unfold avp_from_ipv4_prefix. destruct (len prefix =? 4) eqn:E; cbn [negb]; [left|right].
  - apply N.eqb_eq in E. rewrite E. split; reflexivity.
  - split; [lia|reflexivity].
Qed.
Lemma from_ipv6_prefix typ prefix :
  (len prefix <= 16 /\ avp_from_ipv6_prefix typ prefix
                       = Ok (AVP typ (x00 :: n2b (8 * len prefix) :: prefix)))
  \/ (16 < len prefix
      /\ avp_from_ipv6_prefix typ prefix = Err (InvalidAttributeLengthError "16 bytes" (len prefix))).
Proof.
  unfold avp_from_ipv6_prefix. destruct (16 <? len prefix) eqn:E; [right|left].
  - split; [lia|reflexivity].
  - split; [lia|]. rewrite (N.mul_comm 8). reflexivity.
Qed.
Lemma decode_ipv4_prefix a :
  (exists x y prefix, avp_value a = x :: y :: prefix /\ len prefix = 4
                      /\ avp_encode_ipv4_prefix a = Ok prefix)
  \/ (len (avp_value a) <> 6
      /\ avp_encode_ipv4_prefix a = Err (InvalidAttributeLengthError "6 bytes" (len (avp_value a)))).
Proof.
  unfold avp_encode_ipv4_prefix. destruct (len (avp_value a) =? 6) eqn:E; [left|right; split; [lia|reflexivity]].
  apply N.eqb_eq in E. destruct (avp_value a) as [|x [|y prefix]]; try (rewrite ?len_cons, ?len_nil in E; lia).
  exists x, y, prefix. rewrite !len_cons in E. repeat split; [lia|].
  apply (slice_from_app [x; y]). reflexivity.
Qed.
Lemma decode_ipv6_prefix a :
  (exists x y prefix, avp_value a = x :: y :: prefix /\ avp_encode_ipv6_prefix a = Ok prefix)
  \/ (len (avp_value a) < 2
      /\ avp_encode_ipv6_prefix a = Err (InvalidAttributeLengthError "2+ bytes" (len (avp_value a)))).
Proof.
  unfold avp_encode_ipv6_prefix. destruct (2 <=? len (avp_value a)) eqn:E; [left|right; split; [lia|reflexivity]].
  destruct (avp_value a) as [|x [|y prefix]]; try (rewrite ?len_cons, ?len_nil in E; lia).
  exists x, y, prefix. repeat split. apply (slice_from_app [x; y]). reflexivity.
Qed.

(** ** dates *)
Lemma decode_date a :
  (len (avp_value a) = 4 /\ avp_encode_date a = Ok (DateTime (Z.of_N (be_value (avp_value a))) 0))
  \/ (len (avp_value a) <> 4
      /\ avp_encode_date a = Err (InvalidAttributeLengthError "4" (len (avp_value a)))).
Proof.
  unfold avp_encode_date. destruct (len (avp_value a) =? 4) eqn:E; [left|right]; cbn [negb].
  - split; [lia|]. apply N.eqb_eq in E. rewrite slice_to_all by exact E. cbn [bind].
    apply len4 in E as (w & x & y & z & ->). rewrite be_value_4. cbn [u32_from_be].
    pose proof (u32_bound w x y z) as B. set (n := _ + b2n z) in *.
    unfold utc_timestamp_unwrap.
    replace ((-8334601228800 <=? Z.of_N n) && (Z.of_N n <=? 8210266876799))%Z with true by lia.
    reflexivity.
  - split; [lia|reflexivity].
Qed.
Lemma roundtrip_date typ dt :
  avp_encode_date (avp_from_date typ dt) = Ok (DateTime (dt_timestamp dt mod 2 ^ 32) 0).
Proof.
  destruct (decode_date (avp_from_date typ dt)) as [[_ ->]|[X _]]; [|contradiction X; reflexivity].
  cbn [avp_value avp_from_date]. change (2 ^ 32)%Z with 4294967296%Z.
  assert (B : (0 <= dt_timestamp dt mod 4294967296 < 4294967296)%Z) by (apply Z.mod_pos_bound; lia).
  rewrite be_value_u32 by lia. rewrite Z2N.id by lia. reflexivity.
Qed.

(** ** passwords *)
Lemma xor_zip_octets a b : xor_zip a b = xor_octets a b.
Proof. revert b; induction a as [|x a IH]; intros [|y b]; simpl; auto. rewrite IH. reflexivity. Qed.
Lemma xor_octets_comm a b : xor_octets a b = xor_octets b a.
Proof. rewrite <- !xor_zip_octets. apply xor_zip_comm. Qed.

Lemma len_pad_chunk c : len c <= 16 -> len (pad_chunk c) = 16.
Proof.
  intros H. unfold pad_chunk. destruct (len c <? 16) eqn:E; [|lia].
  unfold zeros. autorewrite with len. unfold len in *. lia.
Qed.

Fixpoint enc_blocks (secret prev : bytes) (ps : list bytes) : list bytes :=
  match ps with
  | [] => []
  | p :: ps' => let c := xor_octets p (md5 (secret ++ prev)) in c :: enc_blocks secret c ps'
  end.
Lemma enc_blocks_hidden secret ps : forall prev, hidden_blocks secret prev ps (enc_blocks secret prev ps).
Proof. induction ps as [|p ps IH]; intros prev; simpl; constructor; auto. Qed.
Lemma enc_loop secret cs : forall buff acc,
  password_enc_loop secret buff cs acc = acc ++ concat (enc_blocks secret buff (map pad_chunk cs)).
Proof.
  induction cs as [|c cs IH]; intros buff acc; simpl.
  - rewrite app_nil_r. reflexivity.
  - rewrite IH. rewrite <- app_assoc, xor_zip_octets, xor_octets_comm. reflexivity.
Qed.
Lemma enc_blocks_len secret ps : Forall (fun p => len p = 16) ps -> forall prev,
  Forall (fun p => len p = 16) (enc_blocks secret prev ps) /\ len (enc_blocks secret prev ps) = len ps.
Proof.
  induction 1 as [|p ps H _ IH]; intros prev; simpl; [split; [constructor|reflexivity]|].
  destruct (IH (xor_octets p (md5 (secret ++ prev)))) as [IH1 IH2]. split.
  - constructor; [|exact IH1]. rewrite <- xor_zip_octets. autorewrite with len. lia.
  - rewrite !len_cons, IH2. reflexivity.
Qed.
Lemma concat_len n (ps : list bytes) : Forall (fun p => len p = n) ps -> len (concat ps) = n * len ps.
Proof.
  induction 1 as [|p ps H _ IH]; cbn [concat].
  - rewrite !len_nil, N.mul_0_r. reflexivity.
  - rewrite len_app, len_cons, H, IH. lia.
Qed.

Lemma chunks_concat_blocks ps : Forall (fun p => len p = 16) ps -> chunks 16 (concat ps) = ps.
Proof.
  induction 1 as [|p ps H _ IH]; [reflexivity|]. cbn [concat]. rewrite chunks_app, IH; [reflexivity|lia|].
  unfold len in H. lia.
Qed.

Lemma dec_loop secret ps : Forall (fun p => len p = 16) ps -> forall prev acc,
  password_dec_loop secret prev (enc_blocks secret prev ps) acc = acc ++ concat ps.
Proof.
  induction 1 as [|p ps H _ IH]; intros prev acc; simpl.
  - rewrite app_nil_r. reflexivity.
  - rewrite IH, <- app_assoc. rewrite <- (xor_zip_octets p), (xor_zip_comm p), xor_zip_invol.
    + reflexivity.
    + autorewrite with len. lia.
Qed.

(** the padded blocks of a password *)
Lemma pad_concat pw : pw <> [] -> exists k, concat (map pad_chunk (chunks 16 pw)) = pw ++ zeros k
  /\ (k < 16)%nat.
Proof.
  assert (H16 : (0 < 16)%nat) by lia.
  pattern pw. apply (chunks_ind 16 H16); clear pw; [congruence|]. intros l Hl IH _.
  rewrite chunks_unfold by (auto; lia). cbn [map concat].
  destruct (skipn 16 l) as [|x r] eqn:Sk.
  - rewrite chunks_nil. cbn [map concat]. rewrite app_nil_r.
    assert (L : (length l <= 16)%nat).
    { apply (f_equal (@length byte)) in Sk. rewrite skipn_length in Sk. simpl in Sk. lia. }
    rewrite firstn_all2 by exact L. unfold pad_chunk. destruct (len l <? 16) eqn:E.
    + exists (16 - length l)%nat. split; [reflexivity|]. destruct l; [congruence|]. clear. cbn [length]. lia.
    + exists 0%nat. split; [symmetry; apply app_nil_r|lia].
  - destruct IH as (k & E & Hk); [discriminate|]. rewrite <- Sk in *. exists k. split; [|exact Hk].
    rewrite E. unfold pad_chunk.
    assert (L : len (firstn 16 l) = 16).
    { unfold len. rewrite firstn_length. apply (f_equal (@length byte)) in Sk.
      rewrite skipn_length in Sk. simpl in Sk. lia. }
    rewrite L. change (16 <? 16) with false. cbv iota. rewrite app_assoc, firstn_skipn. reflexivity.
Qed.
Lemma pad_forall pw : Forall (fun p => len p = 16) (map pad_chunk (chunks 16 pw)).
Proof.
  apply Forall_map. eapply Forall_impl; [|apply (chunks_bound 16); lia].
  intros c H. apply len_pad_chunk. unfold len. cbn in H. lia.
Qed.

Definition pw_blocks (pw : bytes) : list bytes :=
  match pw with [] => [zeros 16] | _ => map pad_chunk (chunks 16 pw) end.
Lemma pw_blocks_forall pw : Forall (fun p => len p = 16) (pw_blocks pw).
Proof.
  destruct pw; [|apply pad_forall]. constructor; [reflexivity|constructor].
Qed.
Lemma pw_blocks_concat pw : exists k, concat (pw_blocks pw) = pw ++ zeros k
  /\ ((k < 16)%nat \/ pw = []) /\ (k <= 16)%nat.
Proof.
  destruct pw as [|x pw].
  - exists 16%nat. repeat split; auto.
  - destruct (pad_concat (x :: pw)) as (k & E & Hk); [discriminate|]. exists k. split; [exact E|].
    split; [left; exact Hk|lia].
Qed.
Lemma pw_blocks_spec pw : password_blocks pw (pw_blocks pw).
Proof.
  split; [apply pw_blocks_forall|]. split.
  - destruct pw as [|x pw]; [discriminate|]. cbn [pw_blocks].
    rewrite chunks_unfold by (lia || discriminate). discriminate.
  - destruct (pw_blocks_concat pw) as (k & E & Hk & Hk'). exists k. split; [exact E|].
    split; [destruct Hk; [left; lia|auto]|lia].
Qed.
(** number of blocks *)
Lemma pw_blocks_count pw : len (pw_blocks pw) = N.max 1 ((len pw + 15) / 16).
Proof.
  destruct (pw_blocks_concat pw) as (k & E & Hk & Hk').
  pose proof (concat_len 16 _ (pw_blocks_forall pw)) as C. rewrite E in C. unfold zeros in C.
  autorewrite with len in C. destruct Hk as [Hk|Hk].
  - destruct pw as [|x pw]; [reflexivity|]. rewrite len_cons in *. lia.
  - subst pw. reflexivity.
Qed.

Lemma enc_value secret buff pw :
  (if len pw =? 0 then xor_zip (md5 (secret ++ buff)) (zeros 16)
   else password_enc_loop secret buff (chunks 16 pw) [])
  = concat (enc_blocks secret buff (pw_blocks pw)).
Proof.
  destruct pw as [|x pw].
  - change (len (@nil byte) =? 0) with true. cbn [pw_blocks enc_blocks concat].
    rewrite app_nil_r, xor_octets_comm. apply xor_zip_octets.
  - rewrite len_cons. replace (1 + len pw =? 0) with false by lia. rewrite enc_loop. reflexivity.
Qed.

Lemma from_user_password_cases typ pw secret auth :
  (128 < len pw /\ avp_from_user_password typ pw secret auth
                   = Err (UserPasswordPlainTextMaximumLengthExceededError (len pw)))
  \/ (len pw <= 128 /\ secret = [] /\ avp_from_user_password typ pw secret auth
                                      = Err PasswordSecretMissingError)
  \/ (len pw <= 128 /\ secret <> [] /\ len auth <> 16 /\ avp_from_user_password typ pw secret auth
                                      = Err InvalidRequestAuthenticatorLength)
  \/ (len pw <= 128 /\ secret <> [] /\ len auth = 16 /\ avp_from_user_password typ pw secret auth
       = Ok (AVP typ (concat (enc_blocks secret auth (pw_blocks pw))))).
Proof.
  unfold avp_from_user_password. cbv zeta.
  destruct (128 <? len pw) eqn:E1; [left; split; [lia|reflexivity]|right].
  destruct secret as [|x secret]; [left; repeat split; [lia]|right].
  assert (E2 : len (x :: secret) =? 0 = false) by (rewrite len_cons; lia). rewrite E2.
  destruct (len auth =? 16) eqn:E3; cbn [negb].
  - right. repeat split; [lia|discriminate|lia|].
    rewrite <- enc_value. destruct (len pw =? 0); reflexivity.
  - left. repeat split; [lia|discriminate|lia].
Qed.

Lemma enc_concat_len secret buff pw :
  len (concat (enc_blocks secret buff (pw_blocks pw))) = 16 * N.max 1 ((len pw + 15) / 16).
Proof.
  destruct (enc_blocks_len secret (pw_blocks pw) (pw_blocks_forall pw) buff) as [F L].
  rewrite (concat_len 16 _ F), L, pw_blocks_count. reflexivity.
Qed.

Lemma dec_enc secret buff pw :
  before_first_zero (password_dec_loop secret buff
    (chunks 16 (concat (enc_blocks secret buff (pw_blocks pw)))) []) = before_first_zero pw.
Proof.
  destruct (enc_blocks_len secret (pw_blocks pw) (pw_blocks_forall pw) buff) as [F L].
  rewrite chunks_concat_blocks by exact F. rewrite dec_loop by apply pw_blocks_forall.
  destruct (pw_blocks_concat pw) as (k & E & _). cbn [app]. rewrite E. apply before_first_zero_pad.
Qed.

Lemma user_password_roundtrip typ pw secret auth a :
  avp_from_user_password typ pw secret auth = Ok a ->
  avp_encode_user_password a secret auth = Ok (before_first_zero pw).
Proof.
  intros H. destruct (from_user_password_cases typ pw secret auth)
    as [(_ & E)|[(_ & _ & E)|[(_ & _ & _ & E)|(L & S & A & E)]]]; try congruence.
  rewrite E in H. injection H as <-.
  unfold avp_encode_user_password. cbn [avp_value]. rewrite enc_concat_len.
  replace ((16 * N.max 1 ((len pw + 15) / 16) <? 16)
           || (128 <? 16 * N.max 1 ((len pw + 15) / 16))) with false by lia.
  destruct secret as [|x secret]; [congruence|].
  replace (len (x :: secret) =? 0) with false by (rewrite len_cons; lia).
  rewrite A. cbn [N.eqb Pos.eqb negb]. cbv zeta. rewrite dec_enc. reflexivity.
Qed.

(** ** tunnel passwords *)
Lemma salt_msb r0 : N.land (b2n (n2b (N.lor (b2n r0) 0x80))) 0x80 =? 0x80 = true.
Proof. revert r0. apply forall_bytes. vm_compute. reflexivity. Qed.
Lemma salt_high r0 : 0x80 <= b2n (n2b (N.lor (b2n r0) 0x80)).
Proof.
  apply N.leb_le. revert r0.
  apply (forall_bytes (fun r0 => 0x80 <=? b2n (n2b (N.lor (b2n r0) 0x80)))). vm_compute. reflexivity.
Qed.

Lemma tunnel_salt_zero_body secret buff enc pw :
  (if len pw =? 0 then enc ++ xor_zip (md5 (secret ++ buff)) (zeros 16)
   else password_enc_loop secret buff (chunks 16 pw) enc)
  = enc ++ concat (enc_blocks secret buff (pw_blocks pw)).
Proof.
  rewrite <- enc_value. destruct (len pw =? 0); [reflexivity|]. rewrite !enc_loop. reflexivity.
Qed.

Lemma from_tunnel_password_cases r0 r1 typ t pw secret auth :
  (len auth <> 16 /\ exists e, avp_from_tunnel_password r0 r1 typ t pw secret auth = Err e)
  \/ (len auth = 16 /\ secret = [] /\ avp_from_tunnel_password r0 r1 typ t pw secret auth
                                      = Err PasswordSecretMissingError)
  \/ (len auth = 16 /\ secret <> [] /\ let salt := [n2b (N.lor (b2n r0) 0x80); r1] in
      avp_from_tunnel_password r0 r1 typ t pw secret auth
       = Ok (AVP typ (n2b (tag_octet t) :: salt ++ concat (enc_blocks secret (auth ++ salt) (pw_blocks pw))))).
Proof.
  unfold avp_from_tunnel_password. cbv zeta.
  destruct (240 <? len auth) eqn:E0; [left; split; [lia|eauto]|].
  destruct secret as [|x secret].
  { change (len (@nil byte) =? 0) with true. cbv iota.
    destruct (N.eq_dec (len auth) 16); [right; left; auto|left; split; eauto]. }
  assert (E2 : len (x :: secret) =? 0 = false) by (rewrite len_cons; lia). rewrite E2.
  destruct (len auth =? 16) eqn:E3; cbn [negb]; [|left; split; [lia|eauto]].
  right. right. split; [lia|]. split; [discriminate|].
  replace (n2b (tag_octet t)) with (match t with None => UNUSED_TAG_VALUE | Some t => tag_value t end).
  2:{ destruct t; cbn [tag_octet]; [rewrite n2b_b2n|]; reflexivity. }
  set (salt := [n2b (N.lor (b2n r0) 0x80); r1]).
  set (tg := match t with None => UNUSED_TAG_VALUE | Some t => tag_value t end).
  pose proof (tunnel_salt_zero_body (x :: secret) (auth ++ salt) ([tg] ++ salt) pw) as V.
  destruct (len pw =? 0); rewrite V; reflexivity.
Qed.

Lemma tunnel_password_roundtrip r0 r1 typ t pw secret auth a :
  avp_from_tunnel_password r0 r1 typ t pw secret auth = Ok a ->
  (len pw <= 240 /\ avp_encode_tunnel_password a secret auth
                    = Ok (before_first_zero pw, Tag (n2b (tag_octet t))))
  \/ (240 < len pw /\ exists s n, avp_encode_tunnel_password a secret auth
                    = Err (InvalidAttributeLengthError s n)).
Proof.
  intros H. destruct (from_tunnel_password_cases r0 r1 typ t pw secret auth)
    as [(_ & e & E)|[(_ & _ & E)|(A & S & E)]]; try congruence.
  cbv zeta in E. rewrite E in H. injection H as <-. clear E.
  set (b1 := n2b (N.lor (b2n r0) 0x80)) in *.
  unfold avp_encode_tunnel_password. cbn [avp_value]. cbv zeta.
  set (body := concat (enc_blocks secret (auth ++ [b1; r1]) (pw_blocks pw))).
  change (n2b (tag_octet t) :: [b1; r1] ++ body) with (n2b (tag_octet t) :: b1 :: r1 :: body).
  assert (Lb : len body = 16 * N.max 1 ((len pw + 15) / 16)) by apply enc_concat_len.
  rewrite !len_cons, Lb.
  set (q := N.max 1 ((len pw + 15) / 16)) in *.
  replace (1 + (1 + (1 + 16 * q)) <? 19) with false by lia.
  replace ((1 + (1 + (1 + 16 * q)) - 3) mod 16 =? 0) with true by lia.
  cbn [negb orb]. rewrite orb_false_r.
  destruct (243 <? 1 + (1 + (1 + 16 * q))) eqn:Big.
  - right. split; [lia|eauto].
  - left. split; [lia|].
    replace (@index avp_error (n2b (tag_octet t) :: b1 :: r1 :: body) 1) with (@Ok avp_error byte b1)
      by reflexivity.
    cbn [bind]. unfold b1 at 1. rewrite salt_msb. cbn [negb].
    destruct secret as [|x secret]; [congruence|].
    replace (len (x :: secret) =? 0) with false by (rewrite len_cons; lia).
    rewrite A. cbn [N.eqb Pos.eqb negb].
    replace (@index avp_error (n2b (tag_octet t) :: b1 :: r1 :: body) 0)
      with (@Ok avp_error byte (n2b (tag_octet t))) by reflexivity.
    cbn [bind].
    rewrite (slice_app [n2b (tag_octet t)] [b1; r1] body) by reflexivity. cbn [bind].
    rewrite (slice_from_app [n2b (tag_octet t); b1; r1] body) by reflexivity. cbn [bind].
    unfold body. rewrite dec_enc. reflexivity.
Qed.

(** ** decoders always return *)
Lemma returns_ok {E A} (v : A) : returns (@Ok E A v). Proof. left; eauto. Qed.
Lemma returns_err {E A} (e : E) : returns (@Err E A e). Proof. right; eauto. Qed.
#[export] Hint Resolve returns_ok returns_err : core.

Lemma user_password_returns a secret auth : returns (avp_encode_user_password a secret auth).
Proof.
  unfold avp_encode_user_password.
  repeat match goal with |- context [if ?b then _ else _] => destruct b end; auto.
Qed.
Lemma tunnel_password_returns a secret auth : returns (avp_encode_tunnel_password a secret auth).
Proof.
  unfold avp_encode_tunnel_password. cbv zeta.
  destruct ((len (avp_value a) <? 19) || (243 <? len (avp_value a))
            || negb ((len (avp_value a) - 3) mod 16 =? 0)) eqn:E; auto.
  assert (L : 19 <= len (avp_value a)) by lia.
  destruct (avp_value a) as [|b0 [|b1 [|b2 body]]]; try (rewrite ?len_cons, ?len_nil in L; lia).
  replace (@index avp_error (b0 :: b1 :: b2 :: body) 1) with (@Ok avp_error byte b1) by reflexivity.
  replace (@index avp_error (b0 :: b1 :: b2 :: body) 0) with (@Ok avp_error byte b0) by reflexivity.
  rewrite (slice_app [b0] [b1; b2] body) by reflexivity.
  rewrite (slice_from_app [b0; b1; b2] body) by reflexivity. cbn [bind].
  repeat match goal with |- context [if ?b then _ else _] => destruct b end; auto.
Qed.
