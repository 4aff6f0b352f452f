(** * Final theorems about attribute values: C15-C26.

    A Rust [u32]/[u16] argument is a number below 2^32/2^16, a [&str] argument is a byte list
    satisfying [is_str]; specification vocabulary in [AvpSpec]. *)
From Coq Require Import String List NArith ZArith Bool Strings.Byte Lia.
From Verif Require Import Prelude PreludeFacts Md5 Utf8 Tag Avp AvpSpec Utf8Facts AvpFacts Samples.
Import ListNotations.
Local Open Scope N_scope.

(** ** C15 *)
Theorem C15_u32_roundtrip : forall typ v, v < 2 ^ 32 ->
  avp_encode_u32 (avp_from_u32 typ v) = Ok v
  /\ be_value (avp_value (avp_from_u32 typ v)) = v
  /\ len (avp_value (avp_from_u32 typ v)) = 4 /\ avp_typ (avp_from_u32 typ v) = typ.
Proof. exact roundtrip_u32. Qed.
Theorem C15_u16_roundtrip : forall typ v, v < 2 ^ 16 ->
  avp_encode_u16 (avp_from_u16 typ v) = Ok v
  /\ be_value (avp_value (avp_from_u16 typ v)) = v
  /\ len (avp_value (avp_from_u16 typ v)) = 2 /\ avp_typ (avp_from_u16 typ v) = typ.
Proof. exact roundtrip_u16. Qed.
Theorem C15_u32_decode : forall a,
  (len (avp_value a) = 4 /\ avp_encode_u32 a = Ok (be_value (avp_value a)))
  \/ (len (avp_value a) <> 4
      /\ avp_encode_u32 a = Err (InvalidAttributeLengthError "4 bytes" (len (avp_value a)))).
Proof. exact decode_u32. Qed.
Theorem C15_u16_decode : forall a,
  (len (avp_value a) = 2 /\ avp_encode_u16 a = Ok (be_value (avp_value a)))
  \/ (len (avp_value a) <> 2
      /\ avp_encode_u16 a = Err (InvalidAttributeLengthError "2 bytes" (len (avp_value a)))).
Proof. exact decode_u16. Qed.
Example C15_example : avp_from_u32 (n2b 6) 16909060 = AVP (n2b 6) (nb [1; 2; 3; 4]).
Proof. reflexivity. Qed.

(** ** C16 *)
Theorem C16_string_roundtrip : forall typ s, is_str s ->
  avp_encode_string (avp_from_string typ s) = Ok s.
Proof. intros typ s. apply string_from_utf8_str. Qed.
Theorem C16_string_decode : forall a,
  (is_str (avp_value a) /\ avp_encode_string a = Ok (avp_value a))
  \/ (~ is_str (avp_value a) /\ exists m, avp_encode_string a = Err (AvpDecodingError m)).
Proof. intros a. apply string_from_utf8_cases. Qed.
(** the error text reports a position up to which the value is valid UTF-8 *)
Theorem C16_string_error_position : forall a m, avp_encode_string a = Err (AvpDecodingError m) ->
  exists cs rest e, Forall scalar cs /\ avp_value a = utf8_text cs ++ rest
    /\ valid_up_to e = len (utf8_text cs) /\ m = utf8_error_display e.
Proof.
  intros a m H. unfold avp_encode_string, string_from_utf8, from_utf8 in H.
  destruct (utf8_run 0 (avp_value a)) as [e|] eqn:E; [|discriminate].
  injection H as <-. destruct (utf8_run_idx _ _ _ _ (Nat.le_refl _) E) as (cs & rest & F & V & I).
  exists cs, rest, e. auto.
Qed.
Example C16_example :
  is_str (nb [0x68; 0xC3; 0xA9; 0xE2; 0x82; 0xAC; 0xF0; 0x9F; 0x98; 0x80]).
Proof.
  exists [0x68; 0xE9; 0x20AC; 0x1F600]. split; [|reflexivity].
  repeat constructor; unfold scalar; lia.
Qed.
Example C16_example_surrogate :
  avp_encode_string (AVP (n2b 1) (nb [0x61; 0xED; 0xA0; 0x80]))
  = Err (AvpDecodingError "invalid utf-8 sequence of 1 bytes from index 1").
Proof. vm_compute. reflexivity. Qed.

(** ** C17 *)
Theorem C17_tagged_u32_roundtrip : forall typ t v,
  v < 2 ^ 32 -> tag_octet t <= 0x1f ->
  avp_encode_tagged_u32 (avp_from_tagged_u32 typ t v) = Ok (v, Tag (n2b (tag_octet t))).
Proof.
  intros typ t v V T. pose proof (decode_tagged_u32 (avp_from_tagged_u32 typ t v)) as D.
  assert (E : avp_value (avp_from_tagged_u32 typ t v) = n2b (tag_octet t) :: u32_be v).
  { destruct t as [[b]|]; unfold avp_from_tagged_u32; cbn [avp_value tag_octet tag_value app];
      [rewrite n2b_b2n|]; reflexivity. }
  rewrite E in D. rewrite b2n_n2b_small in D by lia.
  destruct D as [(X & _)|[(_ & X & _)|(_ & _ & D)]]; [lia|contradiction X; reflexivity|].
  rewrite D, be_value_u32 by exact V. reflexivity.
Qed.
Theorem C17_tagged_u32_decode : forall a,
  match avp_value a with
  | [] => avp_encode_tagged_u32 a = Err TagMissingError
  | t :: rest =>
      (0x1f < b2n t /\ avp_encode_tagged_u32 a = Err InvalidTagForIntegerValueError)
      \/ (b2n t <= 0x1f /\ len rest <> 4
          /\ avp_encode_tagged_u32 a
             = Err (InvalidAttributeLengthError "5 bytes" (len (avp_value a))))
      \/ (b2n t <= 0x1f /\ len rest = 4 /\ avp_encode_tagged_u32 a = Ok (be_value rest, Tag t))
  end.
Proof. exact decode_tagged_u32. Qed.
Example C17_example : avp_encode_tagged_u32 (AVP (n2b 64) (nb [0x1f; 0; 0; 0; 3])) = Ok (3, Tag (n2b 0x1f)).
Proof. reflexivity. Qed.
(** RFC 2868 section 3.1 puts a tag and a 3-octet value into such attributes: that form is
    rejected by the library. *)
Example C17_rfc2868_form_rejected :
  avp_encode_tagged_u32 (AVP (n2b 64) (nb [1; 0; 0; 3])) = Err (InvalidAttributeLengthError "5 bytes" 4).
Proof. reflexivity. Qed.

(** ** C18 *)
Theorem C18_tagged_string_roundtrip : forall typ t s,
  is_str s -> 1 <= b2n (tag_value t) <= 0x1f ->
  avp_encode_tagged_string (avp_from_tagged_string typ (Some t) s) = Ok (s, Some t).
Proof.
  intros typ [b] s S V. pose proof (decode_tagged_string (avp_from_tagged_string typ (Some (Tag b)) s)) as D.
  cbn [avp_from_tagged_string avp_value tag_value app] in *.
  destruct D as [(X & _)|[(_ & _ & D)|[(X & _)|([[_ X]|[X _]] & _)]]]; try lia; [exact D|contradiction].
Qed.
Theorem C18_untagged_string : forall typ s, is_str s ->
  (avp_encode_tagged_string (avp_from_tagged_string typ None s) = Ok (s, None)
   <-> exists b rest, s = b :: rest /\ 0x1f < b2n b).
Proof.
  intros typ s S. pose proof (decode_tagged_string (avp_from_tagged_string typ None s)) as D.
  cbn [avp_from_tagged_string avp_value] in *. destruct s as [|b rest].
  - rewrite D. split; [discriminate|]. intros (b & r & X & _). discriminate.
  - destruct D as [(X & D)|[(X & _ & D)|[(X & _ & D)|([[X N]|[_ N]] & (m & D))]]]; rewrite D;
      (split; [intros Y; try discriminate; eauto|intros (b' & r' & Y & Z); injection Y as <- <-; try lia; auto]);
      contradiction.
Qed.
Theorem C18_zero_tag_rejected : forall typ rest,
  avp_encode_tagged_string (AVP typ (x00 :: rest)) = Err InvalidTagForStringValueError.
Proof.
  intros typ rest. pose proof (decode_tagged_string (AVP typ (x00 :: rest))) as D.
  cbn [avp_value] in D. change (b2n x00) with 0 in D.
  destruct D as [(_ & D)|[(X & _)|[(X & _)|([[X _]|[X _]] & _)]]]; auto; lia.
Qed.
Theorem C18_tagged_string_decode : forall a,
  match avp_value a with
  | [] => avp_encode_tagged_string a = Err TagMissingError
  | t :: rest =>
      (b2n t = 0 /\ avp_encode_tagged_string a = Err InvalidTagForStringValueError)
      \/ (1 <= b2n t <= 0x1f /\ is_str rest /\ avp_encode_tagged_string a = Ok (rest, Some (Tag t)))
      \/ (0x1f < b2n t /\ is_str (t :: rest) /\ avp_encode_tagged_string a = Ok (t :: rest, None))
      \/ (((1 <= b2n t <= 0x1f /\ ~ is_str rest) \/ (0x1f < b2n t /\ ~ is_str (t :: rest)))
          /\ exists m, avp_encode_tagged_string a = Err (AvpDecodingError m))
  end.
Proof. exact decode_tagged_string. Qed.
Example C18_example : avp_encode_tagged_string (avp_from_tagged_string (n2b 66) (Some (Tag (n2b 31))) (bytes_of_string "10.0.0.1"))
  = Ok (bytes_of_string "10.0.0.1", Some (Tag (n2b 31))).
Proof. reflexivity. Qed.

(** ** C19 *)
Theorem C19_ipv4_roundtrip : forall typ ip, avp_encode_ipv4 (avp_from_ipv4 typ ip) = Ok ip.
Proof. intros typ ip. apply decode_ipv4. reflexivity. Qed.
Theorem C19_ipv4_inverse : forall a ip, avp_encode_ipv4 a = Ok ip -> avp_from_ipv4 (avp_typ a) ip = a.
Proof. intros [t v] ip H. apply decode_ipv4 in H. cbn in H. subst v. reflexivity. Qed.
Theorem C19_ipv4_decode : forall a,
  (len (avp_value a) = 4 /\ exists ip, avp_encode_ipv4 a = Ok ip /\ ipv4_octets ip = avp_value a)
  \/ (len (avp_value a) <> 4
      /\ avp_encode_ipv4 a = Err (InvalidAttributeLengthError "4 bytes" (len (avp_value a)))).
Proof.
  intros a. destruct (N.eq_dec (len (avp_value a)) 4) as [E|E]; [left|right].
  - split; [exact E|]. apply ipv4_octets_all in E as [ip E]. exists ip. split; [apply decode_ipv4; auto|auto].
  - split; [exact E|]. apply decode_ipv4_err. exact E.
Qed.
Theorem C19_ipv6_roundtrip : forall typ ip, avp_encode_ipv6 (avp_from_ipv6 typ ip) = Ok ip.
Proof. intros typ ip. apply decode_ipv6. reflexivity. Qed.
Theorem C19_ipv6_inverse : forall a ip, avp_encode_ipv6 a = Ok ip -> avp_from_ipv6 (avp_typ a) ip = a.
Proof. intros [t v] ip H. apply decode_ipv6 in H. cbn in H. subst v. reflexivity. Qed.
Theorem C19_ipv6_decode : forall a,
  (len (avp_value a) = 16 /\ exists ip, avp_encode_ipv6 a = Ok ip /\ ipv6_octets ip = avp_value a)
  \/ (len (avp_value a) <> 16
      /\ avp_encode_ipv6 a = Err (InvalidAttributeLengthError "16 bytes" (len (avp_value a)))).
Proof.
  intros a. destruct (N.eq_dec (len (avp_value a)) 16) as [E|E]; [left|right].
  - split; [exact E|]. apply ipv6_octets_all in E as [ip E]. exists ip. split; [apply decode_ipv6; auto|auto].
  - split; [exact E|]. apply decode_ipv6_err. exact E.
Qed.
Example C19_example :
  avp_encode_ipv4 (AVP (n2b 4) (nb [192; 168; 1; 16])) = Ok (Ipv4 (n2b 192) (n2b 168) (n2b 1) (n2b 16)).
Proof. reflexivity. Qed.

(** ** C20 *)
Theorem C20_ipv4_prefix_roundtrip : forall typ prefix,
  (len prefix = 4 /\ exists a, avp_from_ipv4_prefix typ prefix = Ok a /\ avp_encode_ipv4_prefix a = Ok prefix)
  \/ (len prefix <> 4
      /\ avp_from_ipv4_prefix typ prefix = Err (InvalidAttributeLengthError "4 bytes" (len prefix))).
Proof.
  intros typ prefix. destruct (from_ipv4_prefix typ prefix) as [[L E]|E]; [left|right; exact E].
  split; [exact L|]. eexists. split; [exact E|].
  destruct (decode_ipv4_prefix (AVP typ (x00 :: n2b 4 :: prefix))) as [(x & y & q & V & _ & D)|[X _]].
  - injection V as <- <- <-. exact D.
  - contradiction X. cbn [avp_value]. rewrite !len_cons, L. reflexivity.
Qed.
Theorem C20_ipv6_prefix_roundtrip : forall typ prefix,
  (len prefix <= 16 /\ exists a, avp_from_ipv6_prefix typ prefix = Ok a
     /\ avp_value a = x00 :: n2b (8 * len prefix) :: prefix /\ avp_encode_ipv6_prefix a = Ok prefix)
  \/ (16 < len prefix
      /\ avp_from_ipv6_prefix typ prefix = Err (InvalidAttributeLengthError "16 bytes" (len prefix))).
Proof.
  intros typ prefix. destruct (from_ipv6_prefix typ prefix) as [[L E]|E]; [left|right; exact E].
  split; [exact L|]. eexists. split; [exact E|]. split; [reflexivity|].
  destruct (decode_ipv6_prefix (AVP typ (x00 :: n2b (8 * len prefix) :: prefix)))
    as [(x & y & q & V & D)|[X _]].
  - injection V as <- <- <-. exact D.
  - cbn [avp_value] in X. rewrite !len_cons in X. lia.
Qed.
Theorem C20_ipv4_prefix_decode : forall a,
  (exists x y prefix, avp_value a = x :: y :: prefix /\ len prefix = 4
                      /\ avp_encode_ipv4_prefix a = Ok prefix)
  \/ (len (avp_value a) <> 6
      /\ avp_encode_ipv4_prefix a = Err (InvalidAttributeLengthError "6 bytes" (len (avp_value a)))).
Proof. exact decode_ipv4_prefix. Qed.
Theorem C20_ipv6_prefix_decode : forall a,
  (exists x y prefix, avp_value a = x :: y :: prefix /\ avp_encode_ipv6_prefix a = Ok prefix)
  \/ (len (avp_value a) < 2
      /\ avp_encode_ipv6_prefix a = Err (InvalidAttributeLengthError "2+ bytes" (len (avp_value a)))).
Proof. exact decode_ipv6_prefix. Qed.
(** for IPv4 the second octet is the number of octets, not of bits *)
Theorem C20_ipv4_prefix_length_octet : forall typ prefix a,
  avp_from_ipv4_prefix typ prefix = Ok a -> avp_value a = x00 :: n2b 4 :: prefix.
Proof.
  intros typ prefix a H. destruct (from_ipv4_prefix typ prefix) as [[L E]|[_ E]]; rewrite E in H.
  - injection H as <-. reflexivity.
  - discriminate.
Qed.
Example C20_example :
  avp_from_ipv6_prefix (n2b 97) (nb [0x20; 0x01; 0x0d; 0xb8]) = Ok (AVP (n2b 97) (nb [0; 32; 0x20; 0x01; 0x0d; 0xb8])).
Proof. reflexivity. Qed.

(** ** C21 *)
Theorem C21_date_roundtrip : forall typ dt, (0 <= dt_timestamp dt < 2 ^ 32)%Z ->
  avp_encode_date (avp_from_date typ dt) = Ok (DateTime (dt_timestamp dt) 0).
Proof. intros typ dt H. rewrite roundtrip_date, Z.mod_small by exact H. reflexivity. Qed.
Theorem C21_date_truncation : forall typ dt,
  avp_encode_date (avp_from_date typ dt) = Ok (DateTime (dt_timestamp dt mod 2 ^ 32) 0).
Proof. exact roundtrip_date. Qed.
Theorem C21_date_decode : forall a,
  (len (avp_value a) = 4 /\ avp_encode_date a = Ok (DateTime (Z.of_N (be_value (avp_value a))) 0))
  \/ (len (avp_value a) <> 4
      /\ avp_encode_date a = Err (InvalidAttributeLengthError "4" (len (avp_value a)))).
Proof. exact decode_date. Qed.
Example C21_example :
  avp_from_date (n2b 55) (DateTime 1600000000 5) = AVP (n2b 55) (nb [0x5f; 0x5e; 0x10; 0x00]).
Proof. reflexivity. Qed.

(** ** C22 *)
Theorem C22_user_password_hiding : forall typ pw secret auth,
  len pw <= 128 -> secret <> [] -> len auth = 16 ->
  exists a blocks cs, avp_from_user_password typ pw secret auth = Ok a
    /\ avp_typ a = typ /\ avp_value a = concat cs
    /\ password_blocks pw blocks /\ hidden_blocks secret auth blocks cs
    /\ len (avp_value a) mod 16 = 0 /\ 16 <= len (avp_value a) <= 128.
Proof.
  intros typ pw secret auth L S A.
  destruct (from_user_password_cases typ pw secret auth)
    as [(X & _)|[(_ & X & _)|[(_ & _ & X & _)|(_ & _ & _ & E)]]]; try contradiction; try lia.
  exists (AVP typ (concat (enc_blocks secret auth (pw_blocks pw)))), (pw_blocks pw),
    (enc_blocks secret auth (pw_blocks pw)).
  split; [exact E|]. split; [reflexivity|]. split; [reflexivity|]. split; [apply pw_blocks_spec|].
  split; [apply enc_blocks_hidden|]. cbn [avp_value]. rewrite enc_concat_len. lia.
Qed.
Theorem C22_user_password_errors : forall typ pw secret auth,
  (128 < len pw -> avp_from_user_password typ pw secret auth
                   = Err (UserPasswordPlainTextMaximumLengthExceededError (len pw)))
  /\ (len pw <= 128 -> secret = [] ->
      avp_from_user_password typ pw secret auth = Err PasswordSecretMissingError)
  /\ (len pw <= 128 -> secret <> [] -> len auth <> 16 ->
      avp_from_user_password typ pw secret auth = Err InvalidRequestAuthenticatorLength).
Proof.
  intros typ pw secret auth.
  destruct (from_user_password_cases typ pw secret auth)
    as [(X & E)|[(X & Y & E)|[(X & Y & Z & E)|(X & Y & Z & _)]]]; repeat split; intros;
    try lia; try contradiction; exact E.
Qed.
(** the specification determines the octets *)
Theorem C22_hidden_unique : forall secret prev blocks cs cs',
  hidden_blocks secret prev blocks cs -> hidden_blocks secret prev blocks cs' -> cs = cs'.
Proof.
  intros secret prev blocks cs cs' H. revert cs'.
  induction H as [|prev p c ps cs E _ IH]; intros cs' H'; inversion H'; subst; auto.
  f_equal. apply IH. assumption.
Qed.
Example C22_example :
  avp_from_user_password (n2b 2) (bytes_of_string "arctangent") sample_secret sample_authenticator
  = Ok (AVP (n2b 2) (nb [0x0d; 0xbe; 0x70; 0x8d; 0x93; 0xd4; 0x13; 0xce;
                         0x31; 0x96; 0xe4; 0x3f; 0x78; 0x2a; 0x0a; 0xee])).
Proof. vm_compute. reflexivity. Qed.

(** ** C23: NUL bytes in the password are lost, so the property only holds without them. *)
Theorem C23_user_password_roundtrip_partial : forall typ pw secret auth,
  len pw <= 128 -> secret <> [] -> len auth = 16 -> ~ In x00 pw ->
  exists a, avp_from_user_password typ pw secret auth = Ok a
            /\ avp_encode_user_password a secret auth = Ok pw.
Proof.
  intros typ pw secret auth L S A N.
  destruct (C22_user_password_hiding typ pw secret auth L S A) as (a & _ & _ & E & _).
  exists a. split; [exact E|]. rewrite (user_password_roundtrip _ _ _ _ _ E), before_first_zero_notin by exact N.
  reflexivity.
Qed.
Theorem C23_user_password_truncation : forall typ pre post secret auth,
  len (pre ++ x00 :: post) <= 128 -> secret <> [] -> len auth = 16 -> ~ In x00 pre ->
  exists a, avp_from_user_password typ (pre ++ x00 :: post) secret auth = Ok a
            /\ avp_encode_user_password a secret auth = Ok pre.
Proof.
  intros typ pre post secret auth L S A N.
  destruct (C22_user_password_hiding typ _ secret auth L S A) as (a & _ & _ & E & _).
  exists a. split; [exact E|]. rewrite (user_password_roundtrip _ _ _ _ _ E), before_first_zero_app by exact N.
  cbn. rewrite app_nil_r. reflexivity.
Qed.
Theorem C23_user_password_roundtrip_refuted : exists typ pw secret auth a,
  len pw <= 128 /\ avp_from_user_password typ pw secret auth = Ok a
  /\ avp_encode_user_password a secret auth <> Ok pw.
Proof.
  exists (n2b 2), (nb [97; 0; 98]), sample_secret, sample_authenticator. eexists.
  split; [vm_compute; discriminate|]. split; [vm_compute; reflexivity|]. vm_compute. discriminate.
Qed.

(** ** C24 *)
Theorem C24_tunnel_password_layout : forall r0 r1 typ t pw secret auth,
  secret <> [] -> len auth = 16 ->
  exists a s0 s1 blocks cs, avp_from_tunnel_password r0 r1 typ t pw secret auth = Ok a
    /\ avp_typ a = typ /\ avp_value a = n2b (tag_octet t) :: s0 :: s1 :: concat cs
    /\ 0x80 <= b2n s0
    /\ password_blocks pw blocks /\ hidden_blocks secret (auth ++ [s0; s1]) blocks cs.
Proof.
  intros r0 r1 typ t pw secret auth S A.
  destruct (from_tunnel_password_cases r0 r1 typ t pw secret auth)
    as [(X & _)|[(_ & X & _)|(_ & _ & E)]]; try contradiction.
  cbv zeta in E. eexists _, (n2b (N.lor (b2n r0) 0x80)), r1, (pw_blocks pw), _.
  split; [exact E|]. split; [reflexivity|]. split; [reflexivity|]. split; [apply salt_high|].
  split; [apply pw_blocks_spec|apply enc_blocks_hidden].
Qed.
Theorem C24_tunnel_password_roundtrip_partial : forall r0 r1 typ t pw secret auth,
  len pw <= 240 -> secret <> [] -> len auth = 16 -> ~ In x00 pw ->
  exists a, avp_from_tunnel_password r0 r1 typ t pw secret auth = Ok a
    /\ avp_encode_tunnel_password a secret auth = Ok (pw, Tag (n2b (tag_octet t))).
Proof.
  intros r0 r1 typ t pw secret auth L S A N.
  destruct (C24_tunnel_password_layout r0 r1 typ t pw secret auth S A) as (a & _ & _ & _ & _ & E & _).
  exists a. split; [exact E|].
  destruct (tunnel_password_roundtrip _ _ _ _ _ _ _ _ E) as [[_ D]|[X _]]; [|lia].
  rewrite D, before_first_zero_notin by exact N. reflexivity.
Qed.
Theorem C24_tunnel_password_truncation : forall r0 r1 typ t pre post secret auth,
  len (pre ++ x00 :: post) <= 240 -> secret <> [] -> len auth = 16 -> ~ In x00 pre ->
  exists a, avp_from_tunnel_password r0 r1 typ t (pre ++ x00 :: post) secret auth = Ok a
    /\ avp_encode_tunnel_password a secret auth = Ok (pre, Tag (n2b (tag_octet t))).
Proof.
  intros r0 r1 typ t pre post secret auth L S A N.
  destruct (C24_tunnel_password_layout r0 r1 typ t (pre ++ x00 :: post) secret auth S A)
    as (a & _ & _ & _ & _ & E & _).
  exists a. split; [exact E|].
  destruct (tunnel_password_roundtrip _ _ _ _ _ _ _ _ E) as [[_ D]|[X _]]; [|lia].
  rewrite D, before_first_zero_app by exact N. cbn. rewrite app_nil_r. reflexivity.
Qed.
Theorem C24_tunnel_password_roundtrip_refuted : exists r0 r1 typ t pw secret auth a,
  len pw <= 240 /\ avp_from_tunnel_password r0 r1 typ t pw secret auth = Ok a
  /\ avp_encode_tunnel_password a secret auth = Ok ([], Tag (n2b (tag_octet t))) /\ pw <> [].
Proof.
  exists x01, x02, (n2b 69), None, (nb [0; 98]), sample_secret, sample_authenticator. eexists.
  split; [vm_compute; discriminate|]. split; [vm_compute; reflexivity|].
  split; [vm_compute; reflexivity|discriminate].
Qed.
Example C24_example : exists a,
  avp_from_tunnel_password x01 x02 (n2b 69) (Some (Tag (n2b 30))) (bytes_of_string "a rather long password")
    sample_secret sample_authenticator = Ok a
  /\ len (avp_value a) = 35
  /\ avp_encode_tunnel_password a sample_secret sample_authenticator
     = Ok (bytes_of_string "a rather long password", Tag (n2b 30)).
Proof. eexists. split; [vm_compute; reflexivity|]. split; vm_compute; reflexivity. Qed.

(** ** C25: the length check looks at the authenticator, so over-long passwords are accepted *)
Theorem C25_overlong_tunnel_password_accepted : forall r0 r1 typ t pw secret auth,
  240 < len pw -> secret <> [] -> len auth = 16 ->
  exists a, avp_from_tunnel_password r0 r1 typ t pw secret auth = Ok a
    /\ 253 < len (avp_value a)
    /\ exists s n, avp_encode_tunnel_password a secret auth = Err (InvalidAttributeLengthError s n).
Proof.
  intros r0 r1 typ t pw secret auth L S A.
  destruct (from_tunnel_password_cases r0 r1 typ t pw secret auth)
    as [(X & _)|[(_ & X & _)|(_ & _ & E)]]; try contradiction.
  cbv zeta in E. eexists. split; [exact E|]. split.
  - cbn [avp_value]. rewrite !len_cons. cbn [app]. rewrite !len_cons, enc_concat_len. lia.
  - destruct (tunnel_password_roundtrip _ _ _ _ _ _ _ _ E) as [[X _]|[_ D]]; [lia|exact D].
Qed.
Theorem C25_overlong_rejected_refuted : exists r0 r1 typ t pw secret auth a,
  240 < len pw /\ avp_from_tunnel_password r0 r1 typ t pw secret auth = Ok a.
Proof.
  exists x01, x02, (n2b 69), None, (repeat (n2b 97) 241), sample_secret, sample_authenticator. eexists.
  split; [vm_compute; reflexivity|]. vm_compute. reflexivity.
Qed.
Theorem C25_tunnel_password_sendable_partial : forall r0 r1 typ t pw secret auth a,
  len pw <= 240 -> avp_from_tunnel_password r0 r1 typ t pw secret auth = Ok a ->
  len (avp_value a) <= 253
  /\ exists pw', avp_encode_tunnel_password a secret auth = Ok (pw', Tag (n2b (tag_octet t))).
Proof.
  intros r0 r1 typ t pw secret auth a L H.
  destruct (tunnel_password_roundtrip _ _ _ _ _ _ _ _ H) as [[_ D]|[X _]]; [|lia].
  split; [|eauto]. destruct (from_tunnel_password_cases r0 r1 typ t pw secret auth)
    as [(_ & e & E)|[(_ & _ & E)|(_ & _ & E)]]; try congruence.
  cbv zeta in E. rewrite E in H. injection H as <-. cbn [avp_value app].
  rewrite !len_cons, enc_concat_len. lia.
Qed.

(** ** C26 *)
Theorem C26_decoders_return : forall a secret auth,
  returns (avp_encode_u32 a) /\ returns (avp_encode_u16 a) /\ returns (avp_encode_tagged_u32 a)
  /\ returns (avp_encode_string a) /\ returns (avp_encode_tagged_string a)
  /\ returns (avp_encode_ipv4 a) /\ returns (avp_encode_ipv6 a)
  /\ returns (avp_encode_ipv4_prefix a) /\ returns (avp_encode_ipv6_prefix a)
  /\ returns (avp_encode_date a)
  /\ returns (avp_encode_user_password a secret auth)
  /\ returns (avp_encode_tunnel_password a secret auth).
Proof.
  intros a secret auth.
  split. { destruct (decode_u32 a) as [[_ ->]|[_ ->]]; auto. }
  split. { destruct (decode_u16 a) as [[_ ->]|[_ ->]]; auto. }
  split. { pose proof (decode_tagged_u32 a) as D. destruct (avp_value a); [rewrite D; auto|].
           destruct D as [(_ & ->)|[(_ & _ & ->)|(_ & _ & ->)]]; auto. }
  split. { destruct (C16_string_decode a) as [[_ ->]|[_ [m ->]]]; auto. }
  split. { pose proof (decode_tagged_string a) as D. destruct (avp_value a); [rewrite D; auto|].
           destruct D as [(_ & ->)|[(_ & _ & ->)|[(_ & _ & ->)|(_ & m & ->)]]]; auto. }
  split. { destruct (C19_ipv4_decode a) as [(_ & ip & -> & _)|(_ & ->)]; auto. }
  split. { destruct (C19_ipv6_decode a) as [(_ & ip & -> & _)|(_ & ->)]; auto. }
  split. { destruct (decode_ipv4_prefix a) as [(x & y & p & _ & _ & ->)|(_ & ->)]; auto. }
  split. { destruct (decode_ipv6_prefix a) as [(x & y & p & _ & ->)|(_ & ->)]; auto. }
  split. { destruct (decode_date a) as [(_ & ->)|(_ & ->)]; auto. }
  split; [apply user_password_returns|apply tunnel_password_returns].
Qed.

(** * Assumptions *)
Print Assumptions C15_u32_roundtrip.
Print Assumptions C15_u16_roundtrip.
Print Assumptions C15_u32_decode.
Print Assumptions C15_u16_decode.
Print Assumptions C16_string_roundtrip.
Print Assumptions C16_string_decode.
Print Assumptions C16_string_error_position.
Print Assumptions C17_tagged_u32_roundtrip.
Print Assumptions C17_tagged_u32_decode.
Print Assumptions C18_tagged_string_roundtrip.
Print Assumptions C18_untagged_string.
Print Assumptions C18_zero_tag_rejected.
Print Assumptions C18_tagged_string_decode.
Print Assumptions C19_ipv4_roundtrip.
Print Assumptions C19_ipv4_inverse.
Print Assumptions C19_ipv4_decode.
Print Assumptions C19_ipv6_roundtrip.
Print Assumptions C19_ipv6_inverse.
Print Assumptions C19_ipv6_decode.
Print Assumptions C20_ipv4_prefix_roundtrip.
Print Assumptions C20_ipv6_prefix_roundtrip.
Print Assumptions C20_ipv4_prefix_decode.
Print Assumptions C20_ipv6_prefix_decode.
Print Assumptions C20_ipv4_prefix_length_octet.
Print Assumptions C21_date_roundtrip.
Print Assumptions C21_date_truncation.
Print Assumptions C21_date_decode.
Print Assumptions C22_user_password_hiding.
Print Assumptions C22_user_password_errors.
Print Assumptions C22_hidden_unique.
Print Assumptions C23_user_password_roundtrip_partial.
Print Assumptions C23_user_password_truncation.
Print Assumptions C23_user_password_roundtrip_refuted.
Print Assumptions C24_tunnel_password_layout.
Print Assumptions C24_tunnel_password_roundtrip_partial.
Print Assumptions C24_tunnel_password_truncation.
Print Assumptions C24_tunnel_password_roundtrip_refuted.
Print Assumptions C25_overlong_tunnel_password_accepted.
Print Assumptions C25_overlong_rejected_refuted.
Print Assumptions C25_tunnel_password_sendable_partial.
Print Assumptions C26_decoders_return.
