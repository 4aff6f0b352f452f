(** * radius/src/core/avp.rs, the functions compiled with feature "openssl".

    [hash] stands for [openssl::hash::hash(MessageDigest::md5(), _)]: an arbitrary function that
    returns a digest ([inr]) or an error with its Display text ([inl]). *)
From Coq Require Import String List NArith Bool Strings.Byte.
From Verif Require Import Prelude Tag Avp.
Import ListNotations.
Local Open Scope N_scope.

Definition hash_fn := bytes -> (string + bytes)%type.

(** avp.rs:289-294, 313-318, 490-495, 519-524, 784-789, 917-922 *)
Definition avp_hash (hash : hash_fn) (data : bytes) : res avp_error bytes :=
  match hash data with
  | inl err => Err (AvpHashComputationFailed err)
  | inr d => Ok d
  end.

(** avp.rs:306-325 and 512-531 *)
Fixpoint password_enc_loop_ossl (hash : hash_fn) (secret buff : bytes) (cs : list bytes)
  (enc : bytes) : res avp_error bytes :=
  match cs with
  | [] => Ok enc
  | chunk :: cs' =>
      let chunk_vec := pad_chunk chunk in
      do enc_block <- avp_hash hash (secret ++ buff);
      let buff := xor_zip enc_block chunk_vec in
      password_enc_loop_ossl hash secret buff cs' (enc ++ buff)
  end.

(** avp.rs:251-328 *)
Definition avp_from_user_password_ossl (hash : hash_fn) (typ : byte)
  (plain_text secret request_authenticator : bytes) : res avp_error avp :=
  if 128 <? len plain_text then
    Err (UserPasswordPlainTextMaximumLengthExceededError (len plain_text))
  else if len secret =? 0 then Err PasswordSecretMissingError
  else if negb (len request_authenticator =? 16) then Err InvalidRequestAuthenticatorLength
  else
    let buff := request_authenticator in
    if len plain_text =? 0 then
      do enc_block <- avp_hash hash (secret ++ buff);
      Ok (AVP typ (xor_zip enc_block (zeros 16)))
    else
      do enc <- password_enc_loop_ossl hash secret buff (chunks 16 plain_text) [];
      Ok (AVP typ enc).

(** avp.rs:434-534; the hash of lines 490-495 is computed before the emptiness test *)
Definition avp_from_tunnel_password_ossl (hash : hash_fn) (r0 r1 : byte) (typ : byte)
  (t : option tag) (plain_text secret request_authenticator : bytes) : res avp_error avp :=
  if 240 <? len request_authenticator then
    Err (InvalidAttributeLengthError "240 bytes" (len request_authenticator))
  else
    let salt := [n2b (N.lor (b2n r0) 0x80); r1] in
    if len secret =? 0 then Err PasswordSecretMissingError
    else if negb (len request_authenticator =? 16) then Err InvalidRequestAuthenticatorLength
    else
      let enc := [match t with None => UNUSED_TAG_VALUE | Some t => tag_value t end] ++ salt in
      let buff := request_authenticator ++ salt in
      do enc_block <- avp_hash hash (secret ++ buff);
      if len plain_text =? 0 then Ok (AVP typ (enc ++ xor_zip enc_block (zeros 16)))
      else
        do enc <- password_enc_loop_ossl hash secret buff (chunks 16 plain_text) enc;
        Ok (AVP typ enc).

(** avp.rs:782-798 and 915-931 *)
Fixpoint password_dec_loop_ossl (hash : hash_fn) (secret buff : bytes) (cs : list bytes)
  (dec : bytes) : res avp_error bytes :=
  match cs with
  | [] => Ok dec
  | chunk :: cs' =>
      do dec_block <- avp_hash hash (secret ++ buff);
      password_dec_loop_ossl hash secret chunk cs' (dec ++ xor_zip dec_block chunk)
  end.

(** avp.rs:756-805 *)
Definition avp_encode_user_password_ossl (hash : hash_fn) (a : avp)
  (secret request_authenticator : bytes) : res avp_error bytes :=
  if (len (avp_value a) <? 16) || (128 <? len (avp_value a)) then
    Err (InvalidAttributeLengthError "16 >= bytes && 128 <= bytes" (len (avp_value a)))
  else if len secret =? 0 then Err PasswordSecretMissingError
  else if negb (len request_authenticator =? 16) then Err InvalidRequestAuthenticatorLength
  else
    do dec <- password_dec_loop_ossl hash secret request_authenticator (chunks 16 (avp_value a)) [];
    Ok (before_first_zero dec).

(** avp.rs:883-938 *)
Definition avp_encode_tunnel_password_ossl (hash : hash_fn) (a : avp)
  (secret request_authenticator : bytes) : res avp_error (bytes * tag) :=
  let l := len (avp_value a) in
  if (l <? 19) || (243 <? l) || negb ((l - 3) mod 16 =? 0) then
    Err (InvalidAttributeLengthError "19 <= bytes && bytes <= 242 && (bytes - 3) % 16 == 0" l)
  else
    do b1 <- index (avp_value a) 1;
    if negb (N.land (b2n b1) 0x80 =? 0x80) then Err (InvalidSaltMSBError b1)
    else if len secret =? 0 then Err PasswordSecretMissingError
    else if negb (len request_authenticator =? 16) then Err InvalidRequestAuthenticatorLength
    else
      do b0 <- index (avp_value a) 0;
      let t := Tag b0 in
      do salt <- slice (avp_value a) 1 3;
      let buff := request_authenticator ++ salt in
      do body <- slice_from (avp_value a) 3;
      do dec <- password_dec_loop_ossl hash secret buff (chunks 16 body) [];
      Ok (before_first_zero dec, t).
