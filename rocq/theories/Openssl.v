(** * The feature "openssl": the functions of avp.rs and packet.rs that exist in two variants

    [he b] is what [openssl::hash::hash(MessageDigest::md5(), b)] does: [None], it returns the MD5 digest of
    [b]; [Some m], it fails and [m] is the text of the error. *)
From Coq Require Import String List NArith Bool Strings.Byte.
From Verif Require Import Prelude Md5 Tag Code Avp Attributes Packet.
Import ListNotations.
Local Open Scope N_scope.

Section Openssl.
Context (he : bytes -> option string).

(** [openssl::hash::hash] *)
Definition ssl_hash (b : bytes) : res string bytes :=
  match he b with None => Ok (md5 b) | Some m => Err m end.

(** avp.rs:306-325 and 512-531: [for chunk in plain_text.chunks(16)] *)
Fixpoint password_enc_loop_ssl (secret buff : bytes) (cs : list bytes) (enc : bytes) : res avp_error bytes :=
  match cs with
  | [] => Ok enc
  | chunk :: cs' =>
      let chunk_vec := pad_chunk chunk in
      do enc_block <- map_err AvpHashComputationFailed (ssl_hash (secret ++ buff));
      let buff := xor_zip enc_block chunk_vec in
      password_enc_loop_ssl secret buff cs' (enc ++ buff)
  end.

(** avp.rs:251-328 *)
Definition avp_from_user_password_ssl (typ : byte) (plain_text secret request_authenticator : bytes)
  : res avp_error avp :=
  if 128 <? len plain_text then
    Err (UserPasswordPlainTextMaximumLengthExceededError (len plain_text))
  else if len secret =? 0 then Err PasswordSecretMissingError
  else if negb (len request_authenticator =? 16) then Err InvalidRequestAuthenticatorLength
  else
    let buff := request_authenticator in
    if len plain_text =? 0 then
      do enc_block <- map_err AvpHashComputationFailed (ssl_hash (secret ++ buff));
      Ok (AVP typ (xor_zip enc_block (zeros 16)))
    else
      do enc <- password_enc_loop_ssl secret buff (chunks 16 plain_text) [];
      Ok (AVP typ enc).

(** avp.rs:434-534: unlike the other variant this one hashes before it looks whether the text is empty *)
Definition avp_from_tunnel_password_ssl (r0 r1 : byte) (typ : byte) (t : option tag)
  (plain_text secret request_authenticator : bytes) : res avp_error avp :=
  if 240 <? len request_authenticator then
    Err (InvalidAttributeLengthError "240 bytes" (len request_authenticator))
  else
    let salt := [n2b (N.lor (b2n r0) 0x80); r1] in
    if len secret =? 0 then Err PasswordSecretMissingError
    else if negb (len request_authenticator =? 16) then Err InvalidRequestAuthenticatorLength
    else
      let enc := [match t with None => UNUSED_TAG_VALUE | Some t => tag_value t end] ++ salt in
      let buff := request_authenticator ++ salt in
      do enc_block <- map_err AvpHashComputationFailed (ssl_hash (secret ++ buff));
      if len plain_text =? 0 then Ok (AVP typ (enc ++ xor_zip enc_block (zeros 16)))
      else
        do enc <- password_enc_loop_ssl secret buff (chunks 16 plain_text) enc;
        Ok (AVP typ enc).

(** avp.rs:782-798 and 915-931: [for chunk in value.chunks(16)] *)
Fixpoint password_dec_loop_ssl (secret buff : bytes) (cs : list bytes) (dec : bytes) : res avp_error bytes :=
  match cs with
  | [] => Ok dec
  | chunk :: cs' =>
      do dec_block <- map_err AvpHashComputationFailed (ssl_hash (secret ++ buff));
      password_dec_loop_ssl secret chunk cs' (dec ++ xor_zip dec_block chunk)
  end.

(** avp.rs:756-805 *)
Definition avp_encode_user_password_ssl (a : avp) (secret request_authenticator : bytes)
  : res avp_error bytes :=
  if (len (avp_value a) <? 16) || (128 <? len (avp_value a)) then
    Err (InvalidAttributeLengthError "16 >= bytes && 128 <= bytes" (len (avp_value a)))
  else if len secret =? 0 then Err PasswordSecretMissingError
  else if negb (len request_authenticator =? 16) then Err InvalidRequestAuthenticatorLength
  else
    do dec <- password_dec_loop_ssl secret request_authenticator (chunks 16 (avp_value a)) [];
    Ok (before_first_zero dec).

(** avp.rs:883-938 *)
Definition avp_encode_tunnel_password_ssl (a : avp) (secret request_authenticator : bytes)
  : res avp_error (bytes * tag) :=
  let l := len (avp_value a) in
  if (l <? 19) || (243 <? l) || negb ((l - 3) mod 16 =? 0) then
    Err (InvalidAttributeLengthError "19 <= bytes && bytes <= 242 && (bytes - 3) % 16 == 0" l)
  else
    do b1 <- index (avp_value a) 1;
    if negb (N.land (b2n b1) 0x80 =? 0x80) then Err (InvalidSaltMSBError b1)
    else if len secret =? 0 then Err PasswordSecretMissingError
    else if negb (len request_authenticator =? 16) then Err InvalidRequestAuthenticatorLength
    else
      do b0 <- index (avp_value a) 0;
      let t := Tag b0 in
      do salt <- slice (avp_value a) 1 3;
      let buff := request_authenticator ++ salt in
      do body <- slice_from (avp_value a) 3;
      do dec <- password_dec_loop_ssl secret buff (chunks 16 body) [];
      Ok (before_first_zero dec, t).

(** packet.rs:220-268 *)
Definition packet_encode_ssl (pr : profile) (p : packet) : res packet_error bytes :=
  do bs <- map_err EncodingError (packet_marshal_binary pr p);
  match p_code p with
  | AccessRequest | StatusServer => Ok bs
  | AccessAccept | AccessReject | AccountingRequest | AccountingResponse | AccessChallenge
  | DisconnectRequest | DisconnectACK | DisconnectNAK | CoARequest | CoAACK | CoANAK =>
      do buf <- slice_to bs 4;
      let buf :=
        buf ++ match p_code p with
               | AccountingRequest | DisconnectRequest | CoARequest => zeros 16
               | _ => p_authenticator p
               end in
      do tail <- slice_from bs RADIUS_PACKET_HEADER_LENGTH;
      let buf := buf ++ tail ++ p_secret p in
      do enc <- map_err HashComputationFailed (ssl_hash buf);
      splice bs 4 20 enc
  | _ => Err (UnknownCodeError (code_debug (p_code p)))
  end.

(** [hash(…).expect(…)]: a failing hash panics *)
Definition ssl_hash_expect {E} (b : bytes) : res E bytes :=
  match ssl_hash b with Ok d => Ok d | _ => Panic end.

(** packet.rs:333-354 *)
Definition packet_is_authentic_response_ssl (response request secret : bytes) : res unit bool :=
  if (len response <? RADIUS_PACKET_HEADER_LENGTH) || (len request <? RADIUS_PACKET_HEADER_LENGTH)
     || (len secret =? 0)
  then Ok false
  else
    do a <- slice_to response 4;
    do b <- slice request 4 RADIUS_PACKET_HEADER_LENGTH;
    do c <- slice_from response RADIUS_PACKET_HEADER_LENGTH;
    do enc <- ssl_hash_expect (a ++ b ++ c ++ secret);
    do auth <- slice response 4 RADIUS_PACKET_HEADER_LENGTH;
    Ok (bytes_eqb enc auth).

(** packet.rs:385-414 *)
Definition packet_is_authentic_request_ssl (request secret : bytes) : res unit bool :=
  if (len request <? RADIUS_PACKET_HEADER_LENGTH) || (len secret =? 0) then Ok false
  else
    do b0 <- index request 0;
    match code_from b0 with
    | AccessRequest | StatusServer => Ok true
    | AccountingRequest | DisconnectRequest | CoARequest =>
        do a <- slice_to request 4;
        do c <- slice_from request RADIUS_PACKET_HEADER_LENGTH;
        do enc <- ssl_hash_expect (a ++ zeros 16 ++ c ++ secret);
        do auth <- slice request 4 RADIUS_PACKET_HEADER_LENGTH;
        Ok (bytes_eqb enc auth)
    | _ => Ok false
    end.
End Openssl.
