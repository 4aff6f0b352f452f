(** * radius/src/core/avp.rs (feature "md5", the default) *)
From Coq Require Import String List NArith ZArith Bool Strings.Byte.
From Verif Require Import Prelude Md5 Utf8 Tag.
Import ListNotations.
Local Open Scope N_scope.

(** radius/src/core/avp.rs:17-57 *)
Inductive avp_error :=
| UserPasswordPlainTextMaximumLengthExceededError (n : N)
| PasswordSecretMissingError
| InvalidRequestAuthenticatorLength
| InvalidAttributeLengthError (expected : string) (actual : N)
| TagMissingError
| AvpDecodingError (msg : string)
| InvalidSaltMSBError (b : byte)
| InvalidTagForStringValueError
| InvalidTagForIntegerValueError
| AvpHashComputationFailed (msg : string).

(** radius/src/core/avp.rs:65-68 *)
Record avp := AVP { avp_typ : byte; avp_value : bytes }.

(** std::net::Ipv4Addr: four octets. std::net::Ipv6Addr: sixteen octets. *)
Inductive ipv4 := Ipv4 (a b c d : byte).
Inductive ipv6 := Ipv6 (o0 o1 o2 o3 o4 o5 o6 o7 o8 o9 o10 o11 o12 o13 o14 o15 : byte).
Definition ipv4_octets (ip : ipv4) : bytes := let '(Ipv4 a b c d) := ip in [a; b; c; d].
Definition ipv6_octets (ip : ipv6) : bytes :=
  let '(Ipv6 o0 o1 o2 o3 o4 o5 o6 o7 o8 o9 o10 o11 o12 o13 o14 o15) := ip in
  [o0; o1; o2; o3; o4; o5; o6; o7; o8; o9; o10; o11; o12; o13; o14; o15].
(** [slice.try_into::<[u8; 4]>()] + [Ipv4Addr::from], and the same for 16 bytes. *)
Definition ipv4_from (bs : bytes) : option ipv4 :=
  match bs with [a; b; c; d] => Some (Ipv4 a b c d) | _ => None end.
Definition ipv6_from (bs : bytes) : option ipv6 :=
  match bs with
  | [o0; o1; o2; o3; o4; o5; o6; o7; o8; o9; o10; o11; o12; o13; o14; o15] =>
      Some (Ipv6 o0 o1 o2 o3 o4 o5 o6 o7 o8 o9 o10 o11 o12 o13 o14 o15)
  | _ => None
  end.

(** chrono DateTime<Utc>: whole seconds since the epoch and nanoseconds. *)
Record datetime := DateTime { dt_timestamp : Z; dt_nanos : N }.
(** [Utc.timestamp_opt(secs, 0).unwrap()] (chrono 0.4): panics outside the representable years
    -262143..=262142. *)
Definition utc_timestamp_unwrap {E} (secs : Z) : res E datetime :=
  if ((-8334601228800 <=? secs) && (secs <=? 8210266876799))%Z
  then Ok (DateTime secs 0) else Panic.

(** avp.rs:72-77 *)
Definition avp_from_u32 (typ : byte) (value : N) : avp := AVP typ (u32_be value).
(** avp.rs:80-85 *)
Definition avp_from_u16 (typ : byte) (value : N) : avp := AVP typ (u16_be value).
(** avp.rs:88-100 *)
Definition avp_from_tagged_u32 (typ : byte) (t : option tag) (value : N) : avp :=
  let t := match t with None => Tag UNUSED_TAG_VALUE | Some t => t end in
  AVP typ ([tag_value t] ++ u32_be value).
(** avp.rs:103-108; a &str is its UTF-8 bytes *)
Definition avp_from_string (typ : byte) (value : bytes) : avp := AVP typ value.
(** avp.rs:111-122 *)
Definition avp_from_tagged_string (typ : byte) (t : option tag) (value : bytes) : avp :=
  match t with
  | None => AVP typ value
  | Some t => AVP typ ([tag_value t] ++ value)
  end.
(** avp.rs:125-130 *)
Definition avp_from_bytes (typ : byte) (value : bytes) : avp := AVP typ value.
(** avp.rs:133-138 *)
Definition avp_from_ipv4 (typ : byte) (value : ipv4) : avp := AVP typ (ipv4_octets value).
(** avp.rs:141-154 *)
Definition avp_from_ipv4_prefix (typ : byte) (prefix : bytes) : res avp_error avp :=
  let prefix_len := len prefix in
  if negb (prefix_len =? 4) then Err (InvalidAttributeLengthError "4 bytes" prefix_len)
  else Ok (AVP typ ([x00; n2b (N.land (b2n (n2b prefix_len)) 63)] ++ prefix)).
(** avp.rs:157-162 *)
Definition avp_from_ipv6 (typ : byte) (value : ipv6) : avp := AVP typ (ipv6_octets value).
(** avp.rs:165-178 *)
Definition avp_from_ipv6_prefix (typ : byte) (prefix : bytes) : res avp_error avp :=
  let prefix_len := len prefix in
  if 16 <? prefix_len then Err (InvalidAttributeLengthError "16 bytes" prefix_len)
  else Ok (AVP typ ([x00; n2b (prefix_len * 8)] ++ prefix)).

(** avp.rs:230-234 and 413-417: the zero-padded chunk *)
Definition pad_chunk (chunk : bytes) : bytes :=
  let l := List.length chunk in
  if len chunk <? 16 then chunk ++ zeros (16 - l) else chunk.

(** avp.rs:229-243 and 412-426: [for chunk in plain_text.chunks(16)] *)
Fixpoint password_enc_loop (secret buff : bytes) (cs : list bytes) (enc : bytes) : bytes :=
  match cs with
  | [] => enc
  | chunk :: cs' =>
      let chunk_vec := pad_chunk chunk in
      let enc_block := md5 (secret ++ buff) in
      let buff := xor_zip enc_block chunk_vec in
      password_enc_loop secret buff cs' (enc ++ buff)
  end.

(** avp.rs:183-246 *)
Definition avp_from_user_password (typ : byte) (plain_text secret request_authenticator : bytes)
  : res avp_error avp :=
  if 128 <? len plain_text then
    Err (UserPasswordPlainTextMaximumLengthExceededError (len plain_text))
  else if len secret =? 0 then Err PasswordSecretMissingError
  else if negb (len request_authenticator =? 16) then Err InvalidRequestAuthenticatorLength
  else
    let buff := request_authenticator in
    if len plain_text =? 0 then
      let enc := md5 (secret ++ buff) in
      Ok (AVP typ (xor_zip enc (zeros 16)))
    else Ok (AVP typ (password_enc_loop secret buff (chunks 16 plain_text) [])).

(** avp.rs:331-336: [dt.timestamp() as u32] truncates modulo 2^32 *)
Definition avp_from_date (typ : byte) (dt : datetime) : avp :=
  AVP typ (u32_be (Z.to_N (dt_timestamp dt mod 4294967296))).

(** avp.rs:341-429; [r0], [r1] are the two [rng.gen::<u8>()] of line 378 *)
Definition avp_from_tunnel_password (r0 r1 : byte) (typ : byte) (t : option tag)
  (plain_text secret request_authenticator : bytes) : res avp_error avp :=
  if 240 <? len request_authenticator then
    Err (InvalidAttributeLengthError "240 bytes" (len request_authenticator))
  else
    let salt := [n2b (N.lor (b2n r0) 0x80); r1] in
    if len secret =? 0 then Err PasswordSecretMissingError
    else if negb (len request_authenticator =? 16) then Err InvalidRequestAuthenticatorLength
    else
      let enc := [match t with None => UNUSED_TAG_VALUE | Some t => tag_value t end] ++ salt in
      let buff := request_authenticator ++ salt in
      if len plain_text =? 0 then
        Ok (AVP typ (enc ++ xor_zip (md5 (secret ++ buff)) (zeros 16)))
      else Ok (AVP typ (password_enc_loop secret buff (chunks 16 plain_text) enc)).

(** avp.rs:537-551 *)
Definition avp_encode_u32 (a : avp) : res avp_error N :=
  if negb (len (avp_value a) =? 4) then
    Err (InvalidAttributeLengthError "4 bytes" (len (avp_value a)))
  else
    do int_bytes <- slice_to (avp_value a) 4;
    match u32_from_be int_bytes with
    | Some v => Ok v
    | None => Err (AvpDecodingError try_from_slice_error)
    end.
(** avp.rs:554-568 *)
Definition avp_encode_u16 (a : avp) : res avp_error N :=
  if negb (len (avp_value a) =? 2) then
    Err (InvalidAttributeLengthError "2 bytes" (len (avp_value a)))
  else
    do int_bytes <- slice_to (avp_value a) 2;
    match u16_from_be int_bytes with
    | Some v => Ok v
    | None => Err (AvpDecodingError try_from_slice_error)
    end.
(** avp.rs:571-599 *)
Definition avp_encode_tagged_u32 (a : avp) : res avp_error (N * tag) :=
  if len (avp_value a) =? 0 then Err TagMissingError
  else
    do b0 <- index (avp_value a) 0;
    let t := Tag b0 in
    if negb (tag_is_valid_value t) && negb (tag_is_zero t) then
      Err InvalidTagForIntegerValueError
    else
      do rest <- slice_from (avp_value a) 1;
      if negb (len rest =? 4) then
        Err (InvalidAttributeLengthError "5 bytes" (len (avp_value a)))
      else
        do int_bytes <- slice_to rest 4;
        match u32_from_be int_bytes with
        | Some v => Ok (v, t)
        | None => Err (AvpDecodingError try_from_slice_error)
        end.
(** [match String::from_utf8(v) { Ok(str) => Ok(str), Err(e) => Err(DecodingError(e.to_string())) }] *)
Definition string_from_utf8 (v : bytes) : res avp_error bytes :=
  map_err (fun e => AvpDecodingError (utf8_error_display e)) (from_utf8 v).
(** avp.rs:602-607 *)
Definition avp_encode_string (a : avp) : res avp_error bytes := string_from_utf8 (avp_value a).
(** avp.rs:610-643 *)
Definition avp_encode_tagged_string (a : avp) : res avp_error (bytes * option tag) :=
  let string_vec := avp_value a in
  if len string_vec =? 0 then Err TagMissingError
  else
    do b0 <- index string_vec 0;
    let t := Tag b0 in
    if tag_is_valid_value t then
      do rest <- slice_from string_vec 1;
      do s <- string_from_utf8 rest;
      Ok (s, Some t)
    else if tag_is_zero t then Err InvalidTagForStringValueError
    else
      do s <- string_from_utf8 (avp_value a);
      Ok (s, None).
(** avp.rs:646-648 *)
Definition avp_encode_bytes (a : avp) : bytes := avp_value a.
(** avp.rs:651-665 *)
Definition avp_encode_ipv4 (a : avp) : res avp_error ipv4 :=
  if negb (len (avp_value a) =? 4) then
    Err (InvalidAttributeLengthError "4 bytes" (len (avp_value a)))
  else
    do int_bytes <- slice_to (avp_value a) 4;
    match ipv4_from int_bytes with
    | Some v => Ok v
    | None => Err (AvpDecodingError try_from_slice_error)
    end.
(** avp.rs:668-676 *)
Definition avp_encode_ipv4_prefix (a : avp) : res avp_error bytes :=
  if len (avp_value a) =? 6 then slice_from (avp_value a) 2
  else Err (InvalidAttributeLengthError "6 bytes" (len (avp_value a))).
(** avp.rs:679-693 *)
Definition avp_encode_ipv6 (a : avp) : res avp_error ipv6 :=
  if negb (len (avp_value a) =? 16) then
    Err (InvalidAttributeLengthError "16 bytes" (len (avp_value a)))
  else
    do int_bytes <- slice_to (avp_value a) 16;
    match ipv6_from int_bytes with
    | Some v => Ok v
    | None => Err (AvpDecodingError try_from_slice_error)
    end.
(** avp.rs:696-704 *)
Definition avp_encode_ipv6_prefix (a : avp) : res avp_error bytes :=
  if 2 <=? len (avp_value a) then slice_from (avp_value a) 2
  else Err (InvalidAttributeLengthError "2+ bytes" (len (avp_value a))).

(** avp.rs:734-745 and 861-872: [for chunk in value.chunks(16)] *)
Fixpoint password_dec_loop (secret buff : bytes) (cs : list bytes) (dec : bytes) : bytes :=
  match cs with
  | [] => dec
  | chunk :: cs' =>
      let dec_block := md5 (secret ++ buff) in
      password_dec_loop secret chunk cs' (dec ++ xor_zip dec_block chunk)
  end.

(** avp.rs:708-752; [split().next()] of line 748 is always [Some] *)
Definition avp_encode_user_password (a : avp) (secret request_authenticator : bytes)
  : res avp_error bytes :=
  if (len (avp_value a) <? 16) || (128 <? len (avp_value a)) then
    Err (InvalidAttributeLengthError "16 >= bytes && 128 <= bytes" (len (avp_value a)))
  else if len secret =? 0 then Err PasswordSecretMissingError
  else if negb (len request_authenticator =? 16) then Err InvalidRequestAuthenticatorLength
  else
    let dec := password_dec_loop secret request_authenticator (chunks 16 (avp_value a)) [] in
    Ok (before_first_zero dec).

(** avp.rs:808-825 *)
Definition avp_encode_date (a : avp) : res avp_error datetime :=
  if negb (len (avp_value a) =? 4) then
    Err (InvalidAttributeLengthError "4" (len (avp_value a)))
  else
    do int_bytes <- slice_to (avp_value a) 4;
    match u32_from_be int_bytes with
    | Some timestamp => utc_timestamp_unwrap (Z.of_N timestamp)
    | None => Err (AvpDecodingError try_from_slice_error)
    end.

(** avp.rs:829-879; the subtraction of line 834 is only evaluated when the length is at least 19 *)
Definition avp_encode_tunnel_password (a : avp) (secret request_authenticator : bytes)
  : res avp_error (bytes * tag) :=
  let l := len (avp_value a) in
  if (l <? 19) || (243 <? l) || negb ((l - 3) mod 16 =? 0) then
    Err (InvalidAttributeLengthError "19 <= bytes && bytes <= 242 && (bytes - 3) % 16 == 0" l)
  else
    do b1 <- index (avp_value a) 1;
    if negb (N.land (b2n b1) 0x80 =? 0x80) then Err (InvalidSaltMSBError b1)
    else if len secret =? 0 then Err PasswordSecretMissingError
    else if negb (len request_authenticator =? 16) then Err InvalidRequestAuthenticatorLength
    else
      do b0 <- index (avp_value a) 0;
      let t := Tag b0 in
      do salt <- slice (avp_value a) 1 3;
      let buff := request_authenticator ++ salt in
      do body <- slice_from (avp_value a) 3;
      let dec := password_dec_loop secret buff (chunks 16 body) [] in
      Ok (before_first_zero dec, t).
