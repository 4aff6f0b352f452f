(** * radius/src/core/packet.rs (feature "md5", the default) *)
From Coq Require Import String List NArith Bool Strings.Byte.
From Verif Require Import Prelude Md5 Code Avp Attributes.
Import ListNotations.
Local Open Scope N_scope.

(** packet.rs:17-18 *)
Definition MAX_PACKET_LENGTH : N := 4096.
Definition RADIUS_PACKET_HEADER_LENGTH : N := 20.

(** packet.rs:21-49 *)
Inductive packet_error :=
| InsufficientPacketPayloadLengthError (expected actual : N)
| InsufficientHeaderDefinedPacketLengthError (len min : N)
| HeaderDefinedPacketLengthExceedsMaximumLimitError (len max : N)
| DecodingError (msg : string)
| EncodingError (msg : string)
| UnknownCodeError (msg : string)
| HashComputationFailed (msg : string).

(** packet.rs:53-59 *)
Record packet := Packet {
  p_code : code;
  p_identifier : byte;
  p_authenticator : bytes;
  p_secret : bytes;
  p_attributes : attributes
}.

(** packet.rs:77-90; [rng k] is the k-th value produced by [rng.gen()] *)
Definition packet__new (rng : nat -> byte) (c : code) (secret : bytes)
  (maybe_identifier : option byte) : packet :=
  let authenticator := map rng (seq 0 16) in
  Packet c (match maybe_identifier with Some ident => ident | None => rng 16%nat end)
         authenticator secret [].
(** packet.rs:66-68 *)
Definition packet_new (rng : nat -> byte) (c : code) (secret : bytes) : packet :=
  packet__new rng c secret None.
(** packet.rs:73-75 *)
Definition packet_new_with_identifier (rng : nat -> byte) (c : code) (secret : bytes)
  (identifier : byte) : packet :=
  packet__new rng c secret (Some identifier).

(** packet.rs:92-106 *)
Definition packet_get_code (p : packet) : code := p_code p.
Definition packet_get_identifier (p : packet) : byte := p_identifier p.
Definition packet_get_secret (p : packet) : bytes := p_secret p.
Definition packet_get_authenticator (p : packet) : bytes := p_authenticator p.

(** packet.rs:109-111 *)
Definition packet_set_identifier (p : packet) (identifier : byte) : packet :=
  Packet (p_code p) identifier (p_authenticator p) (p_secret p) (p_attributes p).

(** packet.rs:114-159 *)
Definition packet_decode (bs secret : bytes) : res packet_error packet :=
  if len bs <? RADIUS_PACKET_HEADER_LENGTH then
    Err (InsufficientPacketPayloadLengthError RADIUS_PACKET_HEADER_LENGTH (len bs))
  else
    do lb <- slice bs 2 4;
    match u16_from_be lb with
    | None => Err (DecodingError try_from_slice_error)
    | Some l =>
        if l <? RADIUS_PACKET_HEADER_LENGTH then
          Err (InsufficientHeaderDefinedPacketLengthError l RADIUS_PACKET_HEADER_LENGTH)
        else if MAX_PACKET_LENGTH <? l then
          Err (HeaderDefinedPacketLengthExceedsMaximumLimitError l MAX_PACKET_LENGTH)
        else if len bs <? l then
          Err (InsufficientPacketPayloadLengthError l (len bs))
        else
          do body <- slice bs RADIUS_PACKET_HEADER_LENGTH l;
          do attrs <- map_err DecodingError (attributes_decode body);
          do b0 <- index bs 0;
          do b1 <- index bs 1;
          do auth <- slice bs 4 RADIUS_PACKET_HEADER_LENGTH;
          Ok (Packet (code_from b0) b1 auth secret attrs)
    end.

(** packet.rs:162-170 *)
Definition packet_make_response_packet (p : packet) (c : code) : packet :=
  Packet c (p_identifier p) (p_authenticator p) (p_secret p) [].

(** packet.rs:285-306; line 291 is u16 arithmetic on a truncating cast *)
Definition packet_marshal_binary (pr : profile) (p : packet) : res string bytes :=
  do encoded_avp <- attributes_encode pr (p_attributes p);
  do size <- uadd pr 65536 (RADIUS_PACKET_HEADER_LENGTH mod 65536) (len encoded_avp mod 65536);
  if MAX_PACKET_LENGTH <? size then Err "packet is too large"%string
  else
    do attrs <- attributes_encode pr (p_attributes p);
    Ok ([code_to_u8 (p_code p)] ++ [p_identifier p] ++ u16_be size ++ p_authenticator p ++ attrs).

(** packet.rs:174-216 *)
Definition packet_encode (pr : profile) (p : packet) : res packet_error bytes :=
  do bs <- map_err EncodingError (packet_marshal_binary pr p);
  match p_code p with
  | AccessRequest | StatusServer => Ok bs
  | AccessAccept | AccessReject | AccountingRequest | AccountingResponse | AccessChallenge
  | DisconnectRequest | DisconnectACK | DisconnectNAK | CoARequest | CoAACK | CoANAK =>
      do buf <- slice_to bs 4;
      let buf :=
        buf ++ match p_code p with
               | AccountingRequest | DisconnectRequest | CoARequest => zeros 16
               | _ => p_authenticator p
               end in
      do tail <- slice_from bs RADIUS_PACKET_HEADER_LENGTH;
      let buf := buf ++ tail ++ p_secret p in
      splice bs 4 20 (md5 buf)
  | _ => Err (UnknownCodeError (code_debug (p_code p)))
  end.

(** packet.rs:310-329; [Err tt] does not occur *)
Definition packet_is_authentic_response (response request secret : bytes) : res unit bool :=
  if (len response <? RADIUS_PACKET_HEADER_LENGTH) || (len request <? RADIUS_PACKET_HEADER_LENGTH)
     || (len secret =? 0)
  then Ok false
  else
    do a <- slice_to response 4;
    do b <- slice request 4 RADIUS_PACKET_HEADER_LENGTH;
    do c <- slice_from response RADIUS_PACKET_HEADER_LENGTH;
    do auth <- slice response 4 RADIUS_PACKET_HEADER_LENGTH;
    Ok (bytes_eqb (md5 (a ++ b ++ c ++ secret)) auth).

(** packet.rs:358-381 *)
Definition packet_is_authentic_request (request secret : bytes) : res unit bool :=
  if (len request <? RADIUS_PACKET_HEADER_LENGTH) || (len secret =? 0) then Ok false
  else
    do b0 <- index request 0;
    match code_from b0 with
    | AccessRequest | StatusServer => Ok true
    | AccountingRequest | DisconnectRequest | CoARequest =>
        do a <- slice_to request 4;
        do c <- slice_from request RADIUS_PACKET_HEADER_LENGTH;
        do auth <- slice request 4 RADIUS_PACKET_HEADER_LENGTH;
        Ok (bytes_eqb (md5 (a ++ zeros 16 ++ c ++ secret)) auth)
    | _ => Ok false
    end.

Definition with_attributes (p : packet) (attrs : attributes) : packet :=
  Packet (p_code p) (p_identifier p) (p_authenticator p) (p_secret p) attrs.

(** packet.rs:417-419 *)
Definition packet_add (p : packet) (a : avp) : packet :=
  with_attributes p (attributes_add (p_attributes p) a).
(** packet.rs:422-424 *)
Definition packet_extend (p : packet) (avps : list avp) : packet :=
  with_attributes p (attributes_extend (p_attributes p) avps).
(** packet.rs:427-429 *)
Definition packet_delete (p : packet) (typ : byte) : packet :=
  with_attributes p (attributes_del (p_attributes p) typ).
(** packet.rs:432-434 *)
Definition packet_lookup (p : packet) (typ : byte) : option avp :=
  attributes_lookup (p_attributes p) typ.
(** packet.rs:437-439 *)
Definition packet_lookup_all (p : packet) (typ : byte) : list avp :=
  attributes_lookup_all (p_attributes p) typ.
