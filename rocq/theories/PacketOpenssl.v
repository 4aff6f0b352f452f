(** * radius/src/core/packet.rs, the functions compiled with feature "openssl". *)
From Coq Require Import String List NArith Bool Strings.Byte.
From Verif Require Import Prelude Code Avp AvpOpenssl Attributes Packet.
Import ListNotations.
Local Open Scope N_scope.

(** packet.rs:220-268 *)
Definition packet_encode_ossl (hash : hash_fn) (pr : profile) (p : packet)
  : res packet_error bytes :=
  do bs <- map_err EncodingError (packet_marshal_binary pr p);
  match p_code p with
  | AccessRequest | StatusServer => Ok bs
  | AccessAccept | AccessReject | AccountingRequest | AccountingResponse | AccessChallenge
  | DisconnectRequest | DisconnectACK | DisconnectNAK | CoARequest | CoAACK | CoANAK =>
      do buf <- slice_to bs 4;
      let buf :=
        buf ++ match p_code p with
               | AccountingRequest | DisconnectRequest | CoARequest => zeros 16
               | _ => p_authenticator p
               end in
      do tail <- slice_from bs RADIUS_PACKET_HEADER_LENGTH;
      let buf := buf ++ tail ++ p_secret p in
      match hash buf with
      | inl err => Err (HashComputationFailed err)
      | inr enc => splice bs 4 20 enc
      end
  | _ => Err (UnknownCodeError (code_debug (p_code p)))
  end.

(** packet.rs:333-354; [expect] of line 351 panics *)
Definition packet_is_authentic_response_ossl (hash : hash_fn) (response request secret : bytes)
  : res unit bool :=
  if (len response <? RADIUS_PACKET_HEADER_LENGTH) || (len request <? RADIUS_PACKET_HEADER_LENGTH)
     || (len secret =? 0)
  then Ok false
  else
    do a <- slice_to response 4;
    do b <- slice request 4 RADIUS_PACKET_HEADER_LENGTH;
    do c <- slice_from response RADIUS_PACKET_HEADER_LENGTH;
    match hash (a ++ b ++ c ++ secret) with
    | inl _ => Panic
    | inr enc =>
        do auth <- slice response 4 RADIUS_PACKET_HEADER_LENGTH;
        Ok (bytes_eqb enc auth)
    end.

(** packet.rs:385-414; [expect] of line 407 panics *)
Definition packet_is_authentic_request_ossl (hash : hash_fn) (request secret : bytes)
  : res unit bool :=
  if (len request <? RADIUS_PACKET_HEADER_LENGTH) || (len secret =? 0) then Ok false
  else
    do b0 <- index request 0;
    match code_from b0 with
    | AccessRequest | StatusServer => Ok true
    | AccountingRequest | DisconnectRequest | CoARequest =>
        do a <- slice_to request 4;
        do c <- slice_from request RADIUS_PACKET_HEADER_LENGTH;
        match hash (a ++ zeros 16 ++ c ++ secret) with
        | inl _ => Panic
        | inr enc =>
            do auth <- slice request 4 RADIUS_PACKET_HEADER_LENGTH;
            Ok (bytes_eqb enc auth)
        end
    | _ => Ok false
    end.
