(** * Independent specifications of the packet-level properties.

    Nothing here refers to the functions of the model except the data types
    ([byte], [avp], [code], [packet], error types) and MD5 itself. *)
From Coq Require Import String List NArith ZArith Bool Strings.Byte.
From Verif Require Import Prelude Md5 Tag Code Avp Packet.
Import ListNotations.
Local Open Scope N_scope.

(** RFC 2865 section 3, RFC 2866 section 3, RFC 5176 section 2.3: code numbers. *)
Definition code_number (c : code) : N :=
  match c with
  | AccessRequest => 1 | AccessAccept => 2 | AccessReject => 3
  | AccountingRequest => 4 | AccountingResponse => 5
  | AccessChallenge => 11 | StatusServer => 12 | StatusClient => 13
  | DisconnectRequest => 40 | DisconnectACK => 41 | DisconnectNAK => 42
  | CoARequest => 43 | CoAACK => 44 | CoANAK => 45
  | Reserved => 255
  | Invalid => 0
  end.

(** The code a receiver reports for a code octet. *)
Definition reported_code (octet : byte) (c : code) : Prop :=
  code_number c = b2n octet
  \/ (c = Invalid /\ forall c', code_number c' <> b2n octet).

(** Groups of codes. *)
Definition plain_request (c : code) : Prop := c = AccessRequest \/ c = StatusServer.
Definition hashed_request (c : code) : Prop :=
  c = AccountingRequest \/ c = DisconnectRequest \/ c = CoARequest.
Definition reply_code (c : code) : Prop :=
  c = AccessAccept \/ c = AccessReject \/ c = AccessChallenge \/ c = AccountingResponse
  \/ c = DisconnectACK \/ c = DisconnectNAK \/ c = CoAACK \/ c = CoANAK.
Definition unsendable_code (c : code) : Prop :=
  c = StatusClient \/ c = Reserved \/ c = Invalid.

(** RFC 2865 section 5: attributes are type, length (counting type and length), value. *)
Inductive attrs_wire : bytes -> list avp -> Prop :=
| aw_nil : attrs_wire [] []
| aw_cons t l v rest avs :
    b2n l = 2 + len v ->
    attrs_wire rest avs ->
    attrs_wire (t :: l :: v ++ rest) (AVP t v :: avs).

(** The ways in which an attribute area can fail to be well-formed. *)
Inductive attrs_malformed : bytes -> string -> Prop :=
| am_short pre avs t :
    attrs_wire pre avs -> attrs_malformed (pre ++ [t]) "short buffer"
| am_length pre avs t l rest :
    attrs_wire pre avs ->
    b2n l < 2 \/ 2 + len rest < b2n l ->
    attrs_malformed (pre ++ t :: l :: rest) "invalid attribute length".

(** RFC 2865 section 3: a datagram that starts with a RADIUS packet. *)
Definition wire_packet (bs : bytes) (c id : byte) (auth : bytes) (attrs : list avp) : Prop :=
  exists l1 l2 body padding,
    bs = [c; id; l1; l2] ++ auth ++ body ++ padding
    /\ len auth = 16
    /\ 256 * b2n l1 + b2n l2 = 20 + len body
    /\ 20 + len body <= 4096
    /\ attrs_wire body attrs.

(** What a decoder must answer for a datagram that is not a RADIUS packet: the first failed
    check, in the order buffer size, Length field too small, too large, beyond the buffer,
    attribute area. *)
Inductive decode_failure : bytes -> packet_error -> Prop :=
| df_short bs :
    len bs < 20 -> decode_failure bs (InsufficientPacketPayloadLengthError 20 (len bs))
| df_len_small c id l1 l2 rest :
    16 <= len rest -> 256 * b2n l1 + b2n l2 < 20 ->
    decode_failure (c :: id :: l1 :: l2 :: rest)
      (InsufficientHeaderDefinedPacketLengthError (256 * b2n l1 + b2n l2) 20)
| df_len_large c id l1 l2 rest :
    16 <= len rest -> 4096 < 256 * b2n l1 + b2n l2 ->
    decode_failure (c :: id :: l1 :: l2 :: rest)
      (HeaderDefinedPacketLengthExceedsMaximumLimitError (256 * b2n l1 + b2n l2) 4096)
| df_truncated c id l1 l2 rest :
    16 <= len rest -> 20 <= 256 * b2n l1 + b2n l2 <= 4096 ->
    4 + len rest < 256 * b2n l1 + b2n l2 ->
    decode_failure (c :: id :: l1 :: l2 :: rest)
      (InsufficientPacketPayloadLengthError (256 * b2n l1 + b2n l2) (4 + len rest))
| df_attrs c id l1 l2 auth body padding msg :
    len auth = 16 -> 256 * b2n l1 + b2n l2 = 20 + len body -> 20 + len body <= 4096 ->
    attrs_malformed body msg ->
    decode_failure ([c; id; l1; l2] ++ auth ++ body ++ padding) (DecodingError msg).

(** The Length field of a packet at the start of a buffer, and the packet itself. *)
Definition declared_length (bs : bytes) : N :=
  match bs with
  | _ :: _ :: l1 :: l2 :: _ => 256 * b2n l1 + b2n l2
  | _ => 0
  end.
Definition declared_packet (bs : bytes) : bytes := firstn (N.to_nat (declared_length bs)) bs.

(** The size a packet occupies on the wire: 20 octets of header, 2 + n octets per attribute. *)
Definition attrs_size (attrs : list avp) : N :=
  fold_right (fun a n => 2 + len (avp_value a) + n) 0 attrs.
Definition wire_size (p : packet) : N := 20 + attrs_size (p_attributes p).

(** Octets of a buffer, by position. *)
Definition octets (bs : bytes) (from upto : nat) : bytes := firstn (upto - from) (skipn from bs).

(** RFC 2865 section 3, "Response Authenticator":
    MD5(Code+ID+Length+RequestAuth+Attributes+Secret). *)
Definition response_hash_input (response request secret : bytes) : bytes :=
  octets response 0 4 ++ octets request 4 20 ++ skipn 20 response ++ secret.
Definition response_authentic (response request secret : bytes) : Prop :=
  20 <= len response /\ 20 <= len request /\ secret <> []
  /\ octets response 4 20 = md5 (response_hash_input response request secret).

(** RFC 2866 section 3, RFC 5176 section 2.3, "Request Authenticator":
    MD5(Code + Identifier + Length + 16 zero octets + request attributes + shared secret);
    Access-Request and Status-Server carry an unpredictable value instead. *)
Definition request_hash_input (request secret : bytes) : bytes :=
  octets request 0 4 ++ repeat x00 16 ++ skipn 20 request ++ secret.
Definition request_authentic (request secret : bytes) : Prop :=
  20 <= len request /\ secret <> []
  /\ exists c rest, request = c :: rest
     /\ (b2n c = 1 \/ b2n c = 12
         \/ ((b2n c = 4 \/ b2n c = 40 \/ b2n c = 43)
             /\ octets request 4 20 = md5 (request_hash_input request secret))).

(** Packets that can be built through the public API of [Packet]: constructors, decoding,
    replies, and any sequence of mutations. *)
Inductive api_step : packet -> packet -> Prop :=
| as_set_identifier p id : api_step p (packet_set_identifier p id)
| as_add p a : api_step p (packet_add p a)
| as_extend p avps : api_step p (packet_extend p avps)
| as_delete p t : api_step p (packet_delete p t).
Inductive api_steps : packet -> packet -> Prop :=
| ass_refl p : api_steps p p
| ass_step p q r : api_steps p q -> api_step q r -> api_steps p r.
Inductive api_packet : packet -> Prop :=
| ap_new rng c secret : api_packet (packet_new rng c secret)
| ap_new_id rng c secret id : api_packet (packet_new_with_identifier rng c secret id)
| ap_decode bs secret p : packet_decode bs secret = Ok p -> api_packet p
| ap_response p c : api_packet p -> api_packet (packet_make_response_packet p c)
| ap_step p q : api_packet p -> api_step p q -> api_packet q.
