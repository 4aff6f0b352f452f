(** * Final theorems about packets: C01-C14, C31, C34.

    Statements only use the API functions of the model and the definitions of [Spec]. *)
From Coq Require Import String List NArith ZArith Bool Strings.Byte Lia.
From Verif Require Import Prelude PreludeFacts Md5 Tag Code Avp Attributes Packet Spec
  CodecFacts AuthFacts RoundTrip Samples.
Import ListNotations.
Local Open Scope N_scope.

(** ** C01 *)
Theorem C01_decode_ok_iff : forall bs secret p,
  packet_decode bs secret = Ok p <->
  p_secret p = secret
  /\ exists c, wire_packet bs c (p_identifier p) (p_authenticator p) (p_attributes p)
               /\ reported_code c (p_code p).
Proof. exact packet_decode_ok_iff. Qed.

Theorem C01_decode_err_iff : forall bs secret e,
  packet_decode bs secret = Err e <-> decode_failure bs e.
Proof. exact packet_decode_err_iff. Qed.

Theorem C01_decode_total : forall bs secret,
  (exists p, packet_decode bs secret = Ok p) \/ (exists e, packet_decode bs secret = Err e).
Proof. exact packet_decode_total. Qed.

Example C01_example_ok : packet_decode (sample_request ++ [x01; x02]) sample_secret = Ok sample_packet.
Proof. vm_compute. reflexivity. Qed.
Example C01_example_err :
  packet_decode (firstn 22 sample_request) sample_secret
  = Err (InsufficientPacketPayloadLengthError 56 22).
Proof. vm_compute. reflexivity. Qed.

(** ** C02 *)
Theorem C02_decode_ignores_padding : forall bs secret p suffix,
  packet_decode bs secret = Ok p ->
  packet_decode (declared_packet bs ++ suffix) secret = Ok p.
Proof. exact decode_ignores_padding. Qed.

(** ** C03 *)
Theorem C03_encode_decode : forall pr p bs,
  api_packet p -> packet_encode pr p = Ok bs -> len bs <= 4096 ->
  exists auth, packet_decode bs (p_secret p)
    = Ok (Packet (p_code p) (p_identifier p) auth (p_secret p) (p_attributes p))
    /\ (plain_request (p_code p) -> auth = p_authenticator p).
Proof. intros pr p bs A. apply encode_decode, api_packet_auth, A. Qed.

Example C03_example :
  api_packet sample_accounting
  /\ exists bs, packet_encode Debug sample_accounting = Ok bs /\ len bs = 34.
Proof.
  split.
  - eapply ap_step; [apply ap_new_id|apply as_extend].
  - eexists. split; vm_compute; reflexivity.
Qed.

(** ** C04 *)
Theorem C04_decode_encode_plain : forall pr bs secret p,
  packet_decode bs secret = Ok p -> plain_request (p_code p) ->
  packet_encode pr p = Ok (declared_packet bs).
Proof. exact decode_encode_plain. Qed.

Theorem C04_decode_encode_hashed : forall pr bs secret p,
  packet_decode bs secret = Ok p -> hashed_request (p_code p) -> secret <> [] ->
  (packet_encode pr p = Ok (declared_packet bs)
   <-> packet_is_authentic_request (declared_packet bs) secret = Ok true).
Proof. exact decode_encode_hashed. Qed.

Example C04_example :
  exists bs p, packet_encode Debug sample_accounting = Ok bs
    /\ packet_decode (bs ++ [x00]) sample_secret = Ok p /\ hashed_request (p_code p)
    /\ packet_is_authentic_request (declared_packet (bs ++ [x00])) sample_secret = Ok true.
Proof.
  eexists. eexists. split; [vm_compute; reflexivity|]. split; [vm_compute; reflexivity|].
  split; [left; reflexivity|vm_compute; reflexivity].
Qed.

(** ** C05: size limits. The code computes the Length field modulo 65536, so the property fails
    for packets with 65516 or more attribute bytes. *)
Theorem C05_encode_size_partial : forall pr p bs,
  api_packet p -> packet_encode pr p = Ok bs -> wire_size p < 65536 ->
  20 <= len bs <= 4096 /\ declared_length bs = len bs.
Proof. intros pr p bs A. apply encode_size_ok, api_packet_auth, A. Qed.

Theorem C05_encode_size_refuted : exists p,
  api_packet p
  /\ forall pr, exists bs, packet_encode pr p = Ok bs /\ len bs = 65556 /\ declared_length bs = 20.
Proof.
  exists wrap_packet. split.
  - eapply ap_step; [apply ap_new_id|apply as_extend].
  - intros pr.
    destruct (ok_with_elim (packet_encode pr wrap_packet)
      (fun bs => (len bs =? 65556) && (declared_length bs =? 20))) as (bs & E & H).
    + destruct pr; vm_compute; reflexivity.
    + apply andb_prop in H. destruct H as [H1 H2].
      exists bs. split; [exact E|]. split; apply N.eqb_eq; assumption.
Qed.

(** without the size bound: what is sent has the full size, its Length field the low 16 bits *)
Theorem C05_encode_size_exact : forall pr p bs,
  api_packet p -> packet_encode pr p = Ok bs ->
  20 <= len bs /\ len bs = wire_size p
  /\ declared_length bs = len bs mod 65536 /\ declared_length bs <= 4096.
Proof. intros pr p bs A. apply encode_size_exact, api_packet_auth, A. Qed.

(** ** C06 *)
Theorem C06_encode_outcomes_partial : forall pr p,
  api_packet p -> wire_size p < 65536 ->
  (Exists (fun a => 253 < len (avp_value a)) (p_attributes p)
   /\ packet_encode pr p = Err (EncodingError "attribute is too large"))
  \/ (Forall (fun a => len (avp_value a) <= 253) (p_attributes p) /\ 4096 < wire_size p
      /\ packet_encode pr p = Err (EncodingError "packet is too large"))
  \/ (Forall (fun a => len (avp_value a) <= 253) (p_attributes p) /\ wire_size p <= 4096
      /\ unsendable_code (p_code p)
      /\ packet_encode pr p = Err (UnknownCodeError (code_debug (p_code p))))
  \/ (Forall (fun a => len (avp_value a) <= 253) (p_attributes p) /\ wire_size p <= 4096
      /\ ~ unsendable_code (p_code p) /\ exists bs, packet_encode pr p = Ok bs).
Proof. intros pr p A. apply encode_outcomes, api_packet_auth, A. Qed.

Theorem C06_encode_panic_refuted : exists p,
  api_packet p /\ packet_encode Debug p = Panic
  /\ exists bs, packet_encode Release p = Ok bs /\ len bs = 65550 /\ declared_length bs = 14.
Proof.
  exists overflow_packet. split.
  - eapply ap_step; [apply ap_new_id|apply as_extend].
  - split; [vm_compute; reflexivity|].
    destruct (ok_with_elim (packet_encode Release overflow_packet)
      (fun bs => (len bs =? 65550) && (declared_length bs =? 14))) as (bs & E & H).
    + vm_compute; reflexivity.
    + apply andb_prop in H. destruct H as [H1 H2].
      exists bs. split; [exact E|]. split; apply N.eqb_eq; assumption.
Qed.

Example C06_example_too_large :
  packet_encode Debug (packet_extend sample_packet (repeat (AVP (n2b 18) (repeat (n2b 65) 253)) 16))
  = Err (EncodingError "packet is too large").
Proof. vm_compute. reflexivity. Qed.
Example C06_example_attr_too_large :
  packet_encode Debug (packet_add sample_packet (AVP (n2b 18) (repeat (n2b 65) 254)))
  = Err (EncodingError "attribute is too large").
Proof. vm_compute. reflexivity. Qed.

(** ** C07, C08: authenticators on the wire ([n2b] keeps the low 8 bits) *)
Theorem C07_reply_authenticator : forall pr p bs,
  api_packet p -> packet_encode pr p = Ok bs -> reply_code (p_code p) ->
  exists body, attrs_wire body (p_attributes p)
    /\ let hdr := [n2b (code_number (p_code p)); p_identifier p;
                   n2b (wire_size p / 256); n2b (wire_size p)] in
       bs = hdr ++ octets bs 4 20 ++ body
       /\ octets bs 4 20 = md5 (hdr ++ p_authenticator p ++ body ++ p_secret p).
Proof.
  intros pr p bs A E R.
  destruct (encode_shape pr p bs (api_packet_auth p A) E) as (body & Hb & H1 & H2 & _).
  exists body. split; [exact Hb|]. split; [exact H1|exact (H2 R)].
Qed.

Theorem C08_request_authenticator : forall pr p bs,
  api_packet p -> packet_encode pr p = Ok bs ->
  exists body, attrs_wire body (p_attributes p)
    /\ let hdr := [n2b (code_number (p_code p)); p_identifier p;
                   n2b (wire_size p / 256); n2b (wire_size p)] in
       bs = hdr ++ octets bs 4 20 ++ body
       /\ (hashed_request (p_code p) ->
           octets bs 4 20 = md5 (hdr ++ repeat x00 16 ++ body ++ p_secret p))
       /\ (plain_request (p_code p) -> octets bs 4 20 = p_authenticator p).
Proof.
  intros pr p bs A E.
  destruct (encode_shape pr p bs (api_packet_auth p A) E) as (body & Hb & H1 & _ & H2 & H3).
  exists body. split; [exact Hb|]. split; [exact H1|split; [exact H2|exact H3]].
Qed.

Example C07_example :
  packet_encode Debug
    (packet_extend (packet_make_response_packet sample_packet AccessAccept) sample_reply_attributes)
  = Ok sample_response.
Proof. vm_compute. reflexivity. Qed.

(** ** C09 *)
Theorem C09_reply_authentic : forall pr request secret p c r bs,
  packet_decode request secret = Ok p -> secret <> [] -> reply_code c ->
  api_steps (packet_make_response_packet p c) r ->
  packet_encode pr r = Ok bs ->
  packet_is_authentic_response bs request secret = Ok true.
Proof. exact reply_authentic. Qed.

Example C09_example :
  packet_is_authentic_response sample_response sample_request sample_secret = Ok true.
Proof. vm_compute. reflexivity. Qed.

(** ** C10 *)
Theorem C10_request_authentic : forall pr p bs,
  api_packet p -> plain_request (p_code p) \/ hashed_request (p_code p) ->
  p_secret p <> [] -> packet_encode pr p = Ok bs ->
  packet_is_authentic_request bs (p_secret p) = Ok true.
Proof. intros pr p bs A. apply request_encode_authentic, api_packet_auth, A. Qed.

(** ** C11, C12 *)
Theorem C11_is_authentic_response : forall response request secret,
  exists b, packet_is_authentic_response response request secret = Ok b
            /\ (b = true <-> response_authentic response request secret).
Proof. exact is_authentic_response_total. Qed.

Theorem C12_is_authentic_request : forall request secret,
  exists b, packet_is_authentic_request request secret = Ok b
            /\ (b = true <-> request_authentic request secret).
Proof. exact is_authentic_request_total. Qed.

Example C12_example_reply_code_rejected :
  packet_is_authentic_request sample_response sample_secret = Ok false.
Proof. vm_compute. reflexivity. Qed.

(** ** C13 *)
Theorem C13_tampered_response : forall r1 r2 req secret,
  packet_is_authentic_response r1 req secret = Ok true ->
  packet_is_authentic_response r2 req secret = Ok true ->
  octets r1 4 20 = octets r2 4 20 -> r1 <> r2 ->
  response_hash_input r1 req secret <> response_hash_input r2 req secret
  /\ md5 (response_hash_input r1 req secret) = md5 (response_hash_input r2 req secret).
Proof. exact tamper_response. Qed.

Theorem C13_tampered_response_authenticator : forall r1 r2 req secret,
  packet_is_authentic_response r1 req secret = Ok true ->
  packet_is_authentic_response r2 req secret = Ok true ->
  octets r1 0 4 = octets r2 0 4 -> skipn 20 r1 = skipn 20 r2 -> r1 = r2.
Proof. exact tamper_response_auth. Qed.

Theorem C13_tampered_request : forall c1 t1 c2 t2 secret,
  let r1 := c1 :: t1 in let r2 := c2 :: t2 in
  (b2n c1 = 4 \/ b2n c1 = 40 \/ b2n c1 = 43) -> (b2n c2 = 4 \/ b2n c2 = 40 \/ b2n c2 = 43) ->
  packet_is_authentic_request r1 secret = Ok true ->
  packet_is_authentic_request r2 secret = Ok true ->
  octets r1 4 20 = octets r2 4 20 -> r1 <> r2 ->
  request_hash_input r1 secret <> request_hash_input r2 secret
  /\ md5 (request_hash_input r1 secret) = md5 (request_hash_input r2 secret).
Proof. exact tamper_request. Qed.

Theorem C13_tampered_request_authenticator : forall c t1 t2 secret,
  let r1 := c :: t1 in let r2 := c :: t2 in
  (b2n c = 4 \/ b2n c = 40 \/ b2n c = 43) ->
  packet_is_authentic_request r1 secret = Ok true ->
  packet_is_authentic_request r2 secret = Ok true ->
  octets r1 0 4 = octets r2 0 4 -> skipn 20 r1 = skipn 20 r2 -> r1 = r2.
Proof. exact tamper_request_auth. Qed.

Theorem C13_reply_for_other_request : forall r req1 req2 secret,
  packet_is_authentic_response r req1 secret = Ok true ->
  packet_is_authentic_response r req2 secret = Ok true ->
  octets req1 4 20 <> octets req2 4 20 ->
  response_hash_input r req1 secret <> response_hash_input r req2 secret
  /\ md5 (response_hash_input r req1 secret) = md5 (response_hash_input r req2 secret).
Proof. exact reply_other_request. Qed.

(** ** C14 *)
Theorem C14_two_secrets_response : forall r req s1 s2,
  packet_is_authentic_response r req s1 = Ok true ->
  packet_is_authentic_response r req s2 = Ok true -> s1 <> s2 ->
  response_hash_input r req s1 <> response_hash_input r req s2
  /\ md5 (response_hash_input r req s1) = md5 (response_hash_input r req s2).
Proof. exact secret_response. Qed.

Theorem C14_two_secrets_request : forall c t s1 s2,
  let r := c :: t in
  (b2n c = 4 \/ b2n c = 40 \/ b2n c = 43) ->
  packet_is_authentic_request r s1 = Ok true ->
  packet_is_authentic_request r s2 = Ok true -> s1 <> s2 ->
  request_hash_input r s1 <> request_hash_input r s2
  /\ md5 (request_hash_input r s1) = md5 (request_hash_input r s2).
Proof. exact secret_request. Qed.

(** ** C31 *)
Theorem C31_authenticator_length : forall p, api_packet p -> len (p_authenticator p) = 16.
Proof. exact api_packet_auth. Qed.

Theorem C31_encode_release_total : forall p, api_packet p ->
  (exists bs, packet_encode Release p = Ok bs) \/ (exists e, packet_encode Release p = Err e).
Proof.
  intros p A. destruct (encode_release_no_panic p (api_packet_auth p A)) as [H1 H2].
  destruct (packet_encode Release p); [left; eauto|right; eauto|contradiction..].
Qed.

(** with overflow checks ([Debug]) the only panic is the 16-bit addition of the size *)
Theorem C31_encode_debug_panics_iff : forall p, api_packet p ->
  (packet_encode Debug p = Panic <->
   Forall (fun a => len (avp_value a) <= 253) (p_attributes p)
   /\ 65516 <= attrs_size (p_attributes p) mod 65536).
Proof. intros p A. apply encode_debug_panic, api_packet_auth, A. Qed.

Example C31_example : api_packet sample_packet /\ packet_encode Debug sample_packet = Ok sample_request.
Proof.
  split; [apply (ap_decode sample_request sample_secret)|]; vm_compute; reflexivity.
Qed.

(** ** C34 *)
Theorem C34_code_roundtrip : forall c,
  code_from (code_to_u8 c) = c /\ b2n (code_to_u8 c) = code_number c.
Proof. intros c. split; [apply code_from_to|apply code_to_u8_number]. Qed.
Theorem C34_code_from : forall o c, code_from o = c <-> reported_code o c.
Proof. intros o c. symmetry. apply reported_code_from. Qed.

(** the name shown for each code, with the number RFC 2865 section 3, RFC 2866 and RFC 5176 give it; one code has
    one name *)
Definition code_names : list (N * string) :=
  [(0, "Invalid"); (1, "Access-Request"); (2, "Access-Accept"); (3, "Access-Reject");
   (4, "Accounting-Request"); (5, "Accounting-Response"); (11, "Access-Challenge");
   (12, "Status-Server"); (13, "Status-Client"); (40, "Disconnect-Request"); (41, "Disconnect-ACK");
   (42, "Disconnect-NAK"); (43, "CoA-Request"); (44, "CoA-ACK"); (45, "CoA-NAK"); (255, "Reserved")]%string.
Theorem C34_code_name : forall c, In (code_number c, code_string c) code_names.
Proof. intros []; vm_compute; tauto. Qed.
Theorem C34_code_names_differ : forall c d, code_string c = code_string d -> c = d.
Proof. intros [] []; try reflexivity; discriminate. Qed.

(** * Assumptions *)
Print Assumptions C01_decode_ok_iff.
Print Assumptions C01_decode_err_iff.
Print Assumptions C01_decode_total.
Print Assumptions C02_decode_ignores_padding.
Print Assumptions C03_encode_decode.
Print Assumptions C04_decode_encode_plain.
Print Assumptions C04_decode_encode_hashed.
Print Assumptions C05_encode_size_partial.
Print Assumptions C05_encode_size_refuted.
Print Assumptions C05_encode_size_exact.
Print Assumptions C06_encode_outcomes_partial.
Print Assumptions C06_encode_panic_refuted.
Print Assumptions C07_reply_authenticator.
Print Assumptions C08_request_authenticator.
Print Assumptions C09_reply_authentic.
Print Assumptions C10_request_authentic.
Print Assumptions C11_is_authentic_response.
Print Assumptions C12_is_authentic_request.
Print Assumptions C13_tampered_response.
Print Assumptions C13_tampered_response_authenticator.
Print Assumptions C13_tampered_request.
Print Assumptions C13_tampered_request_authenticator.
Print Assumptions C13_reply_for_other_request.
Print Assumptions C14_two_secrets_response.
Print Assumptions C14_two_secrets_request.
Print Assumptions C31_authenticator_length.
Print Assumptions C31_encode_release_total.
Print Assumptions C31_encode_debug_panics_iff.
Print Assumptions C34_code_roundtrip.
Print Assumptions C34_code_from.
Print Assumptions C34_code_name.
Print Assumptions C34_code_names_differ.
