(** Proofs of the round-trip, size and authenticator properties of packets. *)
From Coq Require Import String List NArith ZArith Bool Strings.Byte Lia.
From Verif Require Import Prelude PreludeFacts Md5 Tag Code Avp Attributes Packet Spec CodecFacts AuthFacts.
Import ListNotations.
Local Open Scope N_scope.

(** ** C02 *)
Lemma wire_packet_prefix bs c id auth attrs :
  wire_packet bs c id auth attrs ->
  20 <= declared_length bs <= len bs /\ declared_length bs <= 4096
  /\ forall suffix, wire_packet (declared_packet bs ++ suffix) c id auth attrs.
Proof.
  intros (l1 & l2 & body & padding & -> & Ha & Hl & Hm & W).
  unfold declared_packet. simpl declared_length.
  change (declared_length ([c; id; l1; l2] ++ auth ++ body ++ padding)) with (256 * b2n l1 + b2n l2).
  rewrite Hl. repeat split; autorewrite with len; try lia.
  intros suffix. exists l1, l2, body, suffix. repeat split; auto.
  replace ([c; id; l1; l2] ++ auth ++ body ++ padding)
    with (([c; id; l1; l2] ++ auth ++ body) ++ padding) by (rewrite <- !app_assoc; reflexivity).
  rewrite firstn_len_app by (autorewrite with len; lia). rewrite <- !app_assoc. reflexivity.
Qed.

Lemma decode_ignores_padding bs secret p suffix :
  packet_decode bs secret = Ok p ->
  packet_decode (declared_packet bs ++ suffix) secret = Ok p.
Proof.
  rewrite !packet_decode_ok_iff. intros (Hs & c & W & R). split; [exact Hs|].
  exists c. split; [|exact R]. apply wire_packet_prefix in W as (_ & _ & W). apply W.
Qed.

(** ** C03 *)
Lemma encode_decode pr p bs : len (p_authenticator p) = 16 ->
  packet_encode pr p = Ok bs -> len bs <= 4096 ->
  exists auth, packet_decode bs (p_secret p)
    = Ok (Packet (p_code p) (p_identifier p) auth (p_secret p) (p_attributes p))
    /\ (plain_request (p_code p) -> auth = p_authenticator p).
Proof.
  intros Ha H L. pose proof (encode_wire_size _ _ _ Ha H) as Hw.
  apply encode_inv in H as (body & s & W & Hc & Hs & Hm & E); [|exact Ha].
  cbv zeta in E. set (hdr := [code_to_u8 (p_code p); p_identifier p] ++ u16_be s) in *.
  exists (sent_authenticator p hdr body). split.
  - apply packet_decode_ok_iff. simpl. split; [reflexivity|].
    exists (code_to_u8 (p_code p)). split.
    + exists (n2b (s / 256)), (n2b s), body, [].
      assert (Hs' : s = wire_size p) by lia.
      repeat split.
      * rewrite app_nil_r. exact E.
      * apply len_sent_authenticator. exact Ha.
      * rewrite !b2n_n2b. unfold wire_size in *. rewrite (attrs_wire_len _ _ W). lia.
      * unfold wire_size in *. rewrite (attrs_wire_len _ _ W). lia.
      * exact W.
    + left. symmetry. apply code_to_u8_number.
  - unfold sent_authenticator. intros [->| ->]; reflexivity.
Qed.

(** ** C04 *)
Lemma decode_encode_plain pr bs secret p :
  packet_decode bs secret = Ok p -> plain_request (p_code p) ->
  packet_encode pr p = Ok (declared_packet bs).
Proof.
  intros H Hc. apply packet_decode_ok_iff in H as (Hs & c & (l1 & l2 & body & padding & -> & Ha & Hl & Hm & W) & R).
  assert (Hcode : code_to_u8 (p_code p) = c).
  { apply reported_code_from in R. destruct Hc as [Hc|Hc]; rewrite Hc in *;
      apply code_from_iff in R; try discriminate; apply b2n_inj; symmetry; exact R. }
  assert (Hw : wire_size p = 20 + len body) by (unfold wire_size; rewrite (attrs_wire_len _ _ W); reflexivity).
  destruct (encode_fit pr p Ha) as (_ & _ & F); [lia|eapply attrs_wire_values; exact W|].
  destruct F as (body' & W' & F); [lia| |].
  { intros U. destruct Hc as [Hc|Hc]; rewrite Hc in U; destruct U as [U|[U|U]]; discriminate. }
  pose proof (attrs_wire_fun _ _ _ W W') as <-. cbv zeta in F. rewrite F. f_equal.
  replace (sent_authenticator p ([code_to_u8 (p_code p); p_identifier p] ++ u16_be (wire_size p)) body)
    with (p_authenticator p)
    by (unfold sent_authenticator; destruct Hc as [-> | ->]; reflexivity).
  unfold declared_packet.
  change (declared_length ([c; p_identifier p; l1; l2] ++ p_authenticator p ++ body ++ padding))
    with (256 * b2n l1 + b2n l2).
  replace ([c; p_identifier p; l1; l2] ++ p_authenticator p ++ body ++ padding)
    with (([c; p_identifier p; l1; l2] ++ p_authenticator p ++ body) ++ padding)
    by (rewrite <- !app_assoc; reflexivity).
  rewrite firstn_len_app by (autorewrite with len; lia).
  rewrite Hcode. replace (wire_size p) with (b2n l1 * 256 + b2n l2) by lia.
  rewrite u16_be_from_be. reflexivity.
Qed.

Lemma decode_encode_hashed pr bs secret p :
  packet_decode bs secret = Ok p -> hashed_request (p_code p) -> secret <> [] ->
  (packet_encode pr p = Ok (declared_packet bs)
   <-> packet_is_authentic_request (declared_packet bs) secret = Ok true).
Proof.
  intros H Hc Hsec. apply packet_decode_ok_iff in H as (Hs & c & (l1 & l2 & body & padding & -> & Ha & Hl & Hm & W) & R).
  apply reported_code_from in R.
  assert (Hcode : code_to_u8 (p_code p) = c).
  { destruct Hc as [Hc|[Hc|Hc]]; rewrite Hc in *;
      apply code_from_iff in R; try discriminate; apply b2n_inj; symmetry; exact R. }
  assert (Hw : wire_size p = 20 + len body) by (unfold wire_size; rewrite (attrs_wire_len _ _ W); reflexivity).
  destruct (encode_fit pr p Ha) as (_ & _ & F); [lia|eapply attrs_wire_values; exact W|].
  destruct F as (body' & W' & F); [lia| |].
  { intros U. destruct Hc as [Hc|[Hc|Hc]]; rewrite Hc in U; destruct U as [U|[U|U]]; discriminate. }
  pose proof (attrs_wire_fun _ _ _ W W') as <-. cbv zeta in F. rewrite F.
  replace (declared_packet ([c; p_identifier p; l1; l2] ++ p_authenticator p ++ body ++ padding))
    with ([c; p_identifier p; l1; l2] ++ p_authenticator p ++ body).
  2:{ unfold declared_packet.
      change (declared_length ([c; p_identifier p; l1; l2] ++ p_authenticator p ++ body ++ padding))
        with (256 * b2n l1 + b2n l2).
      replace ([c; p_identifier p; l1; l2] ++ p_authenticator p ++ body ++ padding)
        with (([c; p_identifier p; l1; l2] ++ p_authenticator p ++ body) ++ padding)
        by (rewrite <- !app_assoc; reflexivity).
      symmetry. apply firstn_len_app. autorewrite with len. lia. }
  rewrite Hcode. replace (wire_size p) with (b2n l1 * 256 + b2n l2) by lia.
  rewrite u16_be_from_be. change ([c; p_identifier p] ++ [l1; l2]) with [c; p_identifier p; l1; l2].
  pose proof (is_authentic_request_eq c [p_identifier p; l1; l2] (p_authenticator p) body secret
    eq_refl Ha Hsec) as E.
  change ((c :: [p_identifier p; l1; l2]) ++ p_authenticator p ++ body)
    with ([c; p_identifier p; l1; l2] ++ p_authenticator p ++ body) in E.
  rewrite E, R. change ((c :: [p_identifier p; l1; l2])) with [c; p_identifier p; l1; l2].
  assert (S : sent_authenticator p [c; p_identifier p; l1; l2] body
              = md5 ([c; p_identifier p; l1; l2] ++ zeros 16 ++ body ++ secret)).
  { unfold sent_authenticator. rewrite Hs. destruct Hc as [->|[->| ->]]; reflexivity. }
  rewrite S. set (d := md5 _).
  assert (X : (match p_code p with
     | AccessRequest | StatusServer => @Ok unit bool true
     | AccountingRequest | DisconnectRequest | CoARequest => Ok (bytes_eqb d (p_authenticator p))
     | _ => Ok false end) = Ok (bytes_eqb d (p_authenticator p))).
  { destruct Hc as [->|[->| ->]]; reflexivity. }
  rewrite X. split.
  - intros Y. injection Y as Y. apply app_inj_len in Y as [-> _].
    + rewrite bytes_eqb_refl. reflexivity.
    + unfold d. autorewrite with len. lia.
  - intros Y. injection Y as Y. apply bytes_eqb_eq in Y. rewrite Y. reflexivity.
Qed.

(** ** C05, C06 *)
Lemma encode_size_ok pr p bs : len (p_authenticator p) = 16 -> packet_encode pr p = Ok bs ->
  wire_size p < 65536 ->
  20 <= len bs <= 4096 /\ declared_length bs = len bs.
Proof.
  intros Ha H Hw. pose proof (encode_wire_size _ _ _ Ha H) as Hl.
  apply encode_inv in H as (body & s & W & Hc & Hs & Hm & E); [|exact Ha].
  assert (s = wire_size p) by lia. split; [unfold wire_size in *; lia|].
  rewrite Hl, <- H, E. cbn [app declared_length u16_be]. rewrite !b2n_n2b. lia.
Qed.

Definition encode_outcome (p : packet) (r : res packet_error bytes) : Prop :=
  (Exists (fun a => 253 < len (avp_value a)) (p_attributes p)
   /\ r = Err (EncodingError "attribute is too large"))
  \/ (Forall (fun a => len (avp_value a) <= 253) (p_attributes p) /\ 4096 < wire_size p
      /\ r = Err (EncodingError "packet is too large"))
  \/ (Forall (fun a => len (avp_value a) <= 253) (p_attributes p) /\ wire_size p <= 4096
      /\ unsendable_code (p_code p) /\ r = Err (UnknownCodeError (code_debug (p_code p))))
  \/ (Forall (fun a => len (avp_value a) <= 253) (p_attributes p) /\ wire_size p <= 4096
      /\ ~ unsendable_code (p_code p) /\ exists bs, r = Ok bs).

Lemma unsendable_dec c : {unsendable_code c} + {~ unsendable_code c}.
Proof. unfold unsendable_code. destruct c; (left; tauto) || (right; intuition discriminate). Qed.

Lemma encode_outcomes pr p : len (p_authenticator p) = 16 -> wire_size p < 65536 ->
  encode_outcome p (packet_encode pr p).
Proof.
  intros Ha Hw. unfold encode_outcome.
  destruct (big_or_small (p_attributes p)) as [S|B].
  - right. destruct (encode_fit pr p Ha Hw S) as (F1 & F2 & F3).
    destruct (N.lt_ge_cases 4096 (wire_size p)) as [L|L].
    + left. auto.
    + right. destruct (unsendable_dec (p_code p)) as [U|U].
      * left. auto.
      * right. destruct (F3 L U) as (body & _ & E). repeat split; auto. eexists. exact E.
  - left. split; [exact B|]. unfold packet_encode. rewrite marshal_big by exact B. reflexivity.
Qed.

(** ** C07, C08 *)
Lemma u16_be_mod n : u16_be (n mod 65536) = u16_be n.
Proof. unfold u16_be. f_equal; [|f_equal]; apply b2n_inj; rewrite !b2n_n2b; lia. Qed.

Lemma encode_shape pr p bs : len (p_authenticator p) = 16 -> packet_encode pr p = Ok bs ->
  exists body, attrs_wire body (p_attributes p)
    /\ let hdr := [n2b (code_number (p_code p)); p_identifier p;
                   n2b (wire_size p / 256); n2b (wire_size p)] in
       bs = hdr ++ octets bs 4 20 ++ body
       /\ (reply_code (p_code p) ->
           octets bs 4 20 = md5 (hdr ++ p_authenticator p ++ body ++ p_secret p))
       /\ (hashed_request (p_code p) ->
           octets bs 4 20 = md5 (hdr ++ repeat x00 16 ++ body ++ p_secret p))
       /\ (plain_request (p_code p) -> octets bs 4 20 = p_authenticator p).
Proof.
  intros Ha H. apply encode_inv in H as (body & s & W & Hc & Hs & Hm & E); [|exact Ha].
  subst s. rewrite u16_be_mod in E. exists body. split; [exact W|].
  cbv zeta in *. replace (n2b (code_number (p_code p))) with (code_to_u8 (p_code p))
    by (apply b2n_inj; rewrite code_to_u8_number, b2n_n2b; destruct (p_code p); reflexivity).
  change ([code_to_u8 (p_code p); p_identifier p] ++ u16_be (wire_size p))
    with [code_to_u8 (p_code p); p_identifier p; n2b (wire_size p / 256); n2b (wire_size p)] in E.
  set (hdr := [code_to_u8 (p_code p); p_identifier p; n2b (wire_size p / 256); n2b (wire_size p)]) in *.
  assert (Hh : len hdr = 4) by reflexivity.
  destruct (octets_header hdr (sent_authenticator p hdr body) body Hh) as (_ & O & _).
  { apply len_sent_authenticator. exact Ha. }
  rewrite <- E in O. rewrite O. split; [exact E|]. unfold sent_authenticator, zeros.
  repeat split.
  - intros R. destruct R as [->|[->|[->|[->|[->|[->|[->| ->]]]]]]]; reflexivity.
  - intros R. destruct R as [->|[->| ->]]; reflexivity.
  - intros [-> | ->]; reflexivity.
Qed.

(** ** C09, C10 *)
Lemma reply_authentic pr request secret p c r bs :
  packet_decode request secret = Ok p -> secret <> [] -> reply_code c ->
  api_steps (packet_make_response_packet p c) r ->
  packet_encode pr r = Ok bs ->
  packet_is_authentic_response bs request secret = Ok true.
Proof.
  intros D Hsec Hc S E. apply api_steps_same in S as (Sa & Ss & Sc). simpl in Sa, Ss, Sc.
  apply packet_decode_ok_iff in D as (Hs & co & (l1 & l2 & body0 & padding & -> & Ha & Hl & Hm & W0) & R).
  apply encode_inv in E as (body & s & W & Hse & Hs' & Hm' & E); [|rewrite Sa; exact Ha].
  cbv zeta in E. set (hdr := [code_to_u8 (p_code r); p_identifier r] ++ u16_be s) in *. subst bs.
  rewrite is_authentic_response_eq.
  - f_equal. apply bytes_eqb_eq. unfold sent_authenticator. rewrite Sc, Sa, Ss, Hs.
    destruct Hc as [->|[->|[->|[->|[->|[->|[->| ->]]]]]]]; reflexivity.
  - reflexivity.
  - apply len_sent_authenticator. rewrite Sa. exact Ha.
  - reflexivity.
  - exact Ha.
  - exact Hsec.
Qed.

Lemma request_encode_authentic pr p bs :
  len (p_authenticator p) = 16 -> plain_request (p_code p) \/ hashed_request (p_code p) ->
  p_secret p <> [] -> packet_encode pr p = Ok bs ->
  packet_is_authentic_request bs (p_secret p) = Ok true.
Proof.
  intros Ha Hc Hsec E. apply encode_inv in E as (body & s & W & Hse & Hs' & Hm' & E); [|exact Ha].
  cbv zeta in E. set (t := [p_identifier p] ++ u16_be s).
  change ([code_to_u8 (p_code p); p_identifier p] ++ u16_be s) with (code_to_u8 (p_code p) :: t) in E.
  subst bs. rewrite is_authentic_request_eq; auto.
  - rewrite code_from_to. unfold sent_authenticator.
    destruct Hc as [[-> | ->]|[->|[->| ->]]]; rewrite ?bytes_eqb_refl; reflexivity.
  - apply len_sent_authenticator. exact Ha.
Qed.

(** ** C13, C14 *)
Lemma octets_rebuild bs : 20 <= len bs -> bs = octets bs 0 4 ++ octets bs 4 20 ++ skipn 20 bs.
Proof.
  intros H. destruct (header_split bs H) as (h & a & r & -> & Hh & Ha).
  destruct (octets_header h a r Hh Ha) as (-> & -> & ->). reflexivity.
Qed.
Lemma len_octets_0_4 bs : 20 <= len bs -> len (octets bs 0 4) = 4.
Proof.
  intros H. destruct (header_split bs H) as (h & a & r & -> & Hh & Ha).
  destruct (octets_header h a r Hh Ha) as (-> & _ & _). exact Hh.
Qed.
Lemma len_octets_4_20 bs : 20 <= len bs -> len (octets bs 4 20) = 16.
Proof.
  intros H. destruct (header_split bs H) as (h & a & r & -> & Hh & Ha).
  destruct (octets_header h a r Hh Ha) as (_ & -> & _). exact Ha.
Qed.

Lemma response_hash_input_inj r1 r2 req secret :
  20 <= len r1 -> 20 <= len r2 ->
  response_hash_input r1 req secret = response_hash_input r2 req secret ->
  octets r1 4 20 = octets r2 4 20 -> r1 = r2.
Proof.
  intros H1 H2 H Ha. unfold response_hash_input in H.
  apply app_inj_len in H as [Hh H]; [|rewrite !len_octets_0_4; auto].
  apply app_inj_len in H as [_ H]; [|reflexivity].
  apply app_inv_tail in H.
  rewrite (octets_rebuild r1 H1), (octets_rebuild r2 H2), Hh, Ha, H. reflexivity.
Qed.

Lemma tamper_response r1 r2 req secret :
  packet_is_authentic_response r1 req secret = Ok true ->
  packet_is_authentic_response r2 req secret = Ok true ->
  octets r1 4 20 = octets r2 4 20 -> r1 <> r2 ->
  response_hash_input r1 req secret <> response_hash_input r2 req secret
  /\ md5 (response_hash_input r1 req secret) = md5 (response_hash_input r2 req secret).
Proof.
  rewrite !is_authentic_response_iff. intros (A1 & B1 & C1 & D1) (A2 & B2 & C2 & D2) E N.
  split; [|congruence]. intros X. apply N. eapply response_hash_input_inj; eauto.
Qed.

Lemma tamper_response_auth r1 r2 req secret :
  packet_is_authentic_response r1 req secret = Ok true ->
  packet_is_authentic_response r2 req secret = Ok true ->
  octets r1 0 4 = octets r2 0 4 -> skipn 20 r1 = skipn 20 r2 -> r1 = r2.
Proof.
  rewrite !is_authentic_response_iff. intros (A1 & B1 & C1 & D1) (A2 & B2 & C2 & D2) E S.
  rewrite (octets_rebuild r1 A1), (octets_rebuild r2 A2), D1, D2.
  unfold response_hash_input. rewrite E, S. reflexivity.
Qed.

Definition hashed_octet (c : byte) : Prop := b2n c = 4 \/ b2n c = 40 \/ b2n c = 43.

Lemma request_authentic_hashed c rest secret :
  request_authentic (c :: rest) secret -> hashed_octet c ->
  octets (c :: rest) 4 20 = md5 (request_hash_input (c :: rest) secret).
Proof.
  intros (_ & _ & c' & r' & E & H) K. injection E as <- <-. unfold hashed_octet in K.
  destruct H as [H|[H|[_ H]]]; auto; lia.
Qed.

Lemma request_hash_input_inj r1 r2 secret :
  20 <= len r1 -> 20 <= len r2 ->
  request_hash_input r1 secret = request_hash_input r2 secret ->
  octets r1 4 20 = octets r2 4 20 -> r1 = r2.
Proof.
  intros H1 H2 H Ha. unfold request_hash_input in H.
  apply app_inj_len in H as [Hh H]; [|rewrite !len_octets_0_4; auto].
  apply app_inj_len in H as [_ H]; [|reflexivity].
  apply app_inv_tail in H.
  rewrite (octets_rebuild r1 H1), (octets_rebuild r2 H2), Hh, Ha, H. reflexivity.
Qed.

Lemma tamper_request c1 t1 c2 t2 secret :
  let r1 := c1 :: t1 in let r2 := c2 :: t2 in
  hashed_octet c1 -> hashed_octet c2 ->
  packet_is_authentic_request r1 secret = Ok true ->
  packet_is_authentic_request r2 secret = Ok true ->
  octets r1 4 20 = octets r2 4 20 -> r1 <> r2 ->
  request_hash_input r1 secret <> request_hash_input r2 secret
  /\ md5 (request_hash_input r1 secret) = md5 (request_hash_input r2 secret).
Proof.
  intros r1 r2 K1 K2. rewrite !is_authentic_request_iff. intros A1 A2 E N.
  pose proof (request_authentic_hashed _ _ _ A1 K1) as D1.
  pose proof (request_authentic_hashed _ _ _ A2 K2) as D2.
  fold r1 in D1. fold r2 in D2.
  split; [|congruence]. intros X. apply N. destruct A1 as (A1 & _), A2 as (A2 & _).
  eapply request_hash_input_inj; eauto.
Qed.

Lemma tamper_request_auth c t1 t2 secret :
  let r1 := c :: t1 in let r2 := c :: t2 in
  hashed_octet c ->
  packet_is_authentic_request r1 secret = Ok true ->
  packet_is_authentic_request r2 secret = Ok true ->
  octets r1 0 4 = octets r2 0 4 -> skipn 20 r1 = skipn 20 r2 -> r1 = r2.
Proof.
  intros r1 r2 K. rewrite !is_authentic_request_iff. intros A1 A2 E S.
  pose proof (request_authentic_hashed _ _ _ A1 K) as D1.
  pose proof (request_authentic_hashed _ _ _ A2 K) as D2.
  fold r1 in D1. fold r2 in D2. destruct A1 as (A1 & _), A2 as (A2 & _).
  rewrite (octets_rebuild r1 A1), (octets_rebuild r2 A2), D1, D2.
  unfold request_hash_input. rewrite E, S. reflexivity.
Qed.

Lemma secret_response r req s1 s2 :
  packet_is_authentic_response r req s1 = Ok true ->
  packet_is_authentic_response r req s2 = Ok true -> s1 <> s2 ->
  response_hash_input r req s1 <> response_hash_input r req s2
  /\ md5 (response_hash_input r req s1) = md5 (response_hash_input r req s2).
Proof.
  rewrite !is_authentic_response_iff. intros (A1 & B1 & C1 & D1) (A2 & B2 & C2 & D2) N.
  split; [|congruence]. unfold response_hash_input. intros X. apply N.
  rewrite !app_assoc in X. apply app_inv_head in X. exact X.
Qed.

Lemma secret_request c t s1 s2 :
  let r := c :: t in
  hashed_octet c ->
  packet_is_authentic_request r s1 = Ok true ->
  packet_is_authentic_request r s2 = Ok true -> s1 <> s2 ->
  request_hash_input r s1 <> request_hash_input r s2
  /\ md5 (request_hash_input r s1) = md5 (request_hash_input r s2).
Proof.
  intros r K. rewrite !is_authentic_request_iff. intros A1 A2 N.
  pose proof (request_authentic_hashed _ _ _ A1 K) as D1.
  pose proof (request_authentic_hashed _ _ _ A2 K) as D2. fold r in D1, D2.
  split; [|congruence]. unfold request_hash_input. intros X. apply N.
  rewrite !app_assoc in X. apply app_inv_head in X. exact X.
Qed.

(** another request's reply *)
Lemma reply_other_request r req1 req2 secret :
  packet_is_authentic_response r req1 secret = Ok true ->
  packet_is_authentic_response r req2 secret = Ok true ->
  octets req1 4 20 <> octets req2 4 20 ->
  response_hash_input r req1 secret <> response_hash_input r req2 secret
  /\ md5 (response_hash_input r req1 secret) = md5 (response_hash_input r req2 secret).
Proof.
  rewrite !is_authentic_response_iff. intros (A1 & B1 & C1 & D1) (A2 & B2 & C2 & D2) N.
  split; [|congruence]. unfold response_hash_input. intros X. apply N.
  apply app_inv_head in X. apply app_inj_len in X as [X _]; [exact X|].
  rewrite !len_octets_4_20; auto.
Qed.

(** ** encoding without any size assumption *)
Definition encode_proceeds (pr : profile) (p : packet) : Prop :=
  (unsendable_code (p_code p) /\ packet_encode pr p = Err (UnknownCodeError (code_debug (p_code p))))
  \/ (~ unsendable_code (p_code p) /\ exists bs, packet_encode pr p = Ok bs
      /\ len bs = wire_size p /\ declared_length bs = wire_size p mod 65536).

Lemma encode_proceeds_intro pr p body s : len (p_authenticator p) = 16 ->
  attrs_wire body (p_attributes p) -> s = wire_size p mod 65536 ->
  packet_marshal_binary pr p
  = Ok ([code_to_u8 (p_code p); p_identifier p] ++ u16_be s ++ p_authenticator p ++ body) ->
  encode_proceeds pr p.
Proof.
  intros Ha W Hs M.
  set (hdr := [code_to_u8 (p_code p); p_identifier p] ++ u16_be s) in *.
  assert (E : packet_marshal_binary pr p = Ok (hdr ++ p_authenticator p ++ body)) by exact M.
  apply encode_of_marshal in E; [|reflexivity|exact Ha].
  destruct (unsendable_dec (p_code p)) as [U|U]; [left|right]; (split; [exact U|]).
  - rewrite E. destruct U as [X|[X|X]]; rewrite X; reflexivity.
  - exists (hdr ++ sent_authenticator p hdr body ++ body). split.
    + rewrite E. unfold unsendable_code in U. destruct (p_code p); try reflexivity; exfalso; tauto.
    + split.
      * autorewrite with len. rewrite len_sent_authenticator by exact Ha.
        unfold wire_size. rewrite <- (attrs_wire_len _ _ W). change (len hdr) with 4. lia.
      * unfold hdr. cbn. rewrite !b2n_n2b.
        assert (s < 65536) by (subst s; apply N.mod_lt; lia). rewrite Hs in *. clear - H.
        set (k := wire_size p mod 65536) in *. lia.
Qed.

Lemma encode_exact pr p : len (p_authenticator p) = 16 ->
  (Exists (fun a => 253 < len (avp_value a)) (p_attributes p)
   /\ packet_encode pr p = Err (EncodingError "attribute is too large"))
  \/ (Forall (fun a => len (avp_value a) <= 253) (p_attributes p)
      /\ 4076 < attrs_size (p_attributes p) mod 65536 < 65516
      /\ packet_encode pr p = Err (EncodingError "packet is too large"))
  \/ (Forall (fun a => len (avp_value a) <= 253) (p_attributes p)
      /\ attrs_size (p_attributes p) mod 65536 <= 4076 /\ encode_proceeds pr p)
  \/ (Forall (fun a => len (avp_value a) <= 253) (p_attributes p)
      /\ 65516 <= attrs_size (p_attributes p) mod 65536
      /\ (pr = Debug -> packet_encode pr p = Panic)
      /\ (pr = Release -> encode_proceeds pr p)).
Proof.
  intros Ha. destruct (big_or_small (p_attributes p)) as [S|B].
  2:{ left. split; [exact B|]. unfold packet_encode. rewrite marshal_big by exact B. reflexivity. }
  right. pose proof S as S'. apply attrs_encodable in S as [body W].
  assert (Hs : size16 p mod 65536 = wire_size p mod 65536) by (unfold size16, wire_size; lia).
  assert (Hm : size16 p = 20 + attrs_size (p_attributes p) mod 65536) by reflexivity.
  assert (Hl : attrs_size (p_attributes p) mod 65536 < 65536) by (apply N.mod_lt; lia).
  destruct (N.lt_ge_cases (size16 p) 65536) as [L|L].
  - pose proof (marshal_ok pr _ _ W L) as M. destruct (4096 <? size16 p) eqn:E.
    + left. split; [exact S'|]. split; [lia|]. unfold packet_encode. rewrite M. reflexivity.
    + right. left. split; [exact S'|]. split; [lia|].
      eapply encode_proceeds_intro; [exact Ha|exact W| |exact M].
      rewrite <- Hs. rewrite N.mod_small by exact L. reflexivity.
  - right. right. split; [exact S'|]. split; [lia|].
    pose proof (marshal_overflow pr _ _ W L) as M.
    split; intros ->.
    + unfold packet_encode. rewrite M. reflexivity.
    + eapply encode_proceeds_intro; [exact Ha|exact W|exact Hs|exact M].
Qed.

Lemma encode_release_no_panic p : len (p_authenticator p) = 16 ->
  packet_encode Release p <> Panic /\ packet_encode Release p <> OutOfFuel.
Proof.
  intros Ha.
  assert (H : encode_proceeds Release p -> packet_encode Release p <> Panic
              /\ packet_encode Release p <> OutOfFuel).
  { intros [(_ & ->)|(_ & bs & -> & _)]; split; discriminate. }
  destruct (encode_exact Release p Ha) as [(_ & ->)|[(_ & _ & ->)|[(_ & _ & P)|(_ & _ & _ & P)]]];
    auto; split; discriminate.
Qed.

Lemma encode_debug_panic p : len (p_authenticator p) = 16 ->
  (packet_encode Debug p = Panic <->
   Forall (fun a => len (avp_value a) <= 253) (p_attributes p)
   /\ 65516 <= attrs_size (p_attributes p) mod 65536).
Proof.
  intros Ha.
  assert (H : encode_proceeds Debug p -> packet_encode Debug p <> Panic).
  { intros [(_ & ->)|(_ & bs & -> & _)]; discriminate. }
  destruct (encode_exact Debug p Ha) as [(B & E)|[(F & R & E)|[(F & R & P)|(F & R & P & _)]]].
  - rewrite E. split; [discriminate|]. intros [F _]. exfalso.
    rewrite Exists_exists in B. destruct B as (a & I & L). rewrite Forall_forall in F.
    specialize (F a I). lia.
  - rewrite E. split; [discriminate|lia].
  - split; [intros X; contradiction (H P X)|lia].
  - split; auto.
Qed.

Lemma encode_size_exact pr p bs : len (p_authenticator p) = 16 -> packet_encode pr p = Ok bs ->
  20 <= len bs /\ len bs = wire_size p
  /\ declared_length bs = len bs mod 65536 /\ declared_length bs <= 4096.
Proof.
  intros Ha H. pose proof (encode_wire_size pr p bs Ha H) as L.
  apply encode_inv in H as (body & s & W & _ & Hs & Hm & ->); [|exact Ha].
  rewrite L. cbn. rewrite !b2n_n2b.
  assert (E : 256 * (s / 256 mod 256) + s mod 256 = s) by lia. rewrite E.
  split; [unfold wire_size; lia|]. auto.
Qed.
