(** * Final theorems about vendor-specific attributes (C32), and what is printed (C33, C53) *)
From Coq Require Import String List NArith ZArith Bool Strings.Byte Lia ZifyBool ZifyNat ZifyN.
From Verif Require Import Prelude PreludeFacts Md5 Tag Code Avp Attributes Packet Vsa Accessors Rfc
  Display Spec CodecFacts AuthFacts AvpSpec AvpFacts RoundTrip PropPacket PropAvp AccessorSpec AccessorFacts PropAccessors
  Samples.
Import ListNotations.
Local Open Scope N_scope.
Local Open Scope list_scope.
Local Ltac Zify.zify_post_hook ::= Z.div_mod_to_equations.

(** ** C32: RFC 2865 section 5.26 *)
(** Vendor-Id, Vendor type, Vendor length (covering everything from the type on), tag if any, value *)
Definition vsa_layout (vendor_id : Z) (vendor_type : byte) (data message : bytes) : Prop :=
  exists id l,
    message = id ++ [vendor_type; l] ++ data
    /\ len id = 4 /\ Z.of_N (be_value id) = (vendor_id mod 2 ^ 32)%Z
    /\ b2n l = 2 + len data.

Lemma i32_be_value v : Z.of_N (be_value (i32_be v)) = (v mod 2 ^ 32)%Z.
Proof.
  unfold i32_be. change (2 ^ 32)%Z with 4294967296%Z. rewrite be_value_u32; [|].
  all: change (2 ^ 32) with 4294967296; assert (0 <= v mod 4294967296 < 4294967296)%Z
    by (apply Z.mod_pos_bound; lia); lia.
Qed.

Theorem C32_string_layout : forall vendor_id vendor_type value,
  let v := VString (string_vsa_new vendor_id vendor_type value) in
  len (vsa_message v) <= 253 ->
  vsa_layout vendor_id vendor_type value (vsa_message v)
  /\ vsa_len v = 2 + len value /\ vsa_is_empty v = false.
Proof.
  intros vid vt value v.
  assert (M : vsa_message v = i32_be vid ++ [vt; n2b (2 + len value)] ++ value) by reflexivity.
  assert (N : vsa_len v = b2n (n2b (2 + len value))) by reflexivity.
  assert (Z : vsa_is_empty v = (b2n (n2b (2 + len value)) =? 0)) by reflexivity.
  rewrite M, N, Z. autorewrite with len. change (len (i32_be vid)) with 4. intros L.
  rewrite b2n_n2b_small by lia. split; [|split; lia].
  exists (i32_be vid), (n2b (2 + len value)). split; [reflexivity|]. split; [reflexivity|].
  split; [apply i32_be_value|rewrite b2n_n2b_small; lia].
Qed.
Theorem C32_tagged_layout : forall vendor_id vendor_type tag value,
  let v := VTagged (tagged_string_vsa_new vendor_id vendor_type tag value) in
  len (vsa_message v) <= 253 ->
  vsa_layout vendor_id vendor_type (tag :: value) (vsa_message v)
  /\ vsa_len v = 3 + len value /\ vsa_is_empty v = false.
Proof.
  intros vid vt tg value v.
  assert (M : vsa_message v = i32_be vid ++ [vt; n2b (3 + len value)] ++ (tg :: value)) by reflexivity.
  assert (N : vsa_len v = b2n (n2b (3 + len value))) by reflexivity.
  assert (Z : vsa_is_empty v = (b2n (n2b (3 + len value)) =? 0)) by reflexivity.
  rewrite M, N, Z. autorewrite with len. change (len (i32_be vid)) with 4. intros L.
  rewrite b2n_n2b_small by lia. split; [|split; lia].
  exists (i32_be vid), (n2b (3 + len value)). split; [reflexivity|]. split; [reflexivity|].
  split; [apply i32_be_value|rewrite b2n_n2b_small; autorewrite with len; lia].
Qed.

(** The vendor id is recovered from the four octets. *)
Theorem C32_vendor_id_unique : forall i j, (0 <= i < 2 ^ 31)%Z -> (0 <= j < 2 ^ 31)%Z ->
  forall t u d e m, vsa_layout i t d m -> vsa_layout j u e m -> i = j /\ t = u /\ d = e.
Proof.
  intros i j Hi Hj t u d e m (a & l & E & La & V & _) (b & l' & E' & Lb & V' & _).
  rewrite E in E'. apply app_inj_len in E' as [-> E']; [|congruence]. injection E' as -> _ ->.
  repeat split. rewrite V in V'. rewrite !Z.mod_small in V' by lia. exact V'.
Qed.

(** [add_vsa_attribute] appends exactly one Vendor-Specific attribute carrying the message, and
    if the packet can be encoded the message is within the bound of the two theorems above, and
    the receiver finds it. *)
Theorem C32_add_vsa : forall p v,
  p_attributes (rfc2865_add_vsa_attribute p v) = p_attributes p ++ [AVP (n2b 26) (vsa_message v)]
  /\ same_header p (rfc2865_add_vsa_attribute p v).
Proof. intros [c i a s l] v. repeat split. Qed.
Theorem C32_vsa_on_the_wire : forall pr p v bs, api_packet p ->
  packet_encode pr (rfc2865_add_vsa_attribute p v) = Ok bs -> len bs <= 4096 ->
  len (vsa_message v) <= 253
  /\ exists q, packet_decode bs (p_secret p) = Ok q
     /\ exists before, packet_lookup_all q (n2b 26) = before ++ [AVP (n2b 26) (vsa_message v)].
Proof.
  intros pr p v bs A E L.
  assert (A' : api_packet (rfc2865_add_vsa_attribute p v)) by (eapply ap_step; [exact A|apply as_add]).
  destruct (C32_add_vsa p v) as (HA & _ & _ & _ & HS). split.
  - destruct (encode_exact pr _ (api_packet_auth _ A'))
      as [(_ & X)|[(F & _)|[(F & _)|(F & _)]]]; [congruence| | |];
      rewrite HA, Forall_app in F; destruct F as [_ F]; inversion F; assumption.
  - destruct (C03_encode_decode pr _ _ A' E L) as (auth & D & _). rewrite <- HS in D.
    eexists. split; [exact D|]. exists (packet_lookup_all p (n2b 26)).
    unfold packet_lookup_all, attributes_lookup_all. cbn [p_attributes]. rewrite HA.
    rewrite filter_app. reflexivity.
Qed.

(** Outside that bound (such a packet cannot be encoded) [len] and [is_empty] are wrong. *)
Theorem C32_len_wraps : forall vendor_id vendor_type tag value,
  vsa_len (VString (string_vsa_new vendor_id vendor_type value)) = (2 + len value) mod 256
  /\ vsa_len (VTagged (tagged_string_vsa_new vendor_id vendor_type tag value))
     = (3 + len value) mod 256.
Proof. intros. split; apply b2n_n2b. Qed.

Example C32_example :
  let v := VTagged (tagged_string_vsa_new 9 x01 x02 (bytes_of_string "shell:priv-lvl=15")) in
  len (vsa_message v) = 24 /\ vsa_len v = 20
  /\ exists bs, packet_encode Debug (rfc2865_add_vsa_attribute sample_packet v) = Ok bs.
Proof. repeat split; eauto. eexists. vm_compute. reflexivity. Qed.
Example C32_example_wrap :
  let v := VString (string_vsa_new 9 x01 (repeat x41 254)) in
  vsa_is_empty v = true /\ len (vsa_message v) = 260.
Proof. repeat split; vm_compute; reflexivity. Qed.

(** ** C33 *)
Definition with_secret (p : packet) (secret : bytes) : packet :=
  Packet (p_code p) (p_identifier p) (p_authenticator p) secret (p_attributes p).

Theorem C33_debug_hides_secret : forall p s1 s2,
  packet_debug (with_secret p s1) = packet_debug (with_secret p s2)
  /\ packet_debug_alternate (with_secret p s1) = packet_debug_alternate (with_secret p s2).
Proof. intros [c i a s l] s1 s2. split; reflexivity. Qed.

Example C33_example :
  packet_debug (Packet AccessAccept x07 (repeat x01 16) sample_secret
                  [AVP x01 (bytes_of_string "ab"); AVP x02 []])
  = ("Packet { code: AccessAccept, identifier: 7, authenticator: [1, 1, 1, 1, 1, 1, 1, 1, 1, 1, 1, 1, 1, 1, 1, 1], secret: ""*redacted*"", attributes: Attributes([AVP { typ: 1, value: [97, 98] }, AVP { typ: 2, value: [] }]) }")%string.
Proof. vm_compute. reflexivity. Qed.

(** ** C53: failures say nothing about the contents of the secret *)
Theorem C53_decode_errors : forall bs s1 s2 e,
  packet_decode bs s1 = Err e -> packet_decode bs s2 = Err e.
Proof. intros bs s1 s2 e H. apply C01_decode_err_iff. apply C01_decode_err_iff in H. exact H. Qed.

Theorem C53_encode_errors : forall pr p s1 s2 e, len (p_authenticator p) = 16 ->
  packet_encode pr (with_secret p s1) = Err e -> packet_encode pr (with_secret p s2) = Err e.
Proof.
  intros pr [c i a s l] s1 s2 e Ha H. unfold with_secret in *.
  cbn [p_code p_identifier p_authenticator p_attributes] in *.
  set (p1 := Packet c i a s1 l) in *. set (p2 := Packet c i a s2 l).
  assert (EP : encode_proceeds pr p1 -> packet_encode pr p1 = Err e ->
               encode_proceeds pr p2 -> packet_encode pr p2 = Err e).
  { intros [(U & X)|(U & b & X & _)] Y [(U' & X')|(U' & b' & X' & _)]; rewrite X in Y.
    - rewrite X'. exact Y.
    - exact (False_ind _ (U' U)).
    - discriminate Y.
    - discriminate Y. }
  destruct (encode_exact pr p1 Ha) as [(B & X)|[(F & S & X)|[(F & S & X)|(F & S & X & Y)]]];
  destruct (encode_exact pr p2 Ha) as [(B' & X')|[(F' & S' & X')|[(F' & S' & X')|(F' & S' & X' & Y')]]];
    cbn [p1 p2 p_attributes] in *; try lia; try congruence;
    try (apply Exists_Forall_neg in B + apply Exists_Forall_neg in B'; exfalso);
    try (rewrite Exists_exists in *; rewrite Forall_forall in *;
         first [destruct B as (z & Z1 & Z2); specialize (F' z Z1); cbv beta in *; lia
               |destruct B' as (z & Z1 & Z2); specialize (F z Z1); cbv beta in *; lia]).
  - exact (EP X H X').
  - destruct pr.
    + rewrite (X eq_refl) in H. discriminate.
    + exact (EP (Y eq_refl) H (Y' eq_refl)).
Qed.

Theorem C53_password_errors : forall typ pw auth s1 s2 e, s1 <> [] -> s2 <> [] ->
  avp_from_user_password typ pw s1 auth = Err e -> avp_from_user_password typ pw s2 auth = Err e.
Proof.
  intros typ pw auth s1 s2 e N1 N2 H.
  destruct (from_user_password_cases typ pw s1 auth)
    as [(L & X)|[(L & S & X)|[(L & S & A & X)|(L & S & A & X)]]];
  destruct (from_user_password_cases typ pw s2 auth)
    as [(L' & X')|[(L' & S' & X')|[(L' & S' & A' & X')|(L' & S' & A' & X')]]]; try lia; congruence.
Qed.
Theorem C53_password_decode_errors : forall a auth s1 s2 e, s1 <> [] -> s2 <> [] ->
  avp_encode_user_password a s1 auth = Err e -> avp_encode_user_password a s2 auth = Err e.
Proof.
  intros a auth s1 s2 e N1 N2. unfold avp_encode_user_password. cbv zeta.
  assert (Z : forall s : bytes, s <> [] -> (len s =? 0) = false).
  { intros [|x s] N; [congruence|]. rewrite len_cons. lia. }
  rewrite (Z s1 N1), (Z s2 N2).
  repeat match goal with |- context [if ?b then _ else _] => destruct b end; auto; discriminate.
Qed.
Theorem C53_tunnel_password_errors : forall r0 r1 typ t pw auth s1 s2 e, s1 <> [] -> s2 <> [] ->
  avp_from_tunnel_password r0 r1 typ t pw s1 auth = Err e ->
  avp_from_tunnel_password r0 r1 typ t pw s2 auth = Err e.
Proof.
  intros r0 r1 typ t pw auth s1 s2 e N1 N2. unfold avp_from_tunnel_password. cbv zeta.
  assert (Z : forall s : bytes, s <> [] -> (len s =? 0) = false).
  { intros [|x s] N; [congruence|]. rewrite len_cons. lia. }
  rewrite (Z s1 N1), (Z s2 N2).
  destruct (240 <? len auth); [auto|]. destruct (negb (len auth =? 16)); [auto|].
  destruct (len pw =? 0); intros H; discriminate H.
Qed.
Theorem C53_tunnel_password_decode_errors : forall a auth s1 s2 e, s1 <> [] -> s2 <> [] ->
  avp_encode_tunnel_password a s1 auth = Err e -> avp_encode_tunnel_password a s2 auth = Err e.
Proof.
  intros a auth s1 s2 e N1 N2. unfold avp_encode_tunnel_password. cbv zeta.
  assert (Z : forall s : bytes, s <> [] -> (len s =? 0) = false).
  { intros [|x s] N; [congruence|]. rewrite len_cons. lia. }
  rewrite (Z s1 N1), (Z s2 N2).
  destruct (_ || _); [auto|].
  destruct (index (avp_value a) 1); cbn [bind]; [|auto..].
  destruct (negb _); [auto|]. destruct (negb (len auth =? 16)); [auto|].
  destruct (index (avp_value a) 0); cbn [bind]; [|auto..].
  destruct (slice (avp_value a) 1 3); cbn [bind]; [|auto..].
  destruct (slice_from (avp_value a) 3); cbn [bind]; [|auto..]. discriminate.
Qed.

Example C53_example :
  packet_decode [x01; x02] sample_secret = Err (InsufficientPacketPayloadLengthError 20 2)
  /\ packet_encode Debug (with_secret (Packet Reserved x01 (repeat x00 16) [] []) sample_secret)
     = Err (UnknownCodeError "Reserved").
Proof. split; vm_compute; reflexivity. Qed.

(** * Assumptions *)
Print Assumptions C32_string_layout.
Print Assumptions C32_tagged_layout.
Print Assumptions C32_vendor_id_unique.
Print Assumptions C32_add_vsa.
Print Assumptions C32_vsa_on_the_wire.
Print Assumptions C32_len_wraps.
Print Assumptions C33_debug_hides_secret.
Print Assumptions C53_decode_errors.
Print Assumptions C53_encode_errors.
Print Assumptions C53_password_errors.
Print Assumptions C53_password_decode_errors.
Print Assumptions C53_tunnel_password_errors.
Print Assumptions C53_tunnel_password_decode_errors.
