(** * C64: IP prefixes and RFC 3162 / RFC 6572 peers; C65: what [add_x] accepts can be sent;
      C66: attributes copied from one packet to another (Proxy-State) *)
From Coq Require Import String List NArith ZArith Bool Arith Strings.Byte Lia ZifyBool ZifyNat ZifyN.
From Verif Require Import Prelude PreludeFacts Md5 Tag Code Avp Attributes Packet Vsa Accessors Rfc
  Spec AvpSpec AvpFacts RoundTrip PropPacket PropAvp AccessorSpec AccessorFacts PropAccessors InteropSpec Samples.
Import ListNotations.
Local Open Scope N_scope.
Local Open Scope list_scope.

(** ** C64 *)

(** what the library makes of an IPv6 prefix is well formed and denotes all bits given *)
Theorem C64_ipv6_made : forall typ prefix a, avp_from_ipv6_prefix typ prefix = Ok a ->
  rfc_prefix 16 (8 * len prefix) prefix (avp_value a).
Proof.
  intros typ prefix a H. destruct (from_ipv6_prefix typ prefix) as [[L E]|[_ E]]; rewrite E in H; [|discriminate].
  injection H as <-. unfold rfc_prefix. cbn [avp_value]. split; [reflexivity|]. split; [exact L|]. split; [lia|].
  intros i I. unfold prefix_bit. rewrite nth_overflow; [apply N.bits_0|]. unfold len in I. lia.
Qed.
(** an IPv4 prefix is sent as a /4 network, which is well formed only if the other 28 bits are zero *)
Theorem C64_ipv4_made_exact : forall typ prefix a bits pre, avp_from_ipv4_prefix typ prefix = Ok a ->
  (rfc_prefix 4 bits pre (avp_value a)
   <-> bits mod 256 = 4 /\ bits <= 32 /\ pre = prefix /\ forall i, 4 <= i -> prefix_bit prefix i = false).
Proof.
  intros typ prefix a bits pre H.
  destruct (from_ipv4_prefix typ prefix) as [[L E]|[_ E]]; rewrite E in H; [|discriminate].
  injection H as <-. unfold rfc_prefix. cbn [avp_value]. split.
  - intros (V & L' & B & Z). injection V as W ->. assert (Q : bits mod 256 = 4).
    { rewrite <- b2n_n2b, <- W. reflexivity. }
    assert (bits = 4) by lia. subst bits. repeat split; try lia. exact Z.
  - intros (Q & B & -> & Z). assert (bits = 4) by lia. subst bits. split; [reflexivity|]. split; [lia|]. split; [lia|exact Z].
Qed.
(** so 192.0.2.0 cannot be sent *)
Theorem C64_ipv4_made_refuted : exists typ prefix a,
  avp_from_ipv4_prefix typ prefix = Ok a /\ forall bits pre, ~ rfc_prefix 4 bits pre (avp_value a).
Proof.
  exists (n2b 155), (nb [192; 0; 2; 0]). eexists. split; [reflexivity|]. intros bits pre H.
  apply (C64_ipv4_made_exact (n2b 155) (nb [192; 0; 2; 0]) _ bits pre eq_refl) in H.
  destruct H as (_ & _ & _ & Z). discriminate (Z 22 ltac:(lia)).
Qed.
(** the prefix length of a received prefix is lost: two different networks are read alike *)
Theorem C64_length_read_refuted : exists typ v v' bits bits' pre,
  rfc_prefix 16 bits pre v /\ rfc_prefix 16 bits' pre v' /\ bits <> bits'
  /\ avp_encode_ipv6_prefix (AVP typ v) = avp_encode_ipv6_prefix (AVP typ v').
Proof.
  exists (n2b 97), (nb [0; 32; 0x20; 0x01; 0x0d; 0xb8; 0]), (nb [0; 33; 0x20; 0x01; 0x0d; 0xb8; 0]), 32, 33,
    (nb [0x20; 0x01; 0x0d; 0xb8; 0]).
  assert (Z : forall i, 32 <= i -> prefix_bit (nb [0x20; 0x01; 0x0d; 0xb8; 0]) i = false).
  { intros i I. unfold prefix_bit. destruct (N.to_nat (i / 8)) as [|[|[|[|[|n]]]]] eqn:E; try lia.
    - cbn [nb map nth]. apply N.bits_0.
    - cbn [nb map nth]. destruct n; apply N.bits_0. }
  split; [|split; [|split; [lia|reflexivity]]]; (split; [reflexivity|]; split; [vm_compute; discriminate|]; split; [vm_compute; discriminate|]).
  - exact Z.
  - intros i I. apply Z. lia.
Qed.
(** the octets of a received prefix are read *)
Theorem C64_octets_read_partial : forall typ v bits pre,
  (rfc_prefix 16 bits pre v -> avp_encode_ipv6_prefix (AVP typ v) = Ok pre)
  /\ (rfc_prefix 4 bits pre v -> len pre = 4 -> avp_encode_ipv4_prefix (AVP typ v) = Ok pre).
Proof.
  intros typ v bits pre. split.
  - intros (-> & L & _). destruct (decode_ipv6_prefix (AVP typ (x00 :: n2b bits :: pre))) as [(x & y & q & V & D)|[X _]].
    + injection V as <- <- <-. exact D.
    + cbn [avp_value] in X. rewrite !len_cons in X. lia.
  - intros (-> & L & _) L4. destruct (decode_ipv4_prefix (AVP typ (x00 :: n2b bits :: pre))) as [(x & y & q & V & _ & D)|[X _]].
    + injection V as <- <- <-. exact D.
    + contradiction X. cbn [avp_value]. rewrite !len_cons, L4. reflexivity.
Qed.
Example C64_example : exists a, avp_from_ipv6_prefix (n2b 97) (nb [0x20; 0x01; 0x0d; 0xb8]) = Ok a
  /\ avp_value a = nb [0; 32; 0x20; 0x01; 0x0d; 0xb8].
Proof. eexists. split; reflexivity. Qed.

(** ** C65 *)

(** the values that fit into an attribute on the wire *)
Definition fits (k : kind) : kin k -> Prop :=
  match k return kin k -> Prop with
  | KString | KOctets => fun v => len v <= 253
  | KTaggedString => fun '(t, v) => len v <= match t with None => 253 | Some _ => 252 end
  | KTunnelPassword => fun '(_, _, _, pw) => len pw <= 240
  | KVsa => fun v => match v with
                     | VString v => len (sv_vendor_id v) + len (sv_value v) <= 251
                     | VTagged v => len (tv_vendor_id v) + len (tv_value v) <= 250
                     end
  | _ => fun _ => True
  end.
Definition attributes_fit (p : packet) : Prop := Forall (fun a => len (avp_value a) <= 253) (p_attributes p).

Lemma fixed_small : forall e, In e entries -> match e_kind e with KFixedOctets n => n <= 253 | _ => True end.
Proof.
  assert (H : forallb (fun e => match e_kind e with KFixedOctets n => n <=? 253 | _ => true end) entries = true)
    by (vm_compute; reflexivity).
  intros e I. rewrite forallb_forall in H. specialize (H e I). cbv beta in H. destruct (e_kind e); lia.
Qed.

Lemma kind_avp_len k typ p v a : match k with KFixedOctets n => n <= 253 | _ => True end -> k <> KConcatOctets ->
  kind_avp k typ p v = Ok a -> (len (avp_value a) <= 253 <-> fits k v).
Proof.
  intros F C. destruct k; cbn [kind_avp fits]; try contradiction; unfold packet_get_secret, packet_get_authenticator.
  - intros H. injection H as <-. reflexivity.
  - destruct v as [[t|] v]; intros H; injection H as <-; cbn [avp_value avp_from_tagged_string app]; rewrite ?len_cons; lia.
  - intros H. destruct (from_user_password_cases typ v (p_secret p) (p_authenticator p))
      as [(_ & E)|[(_ & _ & E)|[(_ & _ & _ & E)|(L & _ & _ & E)]]]; rewrite E in H; try discriminate.
    injection H as <-. cbn [avp_value]. rewrite enc_concat_len. lia.
  - destruct v as [[[r0 r1] t] pw]. intros H.
    destruct (from_tunnel_password_cases r0 r1 typ t pw (p_secret p) (p_authenticator p))
      as [(_ & e & E)|[(_ & _ & E)|(_ & _ & E)]]; cbv zeta in E; rewrite E in H; try discriminate.
    injection H as <-. cbn [avp_value app]. rewrite !len_cons, enc_concat_len. lia.
  - intros H. injection H as <-. reflexivity.
  - destruct (len v =? n) eqn:E; cbn [negb]; intros H; [|discriminate]. injection H as <-. cbn [avp_value avp_from_bytes]. lia.
  - intros H. injection H as <-. destruct v as [? ? ? ?]. split; [auto|]. intros _. vm_compute. discriminate.
  - intros H. destruct (from_ipv4_prefix typ v) as [[L E]|[_ E]]; rewrite E in H; [|discriminate].
    injection H as <-. cbn [avp_value]. rewrite !len_cons. lia.
  - intros H. injection H as <-. destruct v. split; [auto|]. intros _. vm_compute. discriminate.
  - intros H. destruct (from_ipv6_prefix typ v) as [[L E]|[_ E]]; rewrite E in H; [|discriminate].
    injection H as <-. cbn [avp_value]. rewrite !len_cons. lia.
  - intros H. injection H as <-. cbn [avp_value avp_from_date]. rewrite len_u32_be. lia.
  - intros H. injection H as <-. cbn [avp_value avp_from_u32]. rewrite len_u32_be. lia.
  - destruct v as [t v]. intros H. injection H as <-. cbn [avp_value avp_from_tagged_u32 app]. rewrite len_cons, len_u32_be. lia.
  - intros H. injection H as <-. cbn [avp_value avp_from_u32]. rewrite len_u32_be. lia.
  - destruct v as [t v]. intros H. injection H as <-. cbn [avp_value avp_from_tagged_u32 app]. rewrite len_cons, len_u32_be. lia.
  - intros H. injection H as <-. cbn [avp_value avp_from_u16]. rewrite len_u16_be. lia.
  - intros H. injection H as <-. cbn [avp_value avp_from_bytes].
    destruct v as [v|v]; cbn [vsa_message]; unfold string_vsa_message, tagged_string_vsa_message;
      rewrite !len_app, !len_cons, len_nil; lia.
Qed.

(** exactly which accepted values fit, for every attribute of every module *)
Theorem C65_fits_exact : forall e, In e entries -> e_kind e <> KConcatOctets -> forall p v p',
  e_add e p v = (p', Ok tt) -> attributes_fit p -> (attributes_fit p' <-> fits (e_kind e) v).
Proof.
  intros e I C p v p' H F. destruct (entry_templated e I) as (_ & TA & _). rewrite TA in H.
  assert (K : exists a, kind_avp (e_kind e) (e_type e) p v = Ok a /\ p' = packet_add p a).
  { clear TA. revert C v H. generalize (e_type e). generalize (e_kind e). intros k t C v H.
    destruct k; try contradiction; cbn [template_add] in H; unfold try_add in H;
      match type of H with (match ?x with _ => _ end) = _ => destruct x as [a| | |] eqn:E end;
      injection H; intros; try discriminate; subst; exists a; split; auto. }
  destruct K as (a & K & ->). rewrite <- (kind_avp_len _ _ _ _ _ (fixed_small e I) C K).
  unfold attributes_fit. change (p_attributes (packet_add p a)) with (p_attributes p ++ [a]).
  rewrite Forall_app. split; [intros [_ X]; exact (Forall_inv X)|intros X; split; [exact F|constructor; [exact X|constructor]]].
Qed.
(** kinds with values of bounded size: whatever is accepted fits *)
Definition bounded (k : kind) : Prop :=
  match k with KString | KOctets | KTaggedString | KTunnelPassword | KVsa => False | _ => True end.
Lemma is_concat k : k = KConcatOctets \/ k <> KConcatOctets.
Proof. destruct k; auto; right; discriminate. Qed.
Lemma bounded_fits k v : bounded k -> fits k v.
Proof. destruct k; try contradiction; intros _; exact I. Qed.
Theorem C65_accepted_fits_partial : forall e, In e entries -> bounded (e_kind e) -> forall p v p',
  e_add e p v = (p', Ok tt) -> attributes_fit p -> attributes_fit p'.
Proof.
  intros e I B p v p' H F. destruct (is_concat (e_kind e)) as [C|C].
  - destruct (entry_templated e I) as (_ & TA & _). rewrite TA in H. clear TA.
    revert v H. rewrite C. cbn [template_add kin]. intros v H. injection H as <-.
    unfold attributes_fit. cbn [p_attributes packet_extend]; unfold attributes_extend. apply Forall_app. split; [exact F|].
    apply Forall_forall. intros a J. apply in_map_iff in J as (c & <- & J). cbn [avp_value avp_from_bytes].
    assert (B3 : (0 < 253)%nat) by lia. pose proof (proj1 (Forall_forall _ _) (chunks_bound 253 v B3) c J) as X. cbv beta in X. unfold len. lia.
  - apply (C65_fits_exact e I C p v p' H F). apply bounded_fits. exact B.
Qed.
(** a packet whose attributes fit is not refused for the size of an attribute *)
Theorem C65_sent : forall pr p, api_packet p -> attributes_fit p -> wire_size p <= 4096 -> ~ unsendable_code (p_code p) ->
  exists bs, packet_encode pr p = Ok bs.
Proof.
  intros pr p A F W U. destruct (C06_encode_outcomes_partial pr p A) as [[X _]|[[_ [X _]]|[[_ [_ [X _]]]|[_ [_ [_ X]]]]]]; try lia; try contradiction; try exact X.
  apply Exists_exists in X as (a & I & L). unfold attributes_fit in F. rewrite Forall_forall in F. specialize (F a I). cbv beta in F. lia.
Qed.
(** a User-Name of 254 octets is accepted by [add_user_name] and makes [encode] fail *)
Theorem C65_accepted_is_sent_refuted : exists e p v p',
  In e entries /\ api_packet p /\ attributes_fit p /\ e_add e p v = (p', Ok tt)
  /\ forall pr, packet_encode pr p' = Err (EncodingError "attribute is too large").
Proof.
  exists (nth 0 entries (hd (Entry "" "" KVsa x00 (fun p => p) (fun p _ => (p, Ok tt)) None None) entries)).
  exists (packet_new_with_identifier (fun n => n2b (N.of_nat n)) AccessRequest sample_secret x01).
  exists (repeat (n2b 97) 254). eexists.
  split; [left; reflexivity|]. split; [apply ap_new_id|]. split; [constructor|]. split; [reflexivity|].
  intros []; vm_compute; reflexivity.
Qed.
Definition user_name_entry : entry := nth 0 entries (Entry "" "" KString x00 (fun p => p) (fun p _ => (p, Ok tt)) None None).
Example C65_example :
  In user_name_entry entries /\ e_name user_name_entry = "user_name"%string
  /\ attributes_fit sample_packet
  /\ exists p', e_add user_name_entry sample_packet (repeat (n2b 97) 253) = (p', Ok tt).
Proof.
  split; [left; reflexivity|]. split; [reflexivity|]. split; [|eexists; reflexivity].
  repeat constructor; vm_compute; discriminate.
Qed.

(** ** C66 *)

(** [for v in vs { add_x(&mut packet, v) }] *)
Definition add_each (e : entry) (q : packet) (vs : list (kin (e_kind e))) : packet :=
  fold_left (fun q v => fst (e_add e q v)) vs q.

Lemma reads_same_refl e p : reads_same e p p.
Proof. split; auto. Qed.
Lemma reads_same_trans e p q r : reads_same e p q -> reads_same e q r -> reads_same e p r.
Proof. intros [A B] [A' B']. split; intros l E; [rewrite (A' l E); auto|rewrite (B' l E); auto]. Qed.
Lemma carries_not_vsa k p v w : carries k p v w -> k <> KVsa.
Proof. destruct k; try discriminate. intros []. Qed.
Lemma carries_header k p q v w : same_header p q -> carries k p v w -> carries k q v w.
Proof.
  intros (_ & _ & A & S). destruct k; cbn [carries]; auto.
  - rewrite A, S. auto.
  - destruct v as [[[r0 r1] t] pw]. rewrite A, S. auto.
Qed.
Lemma same_header_trans p q r : same_header p q -> same_header q r -> same_header p r.
Proof. intros (A & B & C & D) (A' & B' & C' & D'). repeat split; congruence. Qed.
(** adding any number of values appends exactly what they carry, in order, for every attribute *)
Theorem C66_add_each : forall e, In e entries ->
  forall lookup_all, e_lookup_all e = Some lookup_all ->
  forall vws q ws, Forall (fun vw => carries (e_kind e) q (fst vw) (snd vw)) vws -> lookup_all q = Ok ws ->
  let q' := add_each e q (map fst vws) in
  same_header q q' /\ lookup_all q' = Ok (ws ++ map snd vws)
  /\ (forall e', In e' entries -> (e_module e', e_name e') <> (e_module e, e_name e) -> reads_same e' q q').
Proof.
  intros e I la Ela vws. induction vws as [|[v w] vws IH]; intros q ws F L; cbn [map fold_left add_each fst snd].
  - rewrite app_nil_r. split; [repeat split|]. split; [exact L|]. intros e' _ _. apply reads_same_refl.
  - pose proof (Forall_inv F) as C. cbn [fst snd] in C.
    destruct (C28_accessors_exist e I) as [X _].
    assert (K : e_kind e <> KVsa).
    { exact (carries_not_vsa _ _ _ _ C). }
    destruct (e_lookup e) as [lk|] eqn:Elk; [|contradiction (X K eq_refl)].
    destruct (C28_add_lookup e I lk la Elk Ela q v w C) as (q1 & E & SH & _ & A & _). rewrite E. cbn [fst].
    destruct (IH q1 (ws ++ [w])) as (SH' & L' & R').
    { eapply Forall_impl; [|exact (Forall_inv_tail F)]. intros vw. apply carries_header. exact SH. }
    { apply A. exact L. }
    split; [exact (same_header_trans _ _ _ SH SH')|]. split; [refine (eq_trans L' _); rewrite <- app_assoc; reflexivity|].
    intros e' I' N. apply (reads_same_trans e' q q1); [|exact (R' e' I' N)].
    replace q1 with (fst (e_add e q v)) by (rewrite E; reflexivity).
    apply (C28_no_interference e e' I I' ltac:(congruence)).
Qed.

(** RFC 2865 section 5.33: a reply must carry the Proxy-State attributes of the request unmodified
    and in the same order. Copying them with the accessors does that, up to the peer. *)
Definition copy_proxy_state (request reply : packet) : packet :=
  fold_left rfc2865_add_proxy_state (rfc2865_lookup_all_proxy_state request) reply.
Definition proxy_state_entry : entry :=
  Entry "rfc2865" "proxy_state" KOctets rfc2865_PROXY_STATE_TYPE rfc2865_delete_proxy_state
    (fun p v => (rfc2865_add_proxy_state p v, Ok tt))
    (Some (fun p => option_map Ok (rfc2865_lookup_proxy_state p)))
    (Some (fun p => Ok (rfc2865_lookup_all_proxy_state p))).
Lemma proxy_state_in : In proxy_state_entry entries.
Proof.
  assert (X : exists n, nth_error entries n = Some proxy_state_entry) by (exists 30%nat; reflexivity).
  destruct X as (n & X). exact (nth_error_In _ _ X).
Qed.
Lemma proxy_state_values p :
  rfc2865_lookup_all_proxy_state p = map avp_value (packet_lookup_all p rfc2865_PROXY_STATE_TYPE).
Proof.
  unfold rfc2865_lookup_all_proxy_state, collect_bytes.
  assert (G : forall l acc, collect_bytes_loop l acc = acc ++ map avp_value l).
  { induction l as [|a l IH]; intros acc; cbn [collect_bytes_loop map]; [symmetry; apply app_nil_r|].
    rewrite IH, <- app_assoc. reflexivity. }
  apply G.
Qed.
Theorem C66_proxy_state : forall pr request c reply bs,
  api_packet request -> reply = copy_proxy_state request (packet_make_response_packet request c) ->
  packet_encode pr reply = Ok bs -> len bs <= 4096 ->
  rfc2865_lookup_all_proxy_state reply = rfc2865_lookup_all_proxy_state request
  /\ exists received, packet_decode bs (p_secret request) = Ok received
     /\ rfc2865_lookup_all_proxy_state received = rfc2865_lookup_all_proxy_state request
     /\ map avp_value (p_attributes received) = rfc2865_lookup_all_proxy_state request.
Proof.
  intros pr request c reply bs A -> E L. set (reply := copy_proxy_state request (packet_make_response_packet request c)) in *.
  assert (AT : p_attributes reply = map (AVP rfc2865_PROXY_STATE_TYPE) (rfc2865_lookup_all_proxy_state request)
               /\ p_secret reply = p_secret request /\ api_packet reply).
  { unfold reply, copy_proxy_state. generalize (rfc2865_lookup_all_proxy_state request) as vs.
    assert (G : forall vs q, api_packet q -> let r := fold_left rfc2865_add_proxy_state vs q in
      p_attributes r = p_attributes q ++ map (AVP rfc2865_PROXY_STATE_TYPE) vs /\ p_secret r = p_secret q /\ api_packet r).
    { induction vs as [|v vs IH]; intros q Q; cbn [fold_left map]; [rewrite app_nil_r; auto|].
      destruct (IH (rfc2865_add_proxy_state q v)) as (X & Y & Z).
      { eapply ap_step; [exact Q|apply as_add]. }
      split; [|split; [exact Y|exact Z]]. rewrite X.
      change (p_attributes (rfc2865_add_proxy_state q v)) with (p_attributes q ++ [AVP rfc2865_PROXY_STATE_TYPE v]).
      rewrite <- app_assoc. reflexivity. }
    intros vs. exact (G vs _ (ap_response request c A)). }
  destruct AT as (AT & S & AR).
  assert (LA : forall q, p_attributes q = p_attributes reply ->
    rfc2865_lookup_all_proxy_state q = rfc2865_lookup_all_proxy_state request).
  { intros q Q. rewrite proxy_state_values. unfold packet_lookup_all, attributes_lookup_all. rewrite Q, AT.
    generalize (rfc2865_lookup_all_proxy_state request) as vs.
    induction vs as [|v vs IH]; [reflexivity|]. cbn -[rfc2865_PROXY_STATE_TYPE Byte.eqb].
    rewrite (proj2 (byte_eqb_iff _ _) eq_refl). cbn [map avp_value]. f_equal. exact IH. }
  split; [apply LA; reflexivity|].
  destruct (C03_encode_decode pr reply bs AR E L) as (auth & D & _). rewrite S in D. eexists. split; [exact D|].
  split; [apply LA; reflexivity|]. cbn [p_attributes]. rewrite AT, map_map. cbn [avp_value]. apply map_id.
Qed.
Example C66_example :
  let request := packet_extend sample_packet [AVP (n2b 33) (nb [1; 2]); AVP (n2b 1) []; AVP (n2b 33) (nb [0])] in
  rfc2865_lookup_all_proxy_state request = [nb [1; 2]; nb [0]]
  /\ exists bs, packet_encode Release (copy_proxy_state request (packet_make_response_packet request AccessAccept)) = Ok bs
       /\ len bs = 27.
Proof. split; [reflexivity|]. eexists. split; vm_compute; reflexivity. Qed.

(** * Assumptions *)
Print Assumptions C64_ipv6_made.
Print Assumptions C64_ipv4_made_exact.
Print Assumptions C64_ipv4_made_refuted.
Print Assumptions C64_length_read_refuted.
Print Assumptions C64_octets_read_partial.
Print Assumptions C65_fits_exact.
Print Assumptions C65_accepted_fits_partial.
Print Assumptions C65_sent.
Print Assumptions C65_accepted_is_sent_refuted.
Print Assumptions C66_add_each.
Print Assumptions C66_proxy_state.
