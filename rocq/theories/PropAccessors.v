(** * Final theorems about the attribute container and the dictionary accessors: C27-C30 *)
From Coq Require Import String List NArith ZArith Bool Strings.Byte Lia ZifyBool ZifyNat ZifyN.
From Verif Require Import Prelude PreludeFacts Md5 Tag Code Avp Attributes Packet Vsa Accessors Rfc
  Spec AvpSpec AvpFacts PropPacket PropAvp AccessorSpec AccessorFacts Samples.
Import ListNotations.
Local Open Scope N_scope.
Local Open Scope list_scope.

(** ** C27: [lookup_all] after any history is what was put since the last [delete] of the type *)
Theorem C27_history : forall p t ms, ~ In (MDelete t) ms -> exists since,
  of_type t (put ms) since
  /\ packet_lookup_all (mutate_all p ms) t = packet_lookup_all p t ++ since.
Proof.
  intros p t ms N. eexists. split; [apply of_type_filter|]. apply mutate_no_delete. exact N.
Qed.
Theorem C27_history_after_delete : forall p t before after, ~ In (MDelete t) after ->
  of_type t (put after) (packet_lookup_all (mutate_all p (before ++ MDelete t :: after)) t).
Proof.
  intros p t before after N. rewrite mutate_all_app.
  change (MDelete t :: after) with ([MDelete t] ++ after). rewrite mutate_all_app.
  rewrite (mutate_no_delete t after N). cbn [mutate_all fold_left mutate].
  rewrite lookup_all_delete_same. apply of_type_filter.
Qed.
Theorem C27_lookup_first : forall p t, packet_lookup p t = hd_error (packet_lookup_all p t).
Proof. exact lookup_hd. Qed.
Theorem C27_initial : forall p t, of_type t (p_attributes p) (packet_lookup_all p t).
Proof. intros p t. apply of_type_filter. Qed.
Theorem C27_header_untouched : forall ms p,
  (forall id, ~ In (MSetIdentifier id) ms) -> same_header p (mutate_all p ms).
Proof.
  induction ms as [|m ms IH]; intros p N; [repeat split|].
  cbn [mutate_all fold_left]. fold (mutate_all (mutate p m) ms).
  assert (H : same_header (mutate p m) (mutate_all (mutate p m) ms)).
  { apply IH. intros id X. apply (N id). right. exact X. }
  destruct m; try exact H. exfalso. apply (N id). left. reflexivity.
Qed.
Theorem C27_set_identifier : forall p id,
  packet_set_identifier p id
  = Packet (p_code p) id (p_authenticator p) (p_secret p) (p_attributes p).
Proof. reflexivity. Qed.
(** the types are independent also in the order in which they are encoded *)
Theorem C27_order : forall p t a l,
  p_attributes (packet_add p a) = p_attributes p ++ [a]
  /\ p_attributes (packet_extend p l) = p_attributes p ++ l
  /\ exists kept, p_attributes (packet_delete p t) = kept
     /\ (forall x, In x kept <-> In x (p_attributes p) /\ avp_typ x <> t)
     /\ (forall t', t' <> t -> of_type t' (p_attributes p) (packet_lookup_all (packet_delete p t) t')).
Proof.
  intros p t a l. split; [reflexivity|]. split; [reflexivity|]. eexists. split; [reflexivity|]. split.
  - intros x. cbn. unfold attributes_del. rewrite filter_In. rewrite negb_true_iff, byte_eqb_neq. tauto.
  - intros t' N. rewrite lookup_all_delete_other by congruence. apply of_type_filter.
Qed.
Example C27_example :
  let ms := [MAdd (AVP (n2b 1) (nb [97])); MAdd (AVP (n2b 5) []); MDelete (n2b 1);
             MExtend [AVP (n2b 1) (nb [98]); AVP (n2b 4) []; AVP (n2b 1) (nb [99])]] in
  packet_lookup_all (mutate_all sample_packet ms) (n2b 1) = [AVP (n2b 1) (nb [98]); AVP (n2b 1) (nb [99])].
Proof. vm_compute. reflexivity. Qed.

(** ** C28: every attribute of every dictionary module *)
Lemma entry_templated e : In e entries -> templated e.
Proof. intros H. exact (proj1 (Forall_forall _ _) entries_templated e H). Qed.

Lemma map_inj_in {A B} (f : A -> B) l : NoDup (map f l) -> forall x y, In x l -> In y l -> f x = f y -> x = y.
Proof.
  induction l as [|a l IH]; intros N x y Hx Hy E; [contradiction|].
  cbn [map] in N. inversion N as [|? ? N1 N2]; subst.
  destruct Hx as [->|Hx], Hy as [->|Hy]; auto.
  - exfalso. apply N1. rewrite E. apply in_map. exact Hy.
  - exfalso. apply N1. rewrite <- E. apply in_map. exact Hx.
Qed.
Lemma entry_types_nodup : NoDup (map e_type entries).
Proof.
  assert (H : nodup Byte.byte_eq_dec (map e_type entries) = map e_type entries) by (vm_compute; reflexivity).
  rewrite <- H. apply NoDup_nodup.
Qed.

Theorem C28_types_distinct : forall e e', In e entries -> In e' entries ->
  (e_module e, e_name e) <> (e_module e', e_name e') -> e_type e <> e_type e'.
Proof.
  intros e e' H H' N E. apply N. rewrite (map_inj_in e_type entries entry_types_nodup e e' H H' E). reflexivity.
Qed.

Lemma templated_add_lookup : forall e, templated e ->
  forall lookup lookup_all, e_lookup e = Some lookup -> e_lookup_all e = Some lookup_all ->
  forall p v w, carries (e_kind e) p v w ->
  exists p', e_add e p v = (p', Ok tt) /\ same_header p p'
    /\ lookup p' = Some (match lookup p with Some first => first | None => Ok w end)
    /\ (forall ws, lookup_all p = Ok ws -> lookup_all p' = Ok (ws ++ [w]))
    /\ (forall err, lookup_all p = Err err -> lookup_all p' = Err err).
Proof.
  intros e H lk la Elk Ela p v w C.
  destruct H as (_ & TA & TL & TLA). rewrite Elk in TL. rewrite Ela in TLA.
  destruct (carried _ (e_type e) _ _ _ C) as (a & EA & T & D).
  exists (packet_add p a). rewrite TA. split; [exact EA|].
  assert (SH : same_header p (packet_add p a)) by (repeat split). split; [exact SH|].
  assert (LA : packet_lookup_all (packet_add p a) (e_type e) = packet_lookup_all p (e_type e) ++ [a]).
  { rewrite lookup_all_add. rewrite T, (proj2 (byte_eqb_iff _ _) eq_refl). reflexivity. }
  assert (KV : forall x, kind_value (e_kind e) (packet_add p a) x = kind_value (e_kind e) p x).
  { intros x. symmetry. apply kind_value_header. exact SH. }
  assert (NL : exists g, template_lookup (e_kind e) (e_type e) = Some g
               /\ forall q, g q = option_map (kind_value (e_kind e) q) (packet_lookup q (e_type e))).
  { clear - C. destruct (e_kind e); try contradiction C; (eexists; split; [reflexivity|intros q; reflexivity]). }
  assert (NLA : exists g, template_lookup_all (e_kind e) (e_type e) = Some g
               /\ forall q, g q = collect (kind_value (e_kind e) q) (packet_lookup_all q (e_type e))).
  { clear - C. destruct (e_kind e); try contradiction C; (eexists; split; [reflexivity|intros q; reflexivity]). }
  destruct NL as (g & Eg & Hg), NLA as (ga & Ega & Hga). rewrite Eg in TL. rewrite Ega in TLA.
  cbn [same_option] in TL, TLA.
  split.
  { rewrite !TL, !Hg, !lookup_hd, LA. destruct (packet_lookup_all p (e_type e)) as [|a0 l]; cbn [app hd_error option_map].
    - rewrite KV, D. reflexivity.
    - rewrite KV. reflexivity. }
  assert (LC : la (packet_add p a) = bind (la p) (fun ws => Ok (ws ++ [w]))).
  { rewrite !TLA, !Hga, LA, (collect_ext _ _ _ KV), collect_snoc, D. reflexivity. }
  rewrite LC. split; [intros ws ->|intros err ->]; reflexivity.
Qed.
Theorem C28_add_lookup : forall e, In e entries ->
  forall lookup lookup_all, e_lookup e = Some lookup -> e_lookup_all e = Some lookup_all ->
  forall p v w, carries (e_kind e) p v w ->
  exists p', e_add e p v = (p', Ok tt) /\ same_header p p'
    /\ lookup p' = Some (match lookup p with Some first => first | None => Ok w end)
    /\ (forall ws, lookup_all p = Ok ws -> lookup_all p' = Ok (ws ++ [w]))
    /\ (forall err, lookup_all p = Err err -> lookup_all p' = Err err).
Proof. intros e H. exact (templated_add_lookup e (entry_templated e H)). Qed.

(** every attribute has the accessors, except that the three concatenated ones have no
    [lookup_all_x] (C29) and Vendor-Specific has neither (C32) *)
Lemma templated_accessors_exist : forall e, templated e ->
  (e_kind e <> KVsa -> e_lookup e <> None)
  /\ (e_kind e <> KVsa -> e_kind e <> KConcatOctets -> e_lookup_all e <> None).
Proof.
  intros e H. pose proof H as (_ & _ & TL & TLA). split.
  - intros N X. rewrite X in TL. clear TLA X H. destruct e as [m n k t d ad lk' la']; cbn [e_kind e_type e_lookup e_lookup_all e_delete e_add] in *.
    destruct k; try contradiction TL. contradiction.
  - intros N N' X. rewrite X in TLA. clear TL X H. destruct e as [m n k t d ad lk' la']; cbn [e_kind e_type e_lookup e_lookup_all e_delete e_add] in *.
    destruct k; try contradiction TLA; contradiction.
Qed.
Theorem C28_accessors_exist : forall e, In e entries ->
  (e_kind e <> KVsa -> e_lookup e <> None)
  /\ (e_kind e <> KVsa -> e_kind e <> KConcatOctets -> e_lookup_all e <> None).
Proof. intros e H. exact (templated_accessors_exist e (entry_templated e H)). Qed.
Theorem C28_count : length entries = 159%nat.
Proof. reflexivity. Qed.

(** [lookup_x] is the oldest of the values [lookup_all_x] returns *)
Lemma templated_lookup_oldest : forall e, templated e ->
  forall lookup lookup_all, e_lookup e = Some lookup -> e_lookup_all e = Some lookup_all ->
  forall p,
  (lookup p = None <-> lookup_all p = Ok [])
  /\ (forall w ws, lookup_all p = Ok (w :: ws) -> lookup p = Some (Ok w)).
Proof.
  intros e H lk la Elk Ela p.
  destruct H as (_ & _ & TL & TLA). rewrite Elk in TL. rewrite Ela in TLA.
  assert (G : exists f, lk p = option_map f (packet_lookup p (e_type e))
                     /\ la p = collect f (packet_lookup_all p (e_type e))).
  { clear - TL TLA. destruct e as [m n k t d ad lk' la']; cbn [e_kind e_type e_lookup e_lookup_all e_delete e_add] in *.
    destruct k; try contradiction TLA;
      (eexists; split; [rewrite TL; reflexivity|rewrite TLA; reflexivity]). }
  destruct G as (f & -> & ->). rewrite lookup_hd.
  destruct (packet_lookup_all p (e_type e)) as [|a l]; cbn [hd_error option_map].
  - split; [split; reflexivity|discriminate].
  - rewrite collect_cons. destruct (f a) as [w| | |]; cbn [bind];
      (split; [split; [discriminate|]|]); try discriminate.
    + destruct (collect f l); discriminate.
    + intros w' ws. destruct (collect f l); try discriminate. cbn [bind]. intros E. injection E as <- _. reflexivity.
Qed.
Theorem C28_lookup_oldest : forall e, In e entries ->
  forall lookup lookup_all, e_lookup e = Some lookup -> e_lookup_all e = Some lookup_all ->
  forall p,
  (lookup p = None <-> lookup_all p = Ok [])
  /\ (forall w ws, lookup_all p = Ok (w :: ws) -> lookup p = Some (Ok w)).
Proof. intros e H. exact (templated_lookup_oldest e (entry_templated e H)). Qed.

(** [delete_x] removes all values of the attribute *)
Lemma templated_delete : forall e, templated e -> forall p,
  same_header p (e_delete e p)
  /\ (forall lookup, e_lookup e = Some lookup -> lookup (e_delete e p) = None)
  /\ (forall lookup_all, e_lookup_all e = Some lookup_all -> lookup_all (e_delete e p) = Ok [])
  /\ (forall a, In a (p_attributes (e_delete e p)) <-> In a (p_attributes p) /\ avp_typ a <> e_type e).
Proof.
  intros e H p. destruct H as (TD & _ & TL & TLA). rewrite TD.
  unfold template_delete. split; [repeat split|]. split; [|split].
  - intros lk E. rewrite E in TL.
    assert (X : packet_lookup (packet_delete p (e_type e)) (e_type e) = None).
    { rewrite lookup_hd, lookup_all_delete_same. reflexivity. }
    clear - TL X. destruct e as [m n k t d ad lk' la']; cbn [e_kind e_type e_lookup e_lookup_all e_delete e_add] in *.
    destruct k; try contradiction TL; rewrite TL;
      first [rewrite X; reflexivity | cbv zeta; rewrite lookup_all_delete_same; reflexivity].
  - intros la E. rewrite E in TLA. clear - TLA. destruct e as [m n k t d ad lk' la']; cbn [e_kind e_type e_lookup e_lookup_all e_delete e_add] in *.
    destruct k; try contradiction TLA; rewrite TLA, lookup_all_delete_same; reflexivity.
  - intros a. cbn. unfold attributes_del. rewrite filter_In, negb_true_iff, byte_eqb_neq. tauto.
Qed.
Theorem C28_delete : forall e, In e entries -> forall p,
  same_header p (e_delete e p)
  /\ (forall lookup, e_lookup e = Some lookup -> lookup (e_delete e p) = None)
  /\ (forall lookup_all, e_lookup_all e = Some lookup_all -> lookup_all (e_delete e p) = Ok [])
  /\ (forall a, In a (p_attributes (e_delete e p)) <-> In a (p_attributes p) /\ avp_typ a <> e_type e).
Proof. intros e H. exact (templated_delete e (entry_templated e H)). Qed.

(** accessors of different attributes do not interfere *)
Definition reads_same (e : entry) (p q : packet) : Prop :=
  (forall lookup, e_lookup e = Some lookup -> lookup q = lookup p)
  /\ (forall lookup_all, e_lookup_all e = Some lookup_all -> lookup_all q = lookup_all p).
Lemma reads_same_intro e p q : templated e -> same_header p q ->
  packet_lookup_all q (e_type e) = packet_lookup_all p (e_type e) -> reads_same e p q.
Proof.
  intros H SH L. destruct H as (_ & _ & TL & TLA). split.
  - intros lk E. rewrite E in TL. clear E.
    assert (X : packet_lookup q (e_type e) = packet_lookup p (e_type e)) by (rewrite !lookup_hd, L; reflexivity).
    assert (K : forall a, kind_value (e_kind e) q a = kind_value (e_kind e) p a)
      by (intros; symmetry; apply kind_value_header; exact SH).
    clear - TL X K L. destruct e as [m n k t d ad lk' la']; cbn [e_kind e_type e_lookup e_lookup_all e_delete e_add] in *.
    destruct k; try contradiction TL; rewrite !TL;
      first [rewrite X; apply option_map_ext; exact K | cbv zeta; rewrite L; reflexivity].
  - intros la E. rewrite E in TLA. clear E.
    assert (K : forall a, kind_value (e_kind e) q a = kind_value (e_kind e) p a)
      by (intros; symmetry; apply kind_value_header; exact SH).
    clear - TLA K L. destruct e as [m n k t d ad lk' la']; cbn [e_kind e_type e_lookup e_lookup_all e_delete e_add] in *.
    destruct k; try contradiction TLA; rewrite !TLA, L; apply collect_ext; exact K.
Qed.
Lemma kind_concat_dec k : k = KConcatOctets \/ k <> KConcatOctets.
Proof. destruct k; (left; reflexivity) || (right; discriminate). Qed.
Lemma filter_chunk_avps t t' cs : t <> t' ->
  filter (fun a => Byte.eqb (avp_typ a) t') (map (avp_from_bytes t) cs) = [].
Proof.
  intros N. induction cs as [|c cs IH]; [reflexivity|]. cbn.
  rewrite (proj2 (byte_eqb_neq _ _)) by exact N. exact IH.
Qed.
Lemma templated_no_interference : forall e e', templated e -> templated e' ->
  e_type e <> e_type e' ->
  forall p v, reads_same e' p (fst (e_add e p v)) /\ reads_same e' p (e_delete e p).
Proof.
  intros e e' H H' T p v.
  destruct H as (TD & TA & _ & _). rewrite TD, TA. split.
  - destruct (kind_concat_dec (e_kind e)) as [D|D].
    + clear TA. revert v. rewrite D. intros v. apply reads_same_intro; [exact H'|repeat split|].
      cbn [fst template_add]. rewrite lookup_all_extend, filter_chunk_avps by exact T. apply app_nil_r.
    + destruct (template_add_cases (e_kind e) (e_type e) p v D) as [(_ & a & E & TT)|(_ & er & E)];
        rewrite E; cbn [fst].
      * apply reads_same_intro; [exact H'|repeat split|]. rewrite lookup_all_add, TT.
        rewrite (proj2 (byte_eqb_neq _ _)) by exact T. apply app_nil_r.
      * split; reflexivity.
  - apply reads_same_intro; [exact H'|repeat split|]. apply lookup_all_delete_other. exact T.
Qed.
Theorem C28_no_interference : forall e e', In e entries -> In e' entries ->
  (e_module e, e_name e) <> (e_module e', e_name e') ->
  forall p v, reads_same e' p (fst (e_add e p v)) /\ reads_same e' p (e_delete e p).
Proof.
  intros e e' H H' N. apply templated_no_interference; try (apply entry_templated; assumption).
  apply C28_types_distinct; assumption.
Qed.

(** what is added can be read from the datagram: for attributes that are not hidden with the
    authenticator, after any encode and decode; for the others when the packet keeps its
    authenticator (Access-Request, Status-Server) *)
Theorem C28_over_the_wire : forall pr p bs, api_packet p ->
  packet_encode pr p = Ok bs -> len bs <= 4096 ->
  exists q, packet_decode bs (p_secret p) = Ok q
    /\ forall e, In e entries -> hidden_kind (e_kind e) = false \/ plain_request (p_code p) ->
       reads_same e p q.
Proof.
  intros pr p bs A E L. destruct (C03_encode_decode pr p bs A E L) as (auth & D & PA).
  eexists. split; [exact D|]. intros e H [HK|HK].
  - destruct (entry_templated e H) as (_ & _ & TL & TLA). split.
    + intros lk Elk. rewrite Elk in TL. clear - TL HK. destruct e as [m n k t d ad lk' la']; cbn [e_kind e_type e_lookup e_lookup_all e_delete e_add] in *.
      destruct k; try contradiction TL; try discriminate HK; rewrite !TL; reflexivity.
    + intros la Ela. rewrite Ela in TLA. clear - TLA HK. destruct e as [m n k t d ad lk' la']; cbn [e_kind e_type e_lookup e_lookup_all e_delete e_add] in *.
      destruct k; try contradiction TLA; try discriminate HK; rewrite !TLA; reflexivity.
  - rewrite (PA HK). apply reads_same_intro; [apply entry_templated, H|repeat split|reflexivity].
Qed.

Example C28_example : exists e lookup lookup_all,
  nth_error entries 0 = Some e /\ e_lookup e = Some lookup /\ e_lookup_all e = Some lookup_all.
Proof. do 3 eexists. repeat split; reflexivity. Qed.
Example C28_example_values :
  (let '(p, r) := rfc2868_add_tunnel_password sample_packet x01 x02 (Some (Tag (n2b 3))) (bytes_of_string "pw") in
   r = Ok tt /\ rfc2868_lookup_tunnel_password p = Some (Ok (bytes_of_string "pw", Tag (n2b 3))))
  /\ rfc2865_lookup_user_name sample_packet = Some (Ok (bytes_of_string "nemo"))
  /\ rfc2865_lookup_user_password sample_packet = Some (Ok (bytes_of_string "arctangent"))
  /\ rfc2865_lookup_all_nas_port (rfc2865_add_nas_port sample_packet 7) = Ok [3; 7].
Proof. vm_compute. repeat split; reflexivity. Qed.

(** ** C29: the attributes that are split into fragments *)
Definition concatenated (typ : byte) (add : packet -> bytes -> packet) (lookup : packet -> option bytes)
  : Prop :=
  forall p v,
  (* a packet without the attribute: exactly the value comes back *)
  (packet_lookup_all p typ = [] -> lookup (add p v) = (if is_nil v then None else Some v))
  (* a packet with the attribute: the value is appended *)
  /\ (forall old, lookup p = Some old -> lookup (add p v) = Some (old ++ v))
  (* fragments are put at the end, fit into an attribute and none is empty *)
  /\ (exists fragments, p_attributes (add p v) = p_attributes p ++ fragments
       /\ Forall (fun a => avp_typ a = typ /\ 1 <= len (avp_value a) <= 253) fragments
       /\ concat (map avp_value fragments) = v)
  /\ same_header p (add p v)
  (* and the value survives encoding and decoding *)
  /\ (forall pr bs, api_packet (add p v) -> packet_encode pr (add p v) = Ok bs -> len bs <= 4096 ->
      exists q, packet_decode bs (p_secret p) = Ok q /\ lookup q = lookup (add p v)).

Lemma fold_extend l : forall acc,
  fold_left (fun acc v => acc ++ avp_encode_bytes v) l acc = acc ++ concat (map avp_value l).
Proof.
  induction l as [|a l IH]; intros acc; cbn; [rewrite app_nil_r; reflexivity|].
  rewrite IH, <- app_assoc. reflexivity.
Qed.
Lemma concat_template typ :
  concatenated typ
    (fun p v => packet_extend p (map (avp_from_bytes typ) (chunks 253 v)))
    (fun p => if is_nil (packet_lookup_all p typ) then None
              else Some (fold_left (fun acc v => acc ++ avp_encode_bytes v) (packet_lookup_all p typ) [])).
Proof.
  intros p v. assert (H253 : (0 < 253)%nat) by lia.
  assert (V : concat (map avp_value (map (avp_from_bytes typ) (chunks 253 v))) = v).
  { rewrite map_map. cbn [avp_value avp_from_bytes]. rewrite map_id. apply concat_chunks. exact H253. }
  assert (F : filter (fun a => Byte.eqb (avp_typ a) typ) (map (avp_from_bytes typ) (chunks 253 v))
              = map (avp_from_bytes typ) (chunks 253 v)).
  { generalize (chunks 253 v). intros cs. induction cs as [|c cs IH]; [reflexivity|]. cbn.
    rewrite (proj2 (byte_eqb_iff _ _) eq_refl), IH. reflexivity. }
  split; [|split; [|split; [|split]]].
  - intros E. rewrite lookup_all_extend, F, fold_extend, E. cbn [app]. rewrite V.
    destruct v as [|b v]; [reflexivity|].
    rewrite chunks_unfold by (auto; congruence). reflexivity.
  - intros old. rewrite lookup_all_extend, F, !fold_extend. cbn [app].
    destruct (packet_lookup_all p typ) as [|a l]; [discriminate|].
    intros E. injection E as <-. cbn [is_nil app]. rewrite app_comm_cons, map_app, concat_app, V. reflexivity.
  - eexists. split; [reflexivity|]. split; [|exact V].
    pose proof (chunks_bound 253 v H253) as B. clear V F. induction B as [|c cs Hc _ IH]; [constructor|].
    constructor; [|exact IH]. cbn [avp_typ avp_value avp_from_bytes]. split; [reflexivity|]. unfold len. lia.
  - repeat split.
  - intros pr bs A E L. destruct (C03_encode_decode pr _ bs A E L) as (auth & D & _).
    eexists. split; [exact D|]. reflexivity.
Qed.
Theorem C29_eap_message :
  concatenated rfc2869_EAP_MESSAGE_TYPE rfc2869_add_eap_message rfc2869_lookup_eap_message.
Proof. exact (concat_template _). Qed.
Theorem C29_pkm_ss_cert :
  concatenated rfc5904_PKM_SS_CERT_TYPE rfc5904_add_pkm_ss_cert rfc5904_lookup_pkm_ss_cert.
Proof. exact (concat_template _). Qed.
Theorem C29_pkm_ca_cert :
  concatenated rfc5904_PKM_CA_CERT_TYPE rfc5904_add_pkm_ca_cert rfc5904_lookup_pkm_ca_cert.
Proof. exact (concat_template _). Qed.
(** there are no others *)
Theorem C29_all : forall e, In e entries -> e_kind e = KConcatOctets ->
  In (e_module e, e_name e)
     [("rfc2869", "eap_message"); ("rfc5904", "pkm_ss_cert"); ("rfc5904", "pkm_ca_cert")]%string.
Proof.
  intros e H K.
  assert (X : map (fun e => (e_module e, e_name e))
                (filter (fun e => match e_kind e with KConcatOctets => true | _ => false end) entries)
              = [("rfc2869", "eap_message"); ("rfc5904", "pkm_ss_cert"); ("rfc5904", "pkm_ca_cert")]%string)
    by reflexivity.
  rewrite <- X. apply in_map_iff. exists e. split; [reflexivity|]. apply filter_In. rewrite K. auto.
Qed.
Example C29_example :
  let p := rfc2869_add_eap_message sample_packet (repeat (n2b 65) 600) in
  map (fun a => len (avp_value a)) (packet_lookup_all p (n2b 79)) = [253; 253; 94]
  /\ rfc2869_lookup_eap_message p = Some (repeat (n2b 65) 600)
  /\ packet_lookup_all sample_packet (n2b 79) = [].
Proof. vm_compute. repeat split; reflexivity. Qed.

(** ** C30: [add_x] appends one AVP or changes nothing; it succeeds exactly when it must *)
Lemma templated_add_atomic : forall e, templated e -> e_kind e <> KConcatOctets -> forall p v,
  (acceptable (e_kind e) p v /\ exists a, avp_typ a = e_type e
     /\ e_add e p v = (Packet (p_code p) (p_identifier p) (p_authenticator p) (p_secret p)
                               (p_attributes p ++ [a]), Ok tt))
  \/ (~ acceptable (e_kind e) p v /\ exists err, e_add e p v = (p, Err err)).
Proof.
  intros e H N p v. destruct H as (_ & TA & _ & _). rewrite TA.
  destruct (template_add_cases (e_kind e) (e_type e) p v N) as [(A & a & E & T)|(A & er & E)].
  - left. split; [exact A|]. exists a. split; [exact T|exact E].
  - right. split; [exact A|]. exists er. exact E.
Qed.
Theorem C30_add_atomic : forall e, In e entries -> e_kind e <> KConcatOctets -> forall p v,
  (acceptable (e_kind e) p v /\ exists a, avp_typ a = e_type e
     /\ e_add e p v = (Packet (p_code p) (p_identifier p) (p_authenticator p) (p_secret p)
                               (p_attributes p ++ [a]), Ok tt))
  \/ (~ acceptable (e_kind e) p v /\ exists err, e_add e p v = (p, Err err)).
Proof. intros e H. exact (templated_add_atomic e (entry_templated e H)). Qed.
(** the fixed-length attributes and their lengths *)
Theorem C30_fixed_lengths :
  map (fun e => (e_module e, e_name e, match e_kind e with KFixedOctets n => n | _ => 0 end))
    (filter (fun e => match e_kind e with KFixedOctets _ => true | _ => false end) entries)
  = [("rfc2869", "arap_password", 16); ("rfc2869", "arap_features", 14);
     ("rfc2869", "arap_challenge_response", 8); ("rfc3162", "framed_interface_id", 8);
     ("rfc6572", "pmip6_home_interface_id", 8);
     ("rfc6572", "pmip6_visited_interface_id", 8); ("rfc7155", "originating_line_info", 2)]%string.
Proof. reflexivity. Qed.
(** the error of a fixed-length attribute names the expected and the actual length *)
Theorem C30_fixed_error : forall p v,
  (len v <> 16 -> rfc2869_add_arap_password p v
      = (p, Err (InvalidAttributeLengthError "16 bytes" (len v))))
  /\ (len v <> 14 -> rfc2869_add_arap_features p v
      = (p, Err (InvalidAttributeLengthError "14 bytes" (len v))))
  /\ (len v <> 8 -> rfc2869_add_arap_challenge_response p v
      = (p, Err (InvalidAttributeLengthError "8 bytes" (len v))))
  /\ (len v <> 8 -> rfc3162_add_framed_interface_id p v
      = (p, Err (InvalidAttributeLengthError "8 bytes" (len v))))
  /\ (len v <> 8 -> rfc6572_add_pmip6_home_interface_id p v
      = (p, Err (InvalidAttributeLengthError "8 bytes" (len v))))
  /\ (len v <> 8 -> rfc6572_add_pmip6_visited_interface_id p v
      = (p, Err (InvalidAttributeLengthError "8 bytes" (len v))))
  /\ (len v <> 2 -> rfc7155_add_originating_line_info p v
      = (p, Err (InvalidAttributeLengthError "2 bytes" (len v)))).
Proof.
  intros p v. unfold rfc2869_add_arap_password, rfc2869_add_arap_features, rfc2869_add_arap_challenge_response, rfc3162_add_framed_interface_id, rfc6572_add_pmip6_home_interface_id, rfc6572_add_pmip6_visited_interface_id, rfc7155_add_originating_line_info.
  repeat split; intros H; apply N.eqb_neq in H; rewrite H; reflexivity.
Qed.
Example C30_example :
  rfc2869_add_arap_password sample_packet (repeat x01 15)
  = (sample_packet, Err (InvalidAttributeLengthError "16 bytes" 15))
  /\ acceptable (KFixedOctets 16) sample_packet (repeat x01 16).
Proof. vm_compute. repeat split; reflexivity. Qed.

(** * Assumptions *)
Print Assumptions C27_history.
Print Assumptions C27_history_after_delete.
Print Assumptions C27_lookup_first.
Print Assumptions C27_initial.
Print Assumptions C27_header_untouched.
Print Assumptions C27_set_identifier.
Print Assumptions C27_order.
Print Assumptions C28_types_distinct.
Print Assumptions C28_add_lookup.
Print Assumptions C28_accessors_exist.
Print Assumptions C28_count.
Print Assumptions C28_lookup_oldest.
Print Assumptions C28_delete.
Print Assumptions C28_no_interference.
Print Assumptions C28_over_the_wire.
Print Assumptions C29_eap_message.
Print Assumptions C29_pkm_ss_cert.
Print Assumptions C29_pkm_ca_cert.
Print Assumptions C29_all.
Print Assumptions C30_add_atomic.
Print Assumptions C30_fixed_lengths.
Print Assumptions C30_fixed_error.
