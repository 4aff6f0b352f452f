(** * C62: the accessors generated from any dictionary (not only the 24 that are committed) *)
From Coq Require Import String List NArith ZArith Bool Arith Strings.Byte Lia ZifyBool ZifyNat ZifyN.
From Verif Require Import Prelude PreludeFacts Tag Avp Attributes Packet Vsa Accessors AvpSpec AccessorSpec AccessorFacts
  PropAccessors CodeGen CodeGenSpec CodeGenFacts PropCodeGen Samples.
Import ListNotations.
Local Open Scope N_scope.
Local Open Scope list_scope.

(** The functions that main.rs:266-906 writes for one attribute: the template of its kind, applied
    to its number. For Vendor-Specific ([KVsa]) only [delete_x] is written. *)
Definition emitted (module : string) (g : gen_attribute) : entry :=
  let t := n2b (ga_typ g) in
  Entry module "" (ga_kind g) t (template_delete t) (template_add (ga_kind g) t)
    (template_lookup (ga_kind g) t) (template_lookup_all (ga_kind g) t).

(** [g] is generated from one of the dictionaries. *)
Definition comes_out (od : N -> bool) (dicts : list (string * text)) (module : string) (g : gen_attribute) : Prop :=
  exists ms m, generate od dicts = Ok ms /\ In m ms /\ gm_name m = module /\ In g (gm_attributes m).

Lemma emitted_templated module g : templated (emitted module g).
Proof.
  split; [reflexivity|]. split; [reflexivity|]. split.
  - cbn [e_lookup e_kind e_type emitted]. destruct (template_lookup _ _); cbn; auto.
  - cbn [e_lookup_all e_kind e_type emitted]. destruct (template_lookup_all _ _); cbn; auto.
Qed.

Lemma parse_lines_types od lines : forall st st', parse_lines od st lines = Ok st' ->
  Forall (fun a => ra_typ a < 256) (fst st) -> Forall (fun a => ra_typ a < 256) (fst st').
Proof.
  induction lines as [|l lines IH]; intros st st' E F; cbn [parse_lines] in E.
  - injection E as <-. exact F.
  - destruct (parse_line od st l) as [st1| | |] eqn:P; cbn [bind] in E; try discriminate.
    apply (IH _ _ E). clear E IH. unfold parse_line in P. destruct st as [attrs values].
    destruct (line_is_filtered l); [injection P as <-; exact F|].
    destruct (split_items l) as [|k [|i1 [|i2 [|i3 r]]]]; try discriminate.
    destruct (text_eqb k _).
    + destruct (read_type od _ i3) as [tf| | |]; cbn [bind] in P; try discriminate.
      destruct (parse_uint 255 i2) as [n|] eqn:U; try discriminate. injection P as <-.
      cbn [fst] in *. apply Forall_app. split; [exact F|]. constructor; [|constructor]. cbn [ra_typ].
      apply parse_uint_some in U as [_ U]. lia.
    + destruct (text_eqb k _); [|discriminate].
      destruct (parse_uint 65535 _) as [n|]; [|discriminate]. injection P as <-. exact F.
Qed.
Lemma generate_attributes_types attrs values : forall gs, generate_attributes attrs values = Ok gs ->
  Forall (fun a => ra_typ a < 256) attrs -> Forall (fun g => ga_typ g < 256) gs.
Proof.
  induction attrs as [|a attrs IH]; intros gs E F; cbn [generate_attributes] in E.
  - injection E as <-. constructor.
  - destruct (attribute_kind a _) as [k| | |]; cbn [bind] in E; try discriminate.
    destruct (generate_attributes attrs values) as [gs'| | |] eqn:G; cbn [bind] in E; try discriminate.
    injection E as <-. constructor; [exact (Forall_inv F)|]. exact (IH _ eq_refl (Forall_inv_tail F)).
Qed.
(** The number in the dictionary is the type octet of the accessors. *)
Theorem C62_type_octet : forall od dicts module g, comes_out od dicts module g ->
  b2n (e_type (emitted module g)) = ga_typ g.
Proof.
  intros od dicts module g (ms & m & G & I & _ & J). cbn [e_type emitted]. apply b2n_n2b_small.
  revert G. unfold generate. generalize (@nil (text * string)). revert ms I.
  induction dicts as [|[rfc t] dicts IH]; intros ms I names G; cbn [generate_all] in G.
  - injection G as <-. destruct I.
  - destruct (parse_dict_file od t) as [[attrs values]| | |] eqn:P; try discriminate.
    destruct (generate_attributes attrs values) as [gs| | |] eqn:A; cbn [bind] in G; try discriminate.
    match type of G with context [generate_all od ?n dicts] => destruct (generate_all od n dicts) as [ms'| | |] eqn:R end;
      cbn [bind] in G; try discriminate.
    injection G as <-. destruct I as [<-|I]; [|exact (IH _ I _ R)].
    cbn [gm_attributes] in J.
    assert (F : Forall (fun a => ra_typ a < 256) attrs).
    { change attrs with (fst (attrs, values)). apply (parse_lines_types od (text_lines t) ([], [])); [exact P|constructor]. }
    exact (proj1 (Forall_forall _ _) (generate_attributes_types _ _ _ A F) g J).
Qed.
(** [add_x] and then [lookup_x] / [lookup_all_x] *)
Theorem C62_add_lookup : forall od dicts module g, comes_out od dicts module g ->
  let e := emitted module g in
  forall lookup lookup_all, e_lookup e = Some lookup -> e_lookup_all e = Some lookup_all ->
  forall p v w, carries (ga_kind g) p v w ->
  exists p', e_add e p v = (p', Ok tt) /\ same_header p p'
    /\ lookup p' = Some (match lookup p with Some first => first | None => Ok w end)
    /\ (forall ws, lookup_all p = Ok ws -> lookup_all p' = Ok (ws ++ [w]))
    /\ (forall err, lookup_all p = Err err -> lookup_all p' = Err err).
Proof. intros od dicts module g _. exact (templated_add_lookup _ (emitted_templated module g)). Qed.
Theorem C62_lookup_oldest : forall od dicts module g, comes_out od dicts module g ->
  let e := emitted module g in
  forall lookup lookup_all, e_lookup e = Some lookup -> e_lookup_all e = Some lookup_all ->
  forall p,
  (lookup p = None <-> lookup_all p = Ok [])
  /\ (forall w ws, lookup_all p = Ok (w :: ws) -> lookup p = Some (Ok w)).
Proof. intros od dicts module g _. exact (templated_lookup_oldest _ (emitted_templated module g)). Qed.
Theorem C62_accessors_exist : forall od dicts module g, comes_out od dicts module g ->
  (ga_kind g <> KVsa -> e_lookup (emitted module g) <> None)
  /\ (ga_kind g <> KVsa -> ga_kind g <> KConcatOctets -> e_lookup_all (emitted module g) <> None).
Proof. intros od dicts module g _. exact (templated_accessors_exist _ (emitted_templated module g)). Qed.
Theorem C62_delete : forall od dicts module g, comes_out od dicts module g ->
  let e := emitted module g in forall p,
  same_header p (e_delete e p)
  /\ (forall lookup, e_lookup e = Some lookup -> lookup (e_delete e p) = None)
  /\ (forall lookup_all, e_lookup_all e = Some lookup_all -> lookup_all (e_delete e p) = Ok [])
  /\ (forall a, In a (p_attributes (e_delete e p)) <-> In a (p_attributes p) /\ avp_typ a <> e_type e).
Proof. intros od dicts module g _. exact (templated_delete _ (emitted_templated module g)). Qed.
Theorem C62_add_atomic : forall od dicts module g, comes_out od dicts module g ->
  let e := emitted module g in ga_kind g <> KConcatOctets -> forall p v,
  (acceptable (ga_kind g) p v /\ exists a, avp_typ a = e_type e
     /\ e_add e p v = (Packet (p_code p) (p_identifier p) (p_authenticator p) (p_secret p)
                               (p_attributes p ++ [a]), Ok tt))
  \/ (~ acceptable (ga_kind g) p v /\ exists err, e_add e p v = (p, Err err)).
Proof. intros od dicts module g _. exact (templated_add_atomic _ (emitted_templated module g)). Qed.
(** Attributes with different numbers do not interfere, also across dictionaries. *)
Theorem C62_no_interference : forall od dicts od' dicts' module module' g g',
  comes_out od dicts module g -> comes_out od' dicts' module' g' -> ga_typ g <> ga_typ g' ->
  forall p v,
  reads_same (emitted module' g') p (fst (e_add (emitted module g) p v))
  /\ reads_same (emitted module' g') p (e_delete (emitted module g) p).
Proof.
  intros od dicts od' dicts' module module' g g' C C' N p v.
  apply templated_no_interference; try apply emitted_templated.
  intros E. apply N. apply C62_type_octet in C, C'. congruence.
Qed.
(** Attributes with the option [concat] *)
Theorem C62_concatenated : forall od dicts module name n,
  comes_out od dicts module (GenAttribute name n KConcatOctets) ->
  exists add lookup, concatenated (n2b n) add lookup
    /\ (forall p v, e_add (emitted module (GenAttribute name n KConcatOctets)) p v = (add p v, Ok tt))
    /\ (forall lk, e_lookup (emitted module (GenAttribute name n KConcatOctets)) = Some lk ->
        forall p, lk p = option_map (fun v => Ok v) (lookup p)).
Proof.
  intros od dicts module name n _. do 2 eexists. split; [apply (concat_template (n2b n))|].
  split; [reflexivity|]. intros lk E p. cbn in E. injection E as <-. cbv zeta.
  destruct (is_nil (packet_lookup_all p (n2b n))); reflexivity.
Qed.

(** A dictionary that is not among the committed ones. *)
Definition sample_dictionary : text := text_of_string
  "ATTRIBUTE	Acme-Color		201	integer
ATTRIBUTE	Acme-Blob		202	octets[4]
VALUE	Acme-Color		Red	1
".
Example C62_example : exists g,
  comes_out (fun _ => false) [("acme"%string, sample_dictionary)] "acme" g
  /\ ga_typ g = 202 /\ ga_kind g = KFixedOctets 4
  /\ carries (KFixedOctets 4) sample_packet (nb [1; 2; 3; 4]) (nb [1; 2; 3; 4]).
Proof.
  exists (GenAttribute (text_of_string "Acme-Blob") 202 (KFixedOctets 4)).
  split; [|repeat split]. do 2 eexists. split; [vm_compute; reflexivity|]. split; [left; reflexivity|].
  split; [reflexivity|]. right. left. reflexivity.
Qed.

(** * Assumptions *)
Print Assumptions C62_type_octet.
Print Assumptions C62_add_lookup.
Print Assumptions C62_lookup_oldest.
Print Assumptions C62_accessors_exist.
Print Assumptions C62_delete.
Print Assumptions C62_add_atomic.
Print Assumptions C62_no_interference.
Print Assumptions C62_concatenated.
