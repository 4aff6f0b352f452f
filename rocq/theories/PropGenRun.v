(** * C81: the modules written for any dictionary, run

    C76 runs the 24 committed modules.  Here the text that the generator writes for dictionaries that nobody has
    seen is read by the lexer and the parser of Rust.v, and its functions are run by the interpreter of RustEval.v
    together with the text of the rest of the crate.  They do what [emitted] says, about which C62 is proved.

    Not covered, since the lexer does not check it: a carriage return in the middle of a line of the dictionary,
    which Rust refuses in the comment at the head of the module. *)
From Coq Require Import String Ascii List NArith ZArith Bool Arith Strings.Byte Lia ZifyBool ZifyNat ZifyN.
From Verif Require Import Prelude PreludeFacts Tag Avp AvpSpec Attributes Packet Accessors Rfc AccessorSpec AccessorFacts CodeGen CodeGenSpec CodeGenFacts Inflect InflectFacts
  SourceSpec GenTextFacts PropSource PropGenerated GenText Rust RustEval RustModule Utf8Text GenRun GenTemplates GenAttributes GenDict GenHeader GenMain GenWhole PropGenCode SourceCore SourceGen Sources CodeRun CodeHash CodeAccessors CodeModules PropCode PropModules
  GenLex GenTree GenStep GenItems GenModule GenInline.
Import ListNotations.
Local Open Scope string_scope.
Local Open Scope N_scope.
Local Open Scope list_scope.

(** ** Specification *)
Section Spec.
Context (U : unicode).
(** the functions of an attribute, in the order of the text *)
Definition functions (g : gen_attribute) : list string :=
  let x := snake_name U (ga_name g) in
  match ga_kind g with
  | KVsa => ["delete_" ++ x]
  | KConcatOctets => ["delete_" ++ x; "add_" ++ x; "lookup_" ++ x]
  | _ => ["delete_" ++ x; "add_" ++ x; "lookup_" ++ x; "lookup_all_" ++ x]
  end%string.
(** the names of types that a module gets from elsewhere *)
Definition taken : list string :=
  ["Ipv4Addr"; "Ipv6Addr"; "DateTime"; "Utc"; "AVP"; "AVPType"; "AVPError"; "Packet"; "Tag"; "String"; "Vec"; "Option"; "Result"].
(** Rust accepts the declarations: none is there twice, and the types that are used are declared *)
Record declared_once (m : gen_module) : Prop := {
  do_functions : NoDup (flat_map functions (gm_attributes m));
  do_constants : NoDup (map (fun g => number_name U (ga_name g)) (gm_attributes m)
                        ++ map (fun c => constant_name U (gc_attr c) (gc_name c)) (gm_constants m));
  do_types : Forall (fun n => ~ In (type_name U n) taken) (gm_types m);
  do_used : forall g, In g (gm_attributes m) -> ga_kind g = KValueInteger \/ ga_kind g = KTaggedValueInteger -> In (ga_name g) (gm_types m) }.
(** the generator, given the dictionaries, writes [file] for the module [m] *)
Definition writes_module (od : N -> bool) (dicts : list (string * text)) (m : gen_module) (file : bytes) : Prop :=
  exists texts mods i t, generated_texts U od dicts = Ok texts /\ generate od dicts = Ok mods
  /\ nth_error mods i = Some m /\ nth_error texts i = Some (gm_name m, t) /\ file = utf8_text t.
Definition good_dictionaries (dicts : list (string * text)) : Prop :=
  Forall (fun d => rust_identifier (tok (fst d)) /\ Forall scalar (snd d)) dicts.
End Spec.
(** calling the function [x] of a file of Rust ends in this way *)
Definition file_does (c : cx) (file : bytes) (x : string) (args : list value) (w : world) (r : rout) : Prop :=
  exists is fn, parsed file is /\ find (fun f => String.eqb (f_name f) x) (module_fns is) = Some fn
  /\ exists k, forall n, (k <= n)%nat -> enter c n fn args w = r.

(** ** Proofs *)
Section Proofs.
Context (U : unicode).
Lemma item_functions_app a b : item_functions (a ++ b) = item_functions a ++ item_functions b.
Proof. unfold item_functions. apply flat_map_app. Qed.
Lemma item_consts_app a b : item_consts (a ++ b) = item_consts a ++ item_consts b.
Proof. unfold item_consts. apply flat_map_app. Qed.
Lemma item_types_app a b : item_types (a ++ b) = item_types a ++ item_types b.
Proof. unfold item_types. apply flat_map_app. Qed.
Lemma fns_only fs : item_functions (map (fun f => ([], IFn f)) fs) = fs /\ item_consts (map (fun f => ([], IFn f)) fs) = [] /\ item_types (map (fun f => ([], IFn f)) fs) = [].
Proof. induction fs as [|f fs (A & B & C)]; [auto|]. split; [|split; assumption]. cbn. f_equal. exact A. Qed.
Definition a_number (g : gen_attribute) : string * (ty * expr) := (number_name U (ga_name g), (named "AVPType", ENum (ga_typ g))).
Definition a_constant (c : gen_constant) : string * (ty * expr) :=
  (constant_name U (gc_attr c) (gc_name c), (constant_ty U (gc_attr c) (gc_module c), ENum (gc_value c))).
Definition attribute_fns (g : gen_attribute) : list fn :=
  raw_fns (ga_kind g) (snake_name U (ga_name g)) (number_name U (ga_name g)) (type_name U (ga_name g)).
Lemma attribute_parts g : item_functions (attribute_aitems U g) = attribute_fns g
  /\ item_consts (attribute_aitems U g) = [a_number g] /\ item_types (attribute_aitems U g) = [].
Proof.
  unfold attribute_aitems. destruct (fns_only (attribute_fns g)) as (A & B & C). unfold attribute_fns in *. split; [|split].
  - exact A.
  - change (a_number g :: item_consts (map (fun f => ([], IFn f)) (attribute_fns g)) = [a_number g]). unfold attribute_fns. now rewrite B.
  - exact C.
Qed.
Lemma attributes_parts gs : item_functions (flat_map (attribute_aitems U) gs) = flat_map attribute_fns gs
  /\ item_consts (flat_map (attribute_aitems U) gs) = map a_number gs /\ item_types (flat_map (attribute_aitems U) gs) = [].
Proof.
  induction gs as [|g gs (A & B & C)]; [repeat split|]. cbn [flat_map map]. rewrite item_functions_app, item_consts_app, item_types_app, A, B, C.
  destruct (attribute_parts g) as (-> & -> & ->). repeat split.
Qed.
Lemma entry_parts names e : item_functions (entry_aitems U names e) = []
  /\ item_consts (entry_aitems U names e) = map a_constant (map (fun v => GenConstant (fst e) (rv_name v) (rfc_of names (fst e)) (rv_value v)) (snd e))
  /\ item_types (entry_aitems U names e) = match rfc_of names (fst e) with None => [(type_name U (fst e), named "u32")] | Some _ => [] end.
Proof.
  unfold entry_aitems. rewrite item_functions_app, item_consts_app, item_types_app.
  assert (X : forall r vs, let l := map (fun v => ([], IConst (constant_name U (fst e) (rv_name v)) (constant_ty U (fst e) r) (ENum (rv_value v)))) vs in
    item_functions l = [] /\ item_consts l = map a_constant (map (fun v => GenConstant (fst e) (rv_name v) r (rv_value v)) vs) /\ item_types l = []).
  { intros r vs. induction vs as [|v vs (A & B & C)]; [repeat split|]. repeat split; cbn; [exact A| |exact C]. f_equal. exact B. }
  destruct (X (rfc_of names (fst e)) (snd e)) as (-> & -> & ->). destruct (rfc_of names (fst e)); repeat split.
Qed.
Lemma values_parts names values : item_functions (flat_map (entry_aitems U names) values) = []
  /\ item_consts (flat_map (entry_aitems U names) values) = map a_constant (generate_constants values names)
  /\ item_types (flat_map (entry_aitems U names) values) = map (fun n => (type_name U n, named "u32")) (generate_types values names).
Proof.
  unfold generate_constants, generate_types.
  induction values as [|e vs (A & B & C)]; [repeat split|]. cbn [flat_map filter]. rewrite item_functions_app, item_consts_app, item_types_app, A, B, C.
  destruct (entry_parts names e) as (-> & -> & ->). rewrite map_app. destruct (rfc_of names (fst e)); repeat split.
Qed.
Definition parts (m : gen_module) (is : list aitem) : Prop :=
  item_functions is = flat_map attribute_fns (gm_attributes m)
  /\ item_consts is = map a_number (gm_attributes m) ++ map a_constant (gm_constants m)
  /\ item_types is = map (fun n => (type_name U n, named "u32")) (gm_types m).
Lemma module_parts rfc gs names values :
  parts (GenModule rfc gs (generate_types values names) (generate_constants values names)) (module_aitems U gs names values).
Proof.
  unfold parts, module_aitems. rewrite item_functions_app, item_consts_app, item_types_app. cbn [gm_attributes gm_constants gm_types].
  destruct (attributes_parts gs) as (-> & -> & ->). destruct (values_parts names values) as (-> & -> & ->). now rewrite app_nil_r.
Qed.
Lemma all_parsed od dicts texts : good_dictionaries dicts -> generated_texts U od dicts = Ok texts -> exists mods,
  generate od dicts = Ok mods /\
  Forall2 (fun m t => gm_name m = fst t /\ (proper m -> exists is, parsed (utf8_text (snd t)) is /\ parts m is)) mods texts.
Proof.
  intro P. unfold generated_texts, generate.
  assert (Pe : Forall (fun r => rust_identifier (tok r)) []) by constructor.
  assert (Pn : Forall (fun n : text * string => rust_identifier (tok (snd n))) []) by constructor.
  revert Pe Pn texts. generalize (@nil string) as earlier. generalize (@nil (text * string)) as names.
  induction P as [|[rfc t] dicts [Pd Sd] P IH]; intros names earlier Pe Pn texts H; cbn [generate_texts generate_all] in *.
  - injection H as <-. exists []. split; [reflexivity|constructor].
  - destruct (parse_dict_file od t) as [[attrs values]| | |]; try discriminate H.
    destruct (attributes_text U attrs values) as [code| | |] eqn:A; cbn [bind] in H; try discriminate H.
    cbn [fst snd] in Pd, Sd.
    destruct (module_yields U earlier names rfc t attrs values code Pe Pn Pd Sd A) as (gs & -> & D). cbn [bind].
    destruct (generate_texts U od (earlier ++ [rfc]) _ dicts) as [ms| | |] eqn:G; cbn [bind] in H; try discriminate H.
    injection H as <-.
    assert (Pe' : Forall (fun r => rust_identifier (tok r)) (earlier ++ [rfc])).
    { apply Forall_app. split; [exact Pe|]. constructor; [exact Pd|constructor]. }
    assert (Pn' : Forall (fun n => rust_identifier (tok (snd n))) (rev (map (fun a => (ra_name a, rfc)) attrs) ++ names)).
    { apply Forall_app. split; [|exact Pn]. apply Forall_forall. intros x I. apply in_rev in I.
      apply in_map_iff in I. destruct I as (a & <- & _). exact Pd. }
    destruct (IH _ _ Pe' Pn' _ G) as (mods & -> & F).
    cbn [bind]. eexists. split; [reflexivity|]. constructor; [|exact F]. split; [reflexivity|].
    intros Us. destruct (D Us) as [c Y]. eexists. split; [exact (yields_parsed _ _ _ Y)|]. apply module_parts.
Qed.
Lemma module_parsed od dicts m file : good_dictionaries dicts -> writes_module U od dicts m file -> proper m ->
  exists is, parsed file is /\ parts m is.
Proof.
  intros G (texts & mods & i & t & E1 & E2 & N1 & N2 & ->) Pm. destruct (all_parsed od dicts texts G E1) as (mods' & E & F).
  rewrite E2 in E. injection E as <-. clear E1 E2. revert i N1 N2. induction F as [|m' t' ms ts [H1 H2] F IH]; intros i N1 N2; [destruct i; discriminate|].
  destruct i; [|exact (IH i N1 N2)]. injection N1 as ->. injection N2 as ->. now apply H2.
Qed.

(** *** The names *)
Definition no_underscore (c : ascii) : bool := negb (code_of c =? 95).
Lemma number_name_marked n : all_chars no_underscore (number_name U n) = false.
Proof. unfold number_name. rewrite in_file_app, all_chars_app. rewrite in_file_lit by reflexivity. apply andb_false_r. Qed.
Lemma constant_name_marked a v : all_chars no_underscore (constant_name U a v) = false.
Proof. unfold constant_name. rewrite in_file_app, in_file_app, !all_chars_app. rewrite in_file_lit by reflexivity. apply andb_false_r. Qed.
Lemma assoc_none {A} x (l : list (string * A)) : ~ In x (map fst l) -> assoc x l = None.
Proof.
  induction l as [|[y a] l IH]; intro N; [reflexivity|]. cbn [assoc]. cbn in N.
  destruct (String.eqb_spec x y) as [->|_]; [destruct N; now left|]. apply IH. tauto.
Qed.
Lemma assoc_some {A} x a (l : list (string * A)) : NoDup (map fst l) -> In (x, a) l -> assoc x l = Some a.
Proof.
  induction l as [|[y b] l IH]; intros N I; [destruct I|]. cbn [assoc]. cbn in N. inversion N as [|? ? N1 N2]; subst.
  destruct I as [I|I].
  - injection I as -> ->. now rewrite String.eqb_refl.
  - destruct (String.eqb_spec x y) as [->|_]; [|now apply IH]. destruct N1. now apply (in_map fst) in I.
Qed.
Lemma functions_names g : map f_name (attribute_fns g) = functions U g.
Proof. unfold attribute_fns, raw_fns, functions. destruct (ga_kind g); reflexivity. Qed.
Lemma all_names gs : map f_name (flat_map attribute_fns gs) = flat_map (functions U) gs.
Proof. induction gs as [|g gs IH]; [reflexivity|]. cbn [flat_map]. now rewrite map_app, functions_names, IH. Qed.
Lemma find_fn (put : fn -> fn) fs f : (forall f, f_name (put f) = f_name f) -> NoDup (map f_name fs) -> In f fs ->
  find (fun h => String.eqb (f_name h) (f_name f)) (map put fs) = Some (put f).
Proof.
  intros Pn N I. induction fs as [|h fs IH]; [destruct I|]. cbn [map find]. inversion N as [|? ? N1 N2]; subst. rewrite Pn.
  destruct I as [->|I]; [now rewrite String.eqb_refl|].
  destruct (String.eqb_spec (f_name h) (f_name f)) as [E|_]; [|now apply IH]. destruct N1. rewrite E. now apply in_map.
Qed.
(** the function [raw] of the attribute [g] is there, with everything put in *)
Lemma found od dicts m file g raw : good_dictionaries dicts -> writes_module U od dicts m file -> proper m -> declared_once U m ->
  In g (gm_attributes m) -> In raw (attribute_fns g) ->
  exists is consts types, parsed file is
  /\ find (fun f => String.eqb (f_name f) (f_name raw)) (module_fns is) = Some (inline_fn consts types raw)
  /\ ga_typ g < 256
  /\ assoc (number_name U (ga_name g)) consts = Some (named "AVPType", ENum (ga_typ g))
  /\ Forall (fun x => assoc x consts = None) the_variables
  /\ Forall (fun x => assoc x types = None) the_types
  /\ (value_kind (ga_kind g) = true -> assoc (type_name U (ga_name g)) types = Some (named "u32")).
Proof.
  intros G W Pm [D1 D2 D3 D4] Hg Hr. destruct (module_parsed _ _ _ _ G W Pm) as (is & Ps & F & Cs & Ts).
  exists is, (item_consts is), (item_types is). split; [exact Ps|]. split.
  { unfold module_fns. apply find_fn; [reflexivity| |].
    - rewrite F, all_names. exact D1.
    - rewrite F. apply in_flat_map. eauto. }
  split.
  { destruct W as (texts & mods & i & t & _ & E & N & _).
    assert (C : comes_out od dicts (gm_name m) g) by (exists mods, m; repeat split; try assumption; eapply nth_error_In; eassumption).
    apply C62_type_octet in C. rewrite <- C. apply b2n_lt. }
  rewrite Cs, Ts.
  assert (M : map fst (map a_number (gm_attributes m) ++ map a_constant (gm_constants m))
    = map (fun g => number_name U (ga_name g)) (gm_attributes m) ++ map (fun c => constant_name U (gc_attr c) (gc_name c)) (gm_constants m)).
  { rewrite map_app, !map_map. reflexivity. }
  split.
  { apply assoc_some; [now rewrite M|]. apply in_or_app. left. apply in_map_iff. exists g. split; [reflexivity|exact Hg]. }
  split; [|split].
  - assert (X : forall x, all_chars no_underscore x = true -> assoc x (map a_number (gm_attributes m) ++ map a_constant (gm_constants m)) = None).
    { intros x Hx. apply assoc_none. rewrite M. intro I. apply in_app_or in I as [I|I]; apply in_map_iff in I as (y & E & _); subst x.
      - now rewrite number_name_marked in Hx.
      - now rewrite constant_name_marked in Hx. }
    repeat (constructor; [apply X; reflexivity|]). constructor.
  - assert (X : forall x, In x taken \/ capitalised x = false -> assoc x (map (fun n => (type_name U n, named "u32")) (gm_types m)) = None).
    { intros x Hx. apply assoc_none. rewrite map_map. cbn [fst]. intro I. apply in_map_iff in I as (n & E & I). subst x.
      rewrite Forall_forall in D3. destruct Hx as [Hx|Hx]; [exact (D3 n I Hx)|].
      destruct (type_name_word U n) as [_ T2]; [|congruence]. exact (proj1 (Forall_forall _ _) (pr_types m Pm) n I). }
    repeat (constructor; [apply X; first [right; reflexivity | left; cbn; tauto]|]). constructor.
  - intro V. assert (I : In (ga_name g) (gm_types m)) by (apply (D4 g Hg); destruct (ga_kind g); try discriminate V; auto).
    clear - I. induction (gm_types m) as [|n ns IH]; [destruct I|]. cbn [map assoc].
    destruct (String.eqb_spec (type_name U (ga_name g)) (type_name U n)) as [_|N]; [reflexivity|]. apply IH. destruct I as [->|I]; [now destruct N|exact I].
Qed.
End Proofs.

(** ** C81 *)
(** Every file is Rust that can be read; its declarations are those of the module, in order, and nothing else. *)
Theorem C81_parses : forall U od dicts m file, good_dictionaries dicts -> writes_module U od dicts m file -> proper m ->
  exists is, parsed file is
  /\ map f_name (item_functions is) = flat_map (functions U) (gm_attributes m)
  /\ item_consts is = map (fun g => (number_name U (ga_name g), (named "AVPType", ENum (ga_typ g)))) (gm_attributes m)
       ++ map (fun c => (constant_name U (gc_attr c) (gc_name c),
                 (match gc_module c with Some r => TyName [r; type_name U (gc_attr c)] [] | None => named (type_name U (gc_attr c)) end, ENum (gc_value c))))
              (gm_constants m)
  /\ item_types is = map (fun n => (type_name U n, named "u32")) (gm_types m).
Proof.
  intros U od dicts m file G W Pm. destruct (module_parsed U _ _ _ _ G W Pm) as (is & Ps & F & Cs & Ts).
  exists is. split; [exact Ps|]. split; [rewrite F; apply all_names|]. split; [exact Cs|exact Ts].
Qed.
Section Theorems.
Context (U : unicode) (od : N -> bool) (dicts : list (string * text)) (m : gen_module) (file : bytes).
Context (G : good_dictionaries dicts) (W : writes_module U od dicts m file) (Pm : proper m) (D : declared_once U m).
Lemma run_delete : forall pr f rng he ans w g p, In g (gm_attributes m) ->
  file_does (source pr f rng he ans) file ("delete_" ++ snake_name U (ga_name g)) [v_packet p] w
    (RVal VUnit [v_packet (e_delete (emitted (gm_name m) g) p)] w).
Proof.
  intros pr f rng he ans w g p Hg.
  destruct (found U od dicts m file g (raw_delete (var (number_name U (ga_name g))) (snake_name U (ga_name g))) G W Pm D Hg) as (is & cs & ts & Ps & Fd & Ht & HT & Hv & Hy & HY).
  { now left. }
  eexists is, _. split; [exact Ps|]. split; [exact Fd|]. exists 3%nat. intros n Hn. rewrite (inline_delete cs ts _ _ Ht HT Hv Hy).
  unfold source. rewrite program. now apply enter_delete.
Qed.
Lemma run_add : forall pr f rng he ans w g p v, In g (gm_attributes m) -> ga_kind g <> KVsa ->
  (f = Openssl -> forall b, he b = None) -> salted rng w (ga_kind g) v ->
  file_does (source pr f rng he ans) file ("add_" ++ snake_name U (ga_name g)) (v_packet p :: v_in (ga_kind g) v) w
    (added (ga_kind g) (e_add (emitted (gm_name m) g) p v) (v_in (ga_kind g) v) (after_add (ga_kind g) p w)).
Proof.
  intros pr f rng he ans w g p v Hg K Hf Hs.
  destruct (found U od dicts m file g (raw_add (var (number_name U (ga_name g))) (named (type_name U (ga_name g))) (ga_kind g) (snake_name U (ga_name g))) G W Pm D Hg) as (is & cs & ts & Ps & Fd & Ht & HT & Hv & Hy & HY).
  { unfold attribute_fns, raw_fns. destruct (ga_kind g); try (now destruct K); right; left; reflexivity. }
  eexists is, _. split; [exact Ps|]. split; [exact Fd|]. exists 3%nat. intros n Hn. rewrite (inline_add cs ts _ _ _ Ht HT Hv Hy _ _ K HY).
  unfold source. rewrite program. apply enter_add_all; auto. destruct (ga_kind g); try exact I. now destruct K.
Qed.
Lemma run_lookup : forall pr f rng he ans w g p l, In g (gm_attributes m) ->
  (f = Openssl -> forall b, he b = None) -> e_lookup (emitted (gm_name m) g) = Some l ->
  file_does (source pr f rng he ans) file ("lookup_" ++ snake_name U (ga_name g)) [v_packet p] w (looked (ga_kind g) (l p) p w).
Proof.
  intros pr f rng he ans w g p l Hg Hf Hl. cbn [e_lookup emitted e_kind] in *.
  assert (K : ga_kind g <> KVsa) by (intro K; clear - K Hl; revert l Hl; rewrite K; intros; discriminate).
  destruct (found U od dicts m file g (raw_lookup (var (number_name U (ga_name g))) (named (type_name U (ga_name g))) (ga_kind g) (snake_name U (ga_name g))) G W Pm D Hg) as (is & cs & ts & Ps & Fd & Ht & HT & Hv & Hy & HY).
  { unfold attribute_fns, raw_fns. destruct (ga_kind g); try (now destruct K); right; right; left; reflexivity. }
  eexists is, _. split; [exact Ps|]. split; [exact Fd|]. exists 4%nat. intros n Hn. rewrite (inline_lookup cs ts _ _ _ Ht HT Hv Hy _ _ K HY).
  unfold source. rewrite program. now apply enter_lookup_any.
Qed.
Lemma run_lookup_all : forall pr f rng he ans w g p l, In g (gm_attributes m) ->
  (f = Openssl -> forall b, he b = None) -> e_lookup_all (emitted (gm_name m) g) = Some l ->
  file_does (source pr f rng he ans) file ("lookup_all_" ++ snake_name U (ga_name g)) [v_packet p] w (looked_all (ga_kind g) (l p) p w).
Proof.
  intros pr f rng he ans w g p l Hg Hf Hl. cbn [e_lookup_all emitted e_kind] in *.
  assert (K : has_all (ga_kind g) = true) by (clear - Hl; revert l Hl; destruct (ga_kind g); intros; try reflexivity; discriminate).
  destruct (found U od dicts m file g (raw_lookup_all (var (number_name U (ga_name g))) (named (type_name U (ga_name g))) (ga_kind g) (snake_name U (ga_name g))) G W Pm D Hg) as (is & cs & ts & Ps & Fd & Ht & HT & Hv & Hy & HY).
  { unfold attribute_fns, raw_fns. destruct (ga_kind g); try discriminate K; right; right; right; left; reflexivity. }
  eexists is, _. split; [exact Ps|]. split; [exact Fd|]. exists 4%nat. intros n Hn. rewrite (inline_lookup_all cs ts _ _ _ Ht HT Hv Hy _ _ K HY).
  unfold source. rewrite program. now apply enter_lookup_all.
Qed.
End Theorems.

(** [delete_x] *)
Theorem C81_delete : forall U od dicts m file, good_dictionaries dicts -> writes_module U od dicts m file -> proper m -> declared_once U m ->
  forall pr f rng he ans w g p, In g (gm_attributes m) ->
  file_does (source pr f rng he ans) file ("delete_" ++ snake_name U (ga_name g)) [v_packet p] w
    (RVal VUnit [v_packet (e_delete (emitted (gm_name m) g) p)] w).
Proof. exact run_delete. Qed.
(** [add_x] *)
Theorem C81_add : forall U od dicts m file, good_dictionaries dicts -> writes_module U od dicts m file -> proper m -> declared_once U m ->
  forall pr f rng he ans w g p v, In g (gm_attributes m) -> ga_kind g <> KVsa ->
  (f = Openssl -> forall b, he b = None) -> salted rng w (ga_kind g) v ->
  file_does (source pr f rng he ans) file ("add_" ++ snake_name U (ga_name g)) (v_packet p :: v_in (ga_kind g) v) w
    (added (ga_kind g) (e_add (emitted (gm_name m) g) p v) (v_in (ga_kind g) v) (after_add (ga_kind g) p w)).
Proof. exact run_add. Qed.
(** [lookup_x] *)
Theorem C81_lookup : forall U od dicts m file, good_dictionaries dicts -> writes_module U od dicts m file -> proper m -> declared_once U m ->
  forall pr f rng he ans w g p l, In g (gm_attributes m) ->
  (f = Openssl -> forall b, he b = None) -> e_lookup (emitted (gm_name m) g) = Some l ->
  file_does (source pr f rng he ans) file ("lookup_" ++ snake_name U (ga_name g)) [v_packet p] w (looked (ga_kind g) (l p) p w).
Proof. exact run_lookup. Qed.
(** [lookup_all_x] *)
Theorem C81_lookup_all : forall U od dicts m file, good_dictionaries dicts -> writes_module U od dicts m file -> proper m -> declared_once U m ->
  forall pr f rng he ans w g p l, In g (gm_attributes m) ->
  (f = Openssl -> forall b, he b = None) -> e_lookup_all (emitted (gm_name m) g) = Some l ->
  file_does (source pr f rng he ans) file ("lookup_all_" ++ snake_name U (ga_name g)) [v_packet p] w (looked_all (ga_kind g) (l p) p w).
Proof. exact run_lookup_all. Qed.

Lemma template_lookup_none k t p l : k <> KConcatOctets -> template_lookup k t = Some l -> packet_lookup p t = None -> l p = None.
Proof. intros K' El X. destruct k; try (now destruct K'); try discriminate El; injection El as <-; now rewrite X. Qed.
(** What goes in comes out: the text of [add_x], run on a packet in which the attribute is not yet, and then the text
    of [lookup_x], give back the value ([carries]: AccessorSpec.v). *)
Theorem C81_add_lookup : forall U od dicts m file, good_dictionaries dicts -> writes_module U od dicts m file -> proper m -> declared_once U m ->
  forall pr f rng he ans w g p v out, In g (gm_attributes m) ->
  (f = Openssl -> forall b, he b = None) -> salted rng w (ga_kind g) v -> carries (ga_kind g) p v out ->
  (forall a, In a (Packet.p_attributes p) -> b2n (avp_typ a) <> ga_typ g) ->
  exists p' w', file_does (source pr f rng he ans) file ("add_" ++ snake_name U (ga_name g)) (v_packet p :: v_in (ga_kind g) v) w
    (RVal (if fallible (ga_kind g) then vok VUnit else VUnit) (v_packet p' :: v_in (ga_kind g) v) w')
  /\ file_does (source pr f rng he ans) file ("lookup_" ++ snake_name U (ga_name g)) [v_packet p'] w'
    (RVal (vsome (if bare (ga_kind g) then v_out (ga_kind g) out else vok (v_out (ga_kind g) out))) [v_packet p'] w').
Proof.
  intros U od dicts m file G W Pm D pr f rng he ans w g p v out Hg Hf Hs Hc Hn.
  assert (K : ga_kind g <> KVsa) by (clear - Hc; intro K; revert v out Hc; rewrite K; intros v out []).
  assert (K' : ga_kind g <> KConcatOctets) by (clear - Hc; intro K'; revert v out Hc; rewrite K'; intros v out []).
  assert (Co : comes_out od dicts (gm_name m) g).
  { destruct W as (texts & mods & i & t & _ & E & N & _). exists mods, m. repeat split; try assumption. eapply nth_error_In; eassumption. }
  destruct (C62_accessors_exist _ _ _ _ Co) as [L1 L2]. specialize (L1 K). specialize (L2 K K').
  destruct (e_lookup (emitted (gm_name m) g)) as [l|] eqn:El; [|congruence].
  destruct (e_lookup_all (emitted (gm_name m) g)) as [la|] eqn:Ela; [|congruence].
  destruct (C62_add_lookup _ _ _ _ Co l la El Ela p v out Hc) as (p' & Ea & _ & Lk & _).
  assert (Np : l p = None).
  { pose proof (C62_type_octet _ _ _ _ Co) as T. cbn [emitted e_type e_lookup] in T, El.
    assert (X : packet_lookup p (n2b (ga_typ g)) = None).
    { unfold packet_lookup, attributes_lookup. destruct (find _ (Packet.p_attributes p)) as [a|] eqn:F; [|reflexivity].
      apply find_some in F as [Ia E]. apply byte_dec_bl in E. destruct (Hn a Ia). now rewrite E. }
    exact (template_lookup_none _ _ p l K' El X). }
  rewrite Np in Lk. exists p', (after_add (ga_kind g) p w). split.
  - pose proof (C81_add U od dicts m file G W Pm D pr f rng he ans w g p v Hg K Hf Hs) as A. rewrite Ea in A. exact A.
  - pose proof (C81_lookup U od dicts m file G W Pm D pr f rng he ans (after_add (ga_kind g) p w) g p' l Hg Hf El) as A. rewrite Lk in A. exact A.
Qed.

(** The whole way: running the text of the generator's main.rs on the files of the dictionaries writes such files, one
    for every dictionary. *)
Theorem C81_from_generator : forall pr rng he U od ans program args paths out_dir file_of dicts w there regular,
  environment U od ans program args paths out_dir file_of dicts -> disk ans paths there regular ->
  (forall q, In q paths -> there q = true /\ regular q = true) ->
  NoDup (map (output file_of) dicts) ->
  forall texts, texts_of U od dicts = Ok texts -> good_dictionaries (map (fun d => (d_name d, d_text d)) dicts) ->
  exists w' mods, PropGenCode.does (generator pr rng he ans) "" "main" [] w (RVal VUnit [] w')
  /\ Forall2 (fun d m => gm_name m = d_name d /\ exists file, contents (output file_of d) (w_trace w') = Some file
       /\ writes_module U od (map (fun d => (d_name d, d_text d)) dicts) m file) dicts mods.
Proof.
  intros pr rng he U od ans program args paths out_dir file_of dicts w there regular E K T ND texts Gt Gd.
  destruct (C79_modules pr rng he U od ans program args paths out_dir file_of dicts w there regular E K T ND texts Gt) as (w' & R & N & C & _).
  unfold texts_of in Gt. destruct (all_parsed U od _ _ Gd Gt) as (mods & Gm & F). exists w', mods. split; [exact R|].
  assert (X : forall i d, nth_error dicts i = Some d -> exists m t, nth_error mods i = Some m /\ nth_error texts i = Some t
     /\ gm_name m = fst t /\ fst t = d_name d /\ contents (output file_of d) (w_trace w') = Some (utf8_text (snd t))).
  { clear - N C F. revert mods N F. induction C as [|d t ds ts Ht C IH]; intros mods N F i x Hx; [destruct i; discriminate|].
    inversion F as [|m t' ms ts' [F1 _] F']; subst. cbn [map] in N. injection N as N1 N2. destruct i as [|i].
    - injection Hx as <-. exists m, t. auto.
    - exact (IH ms N2 F' i x Hx). }
  assert (L : length dicts = length mods).
  { transitivity (length texts); [clear - C; induction C; cbn; congruence|clear - F; induction F; cbn; congruence]. }
  assert (Y : forall i d, nth_error dicts i = Some d -> exists m, nth_error mods i = Some m /\ gm_name m = d_name d /\
     exists file, contents (output file_of d) (w_trace w') = Some file /\ writes_module U od (map (fun d => (d_name d, d_text d)) dicts) m file).
  { intros i d Hd. destruct (X i d Hd) as (m & [n t] & M1 & M2 & M3 & M4 & M5). cbn [fst snd] in *. exists m. split; [exact M1|]. split; [congruence|].
    exists (utf8_text t). split; [exact M5|]. exists texts, mods, i, t. repeat split; auto. now rewrite M3. }
  clear - L Y. revert Y. generalize (writes_module U od (map (fun d => (d_name d, d_text d)) dicts)) as P. revert mods L.
  induction dicts as [|d ds IH]; intros [|m ms] L P Y; try discriminate; constructor.
  - destruct (Y 0%nat d eq_refl) as (m' & M & H). injection M as <-. exact H.
  - apply IH; [now injection L|]. intros i d' Hd. exact (Y (S i) d' Hd).
Qed.

(** ** Example: a dictionary of nobody *)
Definition acme : text := text_of_string
"# nothing like this is registered
ATTRIBUTE	Acme-Greeting		201	string
ATTRIBUTE	Acme-Color		202	integer	has_tag
ATTRIBUTE	Acme-Key		203	octets[4]
ATTRIBUTE	Acme-Log		204	octets	concat
VALUE	Acme-Color		Deep-Red	1
".
Definition acme_module : gen_module :=
  GenModule "acme" [GenAttribute (text_of_string "Acme-Greeting") 201 KString; GenAttribute (text_of_string "Acme-Color") 202 KTaggedValueInteger;
                    GenAttribute (text_of_string "Acme-Key") 203 (KFixedOctets 4); GenAttribute (text_of_string "Acme-Log") 204 KConcatOctets]
    [text_of_string "Acme-Color"] [GenConstant (text_of_string "Acme-Color") (text_of_string "Deep-Red") None 1].
Definition acme_file (U : unicode) : bytes :=
  match generated_texts U (fun _ => false) [("acme", acme)] with Ok [(_, t)] => utf8_text t | _ => [] end.
Lemma acme_good : good_dictionaries [("acme", acme)].
Proof.
  constructor; [|constructor]. split.
  - split; [vm_compute; intuition discriminate|]. eexists _, _. split; [vm_compute; reflexivity|]. split; [left; reflexivity|]. repeat constructor.
  - apply Forall_forall. intros c I. assert (X : forallb scalarb acme = true) by (vm_compute; reflexivity).
    rewrite forallb_forall in X. specialize (X c I). unfold scalarb in X. unfold scalar. lia.
Qed.
Lemma acme_written U : writes_module U (fun _ => false) [("acme", acme)] acme_module (acme_file U).
Proof.
  eexists _, _, 0%nat, _. split; [vm_compute; reflexivity|]. split; [vm_compute; reflexivity|]. repeat split; vm_compute; reflexivity.
Qed.
Lemma acme_lettered n : In n (map text_of_string ["Acme-Greeting"; "Acme-Color"; "Acme-Key"; "Acme-Log"]) -> lettered n.
Proof.
  intro I. assert (E : exists r, n = 65 :: r /\ Forall (fun c => c < 128) r).
  { cbn in I. decompose [or] I; subst; try contradiction; (eexists; split; [vm_compute; reflexivity|repeat constructor]). }
  destruct E as (r & -> & F). split; [split|].
  - constructor; [reflexivity|exact F].
  - exists 65. split; [now left|reflexivity].
  - intros (b & d & a & X & Dg & Fb). destruct b as [|x b]; cbn in X; injection X as <- _; [discriminate Dg|]. inversion Fb as [|? ? Z _]; discriminate Z.
Qed.
Lemma acme_proper : proper acme_module.
Proof.
  constructor; cbn [acme_module gm_attributes gm_types gm_constants].
  - repeat (constructor; [apply acme_lettered; cbn; tauto|]). constructor.
  - repeat (constructor; [apply acme_lettered; cbn; tauto|]). constructor.
  - constructor; [|constructor]. split; [apply acme_lettered; cbn; tauto|]. vm_compute. repeat constructor.
Qed.
Lemma acme_once U : declared_once U acme_module.
Proof.
  constructor.
  - apply distinct_sound. vm_compute. reflexivity.
  - apply distinct_sound. vm_compute. reflexivity.
  - constructor; [|constructor]. vm_compute. intuition discriminate.
  - cbn [acme_module gm_attributes gm_types In]. intros g I [K|K]; decompose [or] I; subst; try contradiction; try discriminate K. now left.
Qed.
(** the text of the generated [add_acme_greeting] and [lookup_acme_greeting] *)
Example C81_example : forall U pr f rng he ans w,
  (f = Openssl -> forall b, he b = None) -> exists p' w',
  file_does (source pr f rng he ans) (acme_file U) "add_acme_greeting" [v_packet empty_request; v_text "hello"] w (RVal VUnit [v_packet p'; v_text "hello"] w')
  /\ file_does (source pr f rng he ans) (acme_file U) "lookup_acme_greeting" [v_packet p'] w' (RVal (vsome (vok (v_text "hello"))) [v_packet p'] w').
Proof.
  intros U pr f rng he ans w Hf.
  destruct (C81_add_lookup U _ _ _ _ acme_good (acme_written U) acme_proper (acme_once U) pr f rng he ans w
    (GenAttribute (text_of_string "Acme-Greeting") 201 KString) empty_request (bytes_of_string "hello") (bytes_of_string "hello")) as (p' & w' & A & B); auto.
  - now left.
  - exact I.
  - split; [|reflexivity]. exists (text_of_string "hello"). split; [|reflexivity]. repeat (constructor; [unfold scalar; left; reflexivity|]). constructor.
  - exists p', w'. split; [exact A|exact B].
Qed.
(** the items of the file, by running the parser *)
Example acme_items : forall U,
  match p_items 200 false (lex_from LBase (string_of_bytes (acme_file U))) with
  | Some (is, []) => map f_name (item_functions is) = ["delete_acme_greeting"; "add_acme_greeting"; "lookup_acme_greeting"; "lookup_all_acme_greeting";
      "delete_acme_color"; "add_acme_color"; "lookup_acme_color"; "lookup_all_acme_color"; "delete_acme_key"; "add_acme_key"; "lookup_acme_key"; "lookup_all_acme_key";
      "delete_acme_log"; "add_acme_log"; "lookup_acme_log"]
    /\ map fst (item_consts is) = ["ACME_GREETING_TYPE"; "ACME_COLOR_TYPE"; "ACME_KEY_TYPE"; "ACME_LOG_TYPE"; "ACME_COLOR_DEEP_RED"]
    /\ map fst (item_types is) = ["AcmeColor"]
  | _ => False
  end.
Proof. intro U. vm_compute. repeat split. Qed.

(** * Assumptions *)
Print Assumptions C81_parses.
Print Assumptions C81_delete.
Print Assumptions C81_add.
Print Assumptions C81_lookup.
Print Assumptions C81_lookup_all.
Print Assumptions C81_add_lookup.
Print Assumptions C81_from_generator.
