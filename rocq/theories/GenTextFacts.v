(** * Facts about the generated text, for every dictionary *)
From Coq Require Import String List NArith ZArith Bool Arith Lia ZifyBool ZifyNat ZifyN.
From Coq Require DecimalString DecimalN.
From Verif Require Import Prelude Accessors CodeGen CodeGenSpec CodeGenFacts Inflect GenText
  SourceSpec InflectFacts LexFacts.
Import ListNotations.
Local Open Scope N_scope.
Local Open Scope list_scope.

(** ** Decimal numbers *)
Definition uint_text (u : Decimal.uint) : text := lit_text (DecimalString.NilEmpty.string_of_uint u).
Lemma digits_acc u p :
  fold_left (fun acc d => 10 * acc + (d - 48)) (uint_text u) (Npos p) = Npos (Pos.of_uint_acc u p).
Proof.
  revert p. induction u; intros p; [reflexivity|..]; cbn [Pos.of_uint_acc]; rewrite <- IHu;
    unfold uint_text, lit_text, text_of_string;
    cbn [DecimalString.NilEmpty.string_of_uint Strings.String.list_ascii_of_string map fold_left]; f_equal;
    match goal with |- context [Ascii.N_of_ascii ?a] => let v := eval vm_compute in (Ascii.N_of_ascii a) in
      change (Ascii.N_of_ascii a) with v end; lia.
Qed.
Lemma digits_uint u : digits_value (uint_text u) = N.of_uint u.
Proof.
  unfold digits_value. induction u; [reflexivity|exact IHu|..]; exact (digits_acc u _).
Qed.
Lemma uint_text_digits u : Forall digit (uint_text u).
Proof. induction u; constructor; try assumption; vm_compute; split; discriminate. Qed.
Lemma dec_uint n : dec_text n = uint_text (N.to_uint n) /\ uint_text (N.to_uint n) <> [].
Proof.
  unfold dec_text, dec, DecimalString.NilZero.string_of_uint, uint_text.
  destruct n as [|p]; [split; [reflexivity|discriminate]|].
  cbn [N.to_uint]. pose proof (DecimalPos.Unsigned.to_uint_nonnil p) as H.
  destruct (Pos.to_uint p); [congruence|..]; split; try reflexivity; discriminate.
Qed.
Lemma decimal_dec n : decimal (dec_text n) n.
Proof.
  destruct (dec_uint n) as (E & N). apply decimal_model. rewrite E. split; [exact N|]. split.
  - apply forallb_forall. intros c I. apply is_digit_digit. pose proof (uint_text_digits (N.to_uint n)) as F.
    rewrite Forall_forall in F. now apply F.
  - rewrite digits_uint. apply DecimalN.Unsigned.of_to.
Qed.
Lemma dec_word n : dec_text n <> [] /\ Forall (fun c => word_char c = true) (dec_text n) /\ item_keyword (dec_text n) = false.
Proof.
  destruct (dec_uint n) as (E & N). rewrite E. pose proof (uint_text_digits (N.to_uint n)) as F.
  split; [exact N|]. split.
  - eapply Forall_impl; [|exact F]. intros c. unfold digit, word_char. lia.
  - destruct (uint_text (N.to_uint n)) as [|c t]; [congruence|]. inversion F as [|? ? H _]; subst.
    destruct (item_keyword (c :: t)) eqn:K; [|reflexivity]. exfalso. apply keyword_in in K.
    destruct K as [K|[K|K]]; injection K as -> _; destruct H; lia.
Qed.

(** ** Names *)
Definition good_name (n : text) : Prop := ascii_text n /\ squash n <> [].
(** a word that is not one of the item_keywords looked for *)
Definition plain_word (t : text) : Prop :=
  t <> [] /\ Forall (fun c => word_char c = true) t /\ item_keyword t = false.
Lemma ident_word t : Forall (fun c => alnum c = true \/ c = 95) t -> Forall (fun c => word_char c = true) t.
Proof. apply Forall_impl. intros c. unfold alnum, lower, upper, digit_char, word_char. lia. Qed.
Lemma snake_like_word U conv n : good_name n ->
  (forall c, alnum c = true -> alnum (conv c) = true) -> (forall c, c < 128 -> squash [conv c] = squash [c]) ->
  to_case_snake_like U conv n <> [] /\ Forall (fun c => word_char c = true) (to_case_snake_like U conv n).
Proof.
  intros (A & S) Cv Sq. rewrite snake_like_spec by exact A. split.
  - intros E. apply S. rewrite <- (squash_underscored conv false 0 n Sq A), E. reflexivity.
  - apply ident_word, underscored_chars; [now right|]. intros c H. left. now apply Cv.
Qed.
Lemma alnum_small c : alnum c = true -> alnum (small c) = true.
Proof. unfold alnum, small, lower, upper, digit_char. destruct ((65 <=? c) && (c <=? 90)) eqn:X; lia. Qed.
Lemma alnum_capital c : alnum c = true -> alnum (capital c) = true.
Proof. unfold alnum, capital, lower, upper, digit_char. destruct ((97 <=? c) && (c <=? 122)) eqn:X; lia. Qed.
Lemma snake_word U n : good_name n ->
  to_snake_case U n <> [] /\ Forall (fun c => word_char c = true) (to_snake_case U n).
Proof.
  intros G. apply (snake_like_word U small n G); [exact alnum_small|]. intros c H. now apply small_case.
Qed.
Lemma not_lower_keyword c t : lower c = false -> item_keyword (c :: t) = false.
Proof.
  intros L. destruct (item_keyword (c :: t)) eqn:K; [|reflexivity]. exfalso. apply keyword_in in K.
  destruct K as [K|[K|K]]; injection K as -> _; discriminate L.
Qed.
Lemma screaming_word U n : good_name n -> plain_word (to_screaming_snake_case U n).
Proof.
  intros G. destruct (snake_like_word U capital n G) as (N & F);
    [exact alnum_capital|intros c H; now apply small_case|].
  split; [exact N|]. split; [exact F|]. change (to_case_snake_like U capital n) with (to_screaming_snake_case U n) in *.
  assert (L : Forall (fun c => lower c = false) (to_screaming_snake_case U n)).
  { unfold to_screaming_snake_case. change to_ascii_uppercase with capital. rewrite snake_like_spec by apply G.
    apply underscored_chars; [reflexivity|]. intros c. unfold alnum, capital, lower, upper, digit_char.
    destruct ((97 <=? c) && (c <=? 122)) eqn:X; lia. }
  destruct (to_screaming_snake_case U n) as [|c t]; [congruence|]. inversion L; subst. now apply not_lower_keyword.
Qed.
Lemma pascal_word U n : good_name n -> plain_word (to_pascal_case U n).
Proof.
  intros (A & S). destruct (pascal_facts U n A) as (E & F).
  assert (N : to_pascal_case U n <> []) by (intros H; apply S; rewrite <- E, H; reflexivity).
  split; [exact N|]. split.
  - eapply Forall_impl; [|exact F]. intros c. unfold alnum, lower, upper, digit_char, word_char. lia.
  - destruct (pascal_first U n A) as [H|(c & t & H & L)]; [congruence|]. rewrite H. now apply not_lower_keyword.
Qed.
Lemma pascal_good U n : good_name n -> good_name (to_pascal_case U n).
Proof.
  intros (A & S). split; [now apply pascal_ascii|]. now rewrite (proj1 (pascal_facts U n A)).
Qed.
Lemma plain_app_under a b : Forall (fun c => word_char c = true) a -> Forall (fun c => word_char c = true) b ->
  plain_word (a ++ 95 :: b).
Proof.
  intros A B. split; [destruct a; discriminate|]. split; [apply Forall_app; split; [exact A|constructor; [reflexivity|exact B]]|].
  destruct (item_keyword (a ++ 95 :: b)) eqn:K; [|reflexivity]. exfalso. apply keyword_in in K.
  assert (I : In 95 (a ++ 95 :: b)) by apply in_elt.
  destruct K as [K|[K|K]]; rewrite K in I; cbn in I; intuition discriminate.
Qed.

(** ** The text of one attribute *)
Definition env_of (f : filling) (i : nat) : text :=
  match i with
  | 0%nat => f_method f
  | 1%nat => f_type_id f
  | 2%nat => dec_text (f_type_value f)
  | 3%nat => dec_text (f_fixed_length f)
  | 4%nat => f_value_type f
  | _ => [95]
  end.
Definition sym_of (p : piece) : list sym :=
  match p with
  | T s => of_text (lit_text s)
  | Method => [Ho 0] | TypeId => [Ho 1] | TypeValue => [Ho 2] | FixedLength => [Ho 3] | ValueType => [Ho 4]
  end.
Lemma fill_of_text env t : fill_syms env (of_text t) = t.
Proof. induction t as [|c t IH]; [reflexivity|]. exact (f_equal (cons c) IH). Qed.
Lemma format_syms f t : format f t = fill_syms (env_of f) (flat_map sym_of t).
Proof.
  unfold format. induction t as [|p t IH]; [reflexivity|]. cbn [flat_map]. rewrite IH.
  unfold fill_syms at 2. rewrite flat_map_app. f_equal.
  destruct p; cbn [fill sym_of flat_map fill_sym env_of]; rewrite ?app_nil_r; try reflexivity.
  symmetry. apply fill_of_text.
Qed.
Lemma env_of_word U name typ k i : good_name name ->
  let env := env_of (filling_for U name typ k) in
  (env i <> [] /\ Forall (fun c => word_char c = true) (env i)) /\ (i <> 0%nat -> item_keyword (env i) = false).
Proof.
  intros G env. unfold env. destruct i as [|[|[|[|[|i]]]]]; cbn [env_of filling_for f_method f_type_id f_type_value f_fixed_length f_value_type].
  - split; [exact (snake_word U name G)|congruence].
  - destruct (plain_app_under (to_screaming_snake_case U name) (lit_text "TYPE")) as (A & B & C);
      [apply (screaming_word U name G)|repeat constructor|]. split; [split; assumption|intros _; exact C].
  - destruct (dec_word typ) as (A & B & C). split; [split; assumption|intros _; exact C].
  - destruct (dec_word (match k with KFixedOctets n => n | _ => 0 end)) as (A & B & C).
    split; [split; assumption|intros _; exact C].
  - destruct (pascal_word U name G) as (A & B & C). split; [split; assumption|intros _; exact C].
  - split; [split; [discriminate|repeat constructor]|reflexivity].
Qed.
Definition template_syms (k : kind) : list sym := flat_map sym_of (common_template ++ template_of k).
Lemma fill_app env a b : fill_syms env (a ++ b) = fill_syms env a ++ fill_syms env b.
Proof. apply flat_map_app. Qed.
Lemma fill_hole env i : fill_syms env [Ho i] = env i.
Proof. unfold fill_syms. cbn. apply app_nil_r. Qed.
(** the declarations of the specification with holes *)
Definition st (s : string) : list sym := of_text (tok s).
Definition s_add_signature (k : kind) : list sym :=
  match k with
  | KValueInteger => st ", value: " ++ [Ho 4] ++ st ")"
  | KTaggedValueInteger => st ", tag: Option<&Tag>, value: " ++ [Ho 4] ++ st ")"
  | _ => of_text (add_signature k [])
  end.
Definition s_value_of (k : kind) : list sym :=
  match k with
  | KValueInteger => [Ho 4]
  | KTaggedValueInteger => st "(" ++ [Ho 4] ++ st ", Tag)"
  | _ => of_text (value_of k [])
  end.
Definition s_delete : list sym := st "fn delete_" ++ [Ho 0] ++ st "(packet: &mut Packet) {".
Definition s_add (k : kind) : list sym :=
  st "fn add_" ++ [Ho 0] ++ st "(packet: &mut Packet" ++ s_add_signature k ++ st " {".
Definition s_lookup (k : kind) : list sym :=
  st "fn lookup_" ++ [Ho 0] ++ st "(packet: &Packet) -> Option<" ++
  (if fallible k then st "Result<" ++ s_value_of k ++ st ", AVPError>" else s_value_of k) ++ st "> {".
Definition s_lookup_all (k : kind) : list sym :=
  st "fn lookup_all_" ++ [Ho 0] ++ st "(packet: &Packet) -> " ++
  (if fallible k then st "Result<Vec<" ++ s_value_of k ++ st ">, AVPError>" else st "Vec<" ++ s_value_of k ++ st ">")
  ++ st " {".
Definition s_number : list sym := st "const " ++ [Ho 1] ++ st ": AVPType = " ++ [Ho 2] ++ st ";".
Definition s_declarations (k : kind) : list (list sym) :=
  s_number :: s_delete ::
  match k with
  | KVsa => []
  | KConcatOctets => [s_add k; s_lookup k]
  | _ => [s_add k; s_lookup k; s_lookup_all k]
  end.
Lemma fill_add_signature env k : fill_syms env (s_add_signature k) = add_signature k (env 4%nat).
Proof.
  destruct k; cbn [s_add_signature]; unfold st; rewrite ?fill_app, ?fill_of_text, ?fill_hole; reflexivity.
Qed.
Lemma fill_value_of env k : fill_syms env (s_value_of k) = value_of k (env 4%nat).
Proof.
  destruct k; cbn [s_value_of]; unfold st; rewrite ?fill_app, ?fill_of_text, ?fill_hole; reflexivity.
Qed.
Lemma fill_declarations env k :
  map (fill_syms env) (s_declarations k)
  = (tok "const " ++ env 1%nat ++ tok ": AVPType = " ++ env 2%nat ++ tok ";") :: declarations_fn (env 0%nat) (env 4%nat) k.
Proof.
  assert (A : fill_syms env (s_add k) = declaration_add (env 0%nat) (env 4%nat) k).
  { unfold s_add, declaration_add, st. rewrite !fill_app, !fill_of_text, fill_hole, fill_add_signature. reflexivity. }
  assert (L : fill_syms env (s_lookup k) = declaration_lookup (env 0%nat) (env 4%nat) k).
  { unfold s_lookup, declaration_lookup, st. destruct (fallible k);
      rewrite !fill_app, !fill_of_text, fill_hole, fill_value_of; reflexivity. }
  assert (Al : fill_syms env (s_lookup_all k) = declaration_lookup_all (env 0%nat) (env 4%nat) k).
  { unfold s_lookup_all, declaration_lookup_all, st. destruct (fallible k);
      rewrite !fill_app, !fill_of_text, fill_hole, fill_value_of; reflexivity. }
  assert (M : fill_syms env s_number = tok "const " ++ env 1%nat ++ tok ": AVPType = " ++ env 2%nat ++ tok ";").
  { unfold s_number, st. rewrite !fill_app, !fill_of_text, !fill_hole. reflexivity. }
  assert (D : fill_syms env s_delete = declaration_delete (env 0%nat)).
  { unfold s_delete, st. rewrite !fill_app, !fill_of_text, !fill_hole. reflexivity. }
  unfold s_declarations, declarations_fn. cbn [map]. rewrite M, D. f_equal. f_equal.
  destruct k; cbn [map]; rewrite ?A, ?L, ?Al; reflexivity.
Qed.
Lemma template_ok k : exists ts, srun SBetween (template_syms k) = (ts, SBetween) /\ forallb sure ts = true
  /\ sirun None ts = (map stokens (s_declarations k), None) /\ forallb whole (s_declarations k) = true.
Proof.
  destruct k; (eexists; split; [vm_compute; reflexivity|]; split; [vm_compute; reflexivity|]; split;
    vm_compute; reflexivity).
Qed.

(** what is declared for an attribute *)
Definition attribute_items (U : unicode) (name : text) (typ : N) (k : kind) : list (list token) :=
  map tokens (declaration_number (to_screaming_snake_case U name) (dec_text typ)
              :: declarations_fn (to_snake_case U name) (to_pascal_case U name) k).
Lemma attribute_defines U name typ k : good_name name ->
  defines (attribute_text U name typ k) (attribute_items U name typ k).
Proof.
  intros G. unfold attribute_text. rewrite format_syms. set (env := env_of (filling_for U name typ k)).
  assert (E : attribute_items U name typ k = map (fun d => tokens (fill_syms env d)) (s_declarations k)).
  { rewrite <- map_map, fill_declarations. unfold attribute_items, declaration_number.
    cbn [env env_of filling_for f_type_id f_type_value f_method f_value_type]. rewrite <- app_assoc. reflexivity. }
  rewrite E. destruct (template_ok k) as (ts & R & S & D & W).
  apply (defines_syms env (template_syms k) ts); try assumption.
  - intros i. exact (proj1 (env_of_word U name typ k i G)).
  - intros i. exact (proj2 (env_of_word U name typ k i G)).
Qed.

(** ** The text of the values of an attribute *)
Definition sym_eqb (a b : sym) : bool :=
  match a, b with Ch x, Ch y => x =? y | Ho i, Ho j => Nat.eqb i j | _, _ => false end.
Fixpoint list_eqb {A} (eqb : A -> A -> bool) (a b : list A) : bool :=
  match a, b with
  | [], [] => true
  | x :: a', y :: b' => eqb x y && list_eqb eqb a' b'
  | _, _ => false
  end.
Lemma list_eqb_eq {A} (eqb : A -> A -> bool) : (forall x y, eqb x y = true -> x = y) ->
  forall a b, list_eqb eqb a b = true -> a = b.
Proof.
  intros H a. induction a as [|x a IH]; intros [|y b] E; try discriminate E; [reflexivity|]. cbn in E.
  apply andb_true_iff in E. destruct E as (E1 & E2). f_equal; [now apply H|now apply IH].
Qed.
Definition syms_eqb : list (list (list sym)) -> list (list (list sym)) -> bool := list_eqb (list_eqb (list_eqb sym_eqb)).
Lemma syms_eqb_eq a b : syms_eqb a b = true -> a = b.
Proof.
  apply list_eqb_eq, list_eqb_eq, list_eqb_eq. intros [x|i] [y|j]; cbn; try discriminate; intros E.
  - apply N.eqb_eq in E. congruence.
  - apply Nat.eqb_eq in E. congruence.
Qed.
Definition constant_env (a b : text) (r : text) (t : text) (d : text) (i : nat) : text :=
  match i with 1%nat => a | 2%nat => b | 3%nat => r | 4%nat => t | 5%nat => d | _ => [95] end.
Definition constant_syms (qualified : bool) : list sym :=
  of_text (lit_text "pub const ") ++ [Ho 1] ++ of_text (lit_text "_") ++ [Ho 2] ++ of_text (lit_text ": ")
  ++ (if qualified then [Ho 3] ++ of_text (lit_text "::") else [])
  ++ [Ho 4] ++ of_text (lit_text " = ") ++ [Ho 5] ++ of_text (lit_text ";" ++ [10]).
Lemma constant_text_syms U t rfc v :
  constant_text U t rfc v =
  fill_syms (constant_env (to_screaming_snake_case U t) (to_screaming_snake_case U (rv_name v))
               (match rfc with Some r => lit_text r | None => [95] end) t (dec_text (rv_value v)))
    (constant_syms (match rfc with Some _ => true | None => false end)).
Proof.
  unfold constant_text, constant_syms. destruct rfc; rewrite !fill_app, !fill_of_text, !fill_hole; reflexivity.
Qed.
Lemma plain_env a b r t d : plain_word a -> plain_word b -> plain_word r -> plain_word t -> plain_word d ->
  forall i, plain_word (constant_env a b r t d i).
Proof.
  intros A B R T D [|[|[|[|[|[|i]]]]]]; cbn [constant_env]; try assumption;
    (split; [discriminate|]; split; [repeat constructor|reflexivity]).
Qed.
Definition value_item (U : unicode) (t : text) (rfc : option string) (v : radius_value) : list token :=
  tokens (declaration_value (to_screaming_snake_case U t) (to_screaming_snake_case U (rv_name v))
            (option_map tok rfc) t (dec_text (rv_value v))).
Definition s_value (qualified : bool) : list sym :=
  st "const " ++ [Ho 1] ++ st "_" ++ [Ho 2] ++ st ": " ++ (if qualified then [Ho 3] ++ st "::" else []) ++ [Ho 4]
  ++ st " = " ++ [Ho 5] ++ st ";".
(** texts with holes that have the given declarations, for all words *)
Definition checked (ss : list sym) (decls : list (list sym)) : bool :=
  match srun SBetween ss with
  | (ts, SBetween) =>
      forallb sure ts && forallb whole decls &&
      match sirun None ts with (is, None) => syms_eqb is (map stokens decls) | _ => false end
  | _ => false
  end.
Lemma defines_checked env ss decls : (forall i, plain_word (env i)) -> checked ss decls = true ->
  defines (fill_syms env ss) (map (fun d => tokens (fill_syms env d)) decls).
Proof.
  intros P C. unfold checked in C. destruct (srun SBetween ss) as (ts & m) eqn:R. destruct m; try discriminate C.
  apply andb_true_iff in C. destruct C as (C & E). apply andb_true_iff in C. destruct C as (S & W).
  destruct (sirun None ts) as (is & [o|]) eqn:I; [discriminate E|]. apply syms_eqb_eq in E.
  apply (defines_syms env ss ts); try assumption.
  - intros i. destruct (P i) as (A & B & _). split; assumption.
  - intros i _. apply P.
  - now rewrite I, E.
Qed.
Lemma value_ok q : checked (constant_syms q) [s_value q] = true.
Proof. destruct q; vm_compute; reflexivity. Qed.
Lemma constant_defines U t rfc v : good_name t -> plain_word t -> good_name (rv_name v) ->
  (forall r, rfc = Some r -> plain_word (lit_text r)) ->
  defines (constant_text U t rfc v) [value_item U t rfc v].
Proof.
  intros G Pt Gv Pr. rewrite constant_text_syms.
  set (env := constant_env _ _ _ _ _).
  assert (P : forall i, plain_word (env i)).
  { apply plain_env; try assumption; try now apply screaming_word.
    - destruct rfc; [now apply Pr|]. split; [discriminate|]. split; [repeat constructor|reflexivity].
    - apply dec_word. }
  set (q := match rfc with Some _ => true | None => false end).
  assert (E : [value_item U t rfc v] = map (fun d => tokens (fill_syms env d)) [s_value q]).
  { unfold value_item, declaration_value, s_value, st. cbn [map]. f_equal. f_equal.
    destruct rfc; cbn [q option_map]; rewrite !fill_app, !fill_of_text, !fill_hole; reflexivity. }
  rewrite E. exact (defines_checked env _ _ P (value_ok q)).
Qed.
Lemma defines_lf : defines [10] [].
Proof. exists []. repeat split. Qed.
Definition type_items (t : text) (rfc : option string) : list (list token) :=
  match rfc with Some _ => [] | None => [tokens (declaration_type t)] end.
Lemma values_defines U attr values rfc : good_name attr -> Forall (fun v => good_name (rv_name v)) values ->
  (forall r, rfc = Some r -> plain_word (lit_text r)) ->
  defines (values_text U attr values rfc)
    (type_items (to_pascal_case U attr) rfc ++ map (value_item U (to_pascal_case U attr) rfc) values).
Proof.
  intros G F Pr. unfold values_text. set (t := to_pascal_case U attr).
  assert (Gt : good_name t) by now apply pascal_good. assert (Pt : plain_word t) by now apply pascal_word.
  apply defines_app.
  - destruct rfc; [exact defines_nil|]. cbn [type_items].
    set (env := fun i : nat => match i with 1%nat => t | _ => [95] end).
    assert (P : forall i, plain_word (env i)).
    { intros [|[|i]]; cbn [env]; try exact Pt; (split; [discriminate|]; split; [repeat constructor|reflexivity]). }
    assert (E : [10] ++ lit_text "pub type " ++ t ++ lit_text " = u32;" ++ [10]
                = fill_syms env (of_text ([10] ++ lit_text "pub type ") ++ [Ho 1] ++ of_text (lit_text " = u32;" ++ [10]))).
    { rewrite !fill_app, !fill_of_text, fill_hole. reflexivity. }
    rewrite E. assert (D : [tokens (declaration_type t)]
      = map (fun d => tokens (fill_syms env d)) [st "type " ++ [Ho 1] ++ st " = u32;"]).
    { cbn [map]. unfold st. rewrite !fill_app, !fill_of_text, fill_hole. reflexivity. }
    rewrite D. apply (defines_checked env _ _ P). vm_compute. reflexivity.
  - rewrite <- (app_nil_r (map _ values)). apply defines_app; [|exact defines_lf].
    induction F as [|v values Gv F IH]; [exact defines_nil|]. cbn [flat_map map].
    change (?a :: ?b) with ([a] ++ b). apply defines_app; [|exact IH]. now apply constant_defines.
Qed.

(** ** The header *)
Lemma join_lines_flat f ls : ls <> [] ->
  join_lines (map f ls) ++ [10] = flat_map (fun l : text => f l ++ [10]) ls.
Proof.
  induction ls as [|l ls IH]; [congruence|]. intros _. destruct ls as [|l2 ls].
  - cbn. now rewrite app_nil_r.
  - assert (N : l2 :: ls <> []) by discriminate. specialize (IH N).
    change (join_lines (map f (l :: l2 :: ls))) with (f l ++ 10 :: join_lines (map f (l2 :: ls))).
    change (flat_map (fun l : text => f l ++ [10]) (l :: l2 :: ls))
      with ((f l ++ [10]) ++ flat_map (fun l : text => f l ++ [10]) (l2 :: ls)).
    rewrite <- IH, <- !app_assoc. reflexivity.
Qed.
Lemma defines_documentation ls : Forall (fun l => ~ In 10 l) ls ->
  defines (lit_text "//! " ++ join_lines (map (fun l => lit_text "//! " ++ l) ls) ++ [10]) [].
Proof.
  intros F. destruct ls as [|l ls].
  - apply (defines_comment (lit_text "! ")). cbn. intuition discriminate.
  - rewrite join_lines_flat by discriminate. cbn [flat_map]. inversion F as [|? ? L F']; subst. rewrite app_assoc.
    change (@nil (list token)) with ([] ++ @nil (list token)). apply defines_app.
    + rewrite app_assoc. change (lit_text "//! ") with ([47; 47] ++ lit_text "! ").
      rewrite <- !app_assoc. change ((?a ++ ?b) ++ ?c) with (a ++ b ++ c).
      rewrite (app_assoc (lit_text "! ") _ _), (app_assoc _ l [10]).
      rewrite <- app_assoc with (l := lit_text "! ").
      rewrite (app_assoc (lit_text "! ")). apply (defines_comment (lit_text "! " ++ ([47; 47] ++ lit_text "! ") ++ l)).
      intros I. apply in_app_iff in I. destruct I as [I|I]; [cbn in I; intuition discriminate|].
      apply in_app_iff in I. destruct I as [I|I]; [cbn in I; intuition discriminate|]. now apply L.
    + clear L F. induction F' as [|x ls L F IH]; [exact defines_nil|]. cbn [flat_map].
      change (@nil (list token)) with ([] ++ @nil (list token)). apply defines_app; [|exact IH].
      apply (defines_comment (lit_text "! " ++ x)).
      intros I. apply in_app_iff in I. destruct I as [I|I]; [cbn in I; intuition discriminate|]. now apply L.
Qed.
Lemma defines_closed t ts : srun SBetween (of_text t) = (ts, SBetween) -> forallb sure ts = true ->
  sirun None ts = ([], None) -> defines t [].
Proof.
  intros R S D. rewrite <- (fill_of_text (fun _ => [95]) t).
  change (@nil (list token)) with (map (fun d => tokens (fill_syms (fun _ => [95]) d)) []).
  apply (defines_syms (fun _ => [95]) (of_text t) ts []); try assumption; try reflexivity.
  intros _. split; [discriminate|repeat constructor].
Qed.
Lemma defines_concat ts : Forall (fun t => defines t []) ts -> defines (concat ts) [].
Proof.
  induction 1 as [|t ts H F IH]; [exact defines_nil|]. exact (defines_app t (concat ts) [] [] H IH).
Qed.
Lemma header_defines earlier rfc ls : plain_word (lit_text rfc) -> Forall (fun r => plain_word (lit_text r)) earlier ->
  Forall (fun l => ~ In 10 l) ls -> defines (header_text earlier rfc ls) [].
Proof.
  intros P Pe F. unfold header_text.
  change (lit_text "// Code generated by machine generator; DO NOT EDIT.

//! Utility for ") with (([47; 47] ++ lit_text " Code generated by machine generator; DO NOT EDIT." ++ [10])
                          ++ [10] ++ [47; 47] ++ lit_text "! Utility for ").
  change (lit_text " packet.
//!
//! This module handles the packet according to the following definition:
//! ```text
//! ") with (lit_text " packet." ++ [10] ++ ([47; 47] ++ lit_text "!" ++ [10]) ++
             ([47; 47] ++ lit_text "! This module handles the packet according to the following definition:" ++ [10]) ++
             ([47; 47] ++ lit_text "! ```text" ++ [10]) ++ lit_text "//! ").
  change (lit_text "
//! ```

use std::net::{Ipv4Addr, Ipv6Addr};

use chrono::{DateTime, Utc};

use crate::core::avp::{AVP, AVPType, AVPError};
use crate::core::packet::Packet;
use crate::core::tag::Tag;

") with ([10] ++ lit_text "//! ```

use std::net::{Ipv4Addr, Ipv6Addr};

use chrono::{DateTime, Utc};

use crate::core::avp::{AVP, AVPType, AVPError};
use crate::core::packet::Packet;
use crate::core::tag::Tag;

").
  pose (u := lit_text "! Utility for " ++ lit_text rfc ++ lit_text " packet.").
  pose (doc := lit_text "//! " ++ join_lines (map (fun l => lit_text "//! " ++ l) ls) ++ [10]).
  match goal with |- context [([10] ++ ?i) ++ flat_map ?f earlier] => pose (imp := i); pose (uses := flat_map f earlier) end.
  match goal with |- defines ?t _ => assert (E : t = concat [
    [47; 47] ++ lit_text " Code generated by machine generator; DO NOT EDIT." ++ [10]; [10];
    [47; 47] ++ u ++ [10]; [47; 47] ++ lit_text "!" ++ [10];
    [47; 47] ++ lit_text "! This module handles the packet according to the following definition:" ++ [10];
    [47; 47] ++ lit_text "! ```text" ++ [10]; doc; imp; uses]) end.
  { unfold u, doc, imp, uses. cbn [concat]. rewrite app_nil_r, <- !app_assoc. reflexivity. }
  rewrite E. apply defines_concat. repeat (constructor; try exact defines_lf).
  - apply defines_comment. cbn. intuition discriminate.
  - apply defines_comment. unfold u. intros I. rewrite !in_app_iff in I.
    destruct I as [I|[I|I]]; try (cbn in I; intuition discriminate).
    destruct P as (_ & W & _). rewrite Forall_forall in W. specialize (W _ I). discriminate W.
  - apply defines_comment. cbn. intuition discriminate.
  - apply defines_comment. cbn. intuition discriminate.
  - apply defines_comment. cbn. intuition discriminate.
  - now apply defines_documentation.
  - eapply defines_closed; vm_compute; reflexivity.
  - unfold uses. clear - Pe. induction Pe as [|r rs P Pe IH]; [exact defines_nil|]. cbn [flat_map].
    change (@nil (list token)) with ([] ++ @nil (list token)); apply defines_app; [|exact IH].
    set (env := fun i : nat => match i with 1%nat => lit_text r | _ => [95] end).
    assert (Pl : forall i, plain_word (env i)).
    { intros [|[|i]]; cbn [env]; try exact P; (split; [discriminate|]; split; [repeat constructor|reflexivity]). }
    assert (E : lit_text "use crate::core::" ++ lit_text r ++ lit_text ";" ++ [10]
                = fill_syms env (of_text (lit_text "use crate::core::") ++ [Ho 1] ++ of_text (lit_text ";" ++ [10]))).
    { rewrite !fill_app, !fill_of_text, fill_hole. reflexivity. }
    rewrite E. change (@nil (list token)) with (map (fun d => tokens (fill_syms env d)) []).
    apply (defines_checked env _ [] Pl). vm_compute. reflexivity.
Qed.
