(** * The text of the generated modules (C69-C73) *)
From Coq Require Import String List NArith ZArith Bool Arith Lia ZifyBool ZifyNat ZifyN.
From Verif Require Import Prelude Accessors Rfc CodeGen Dicts CodeGenSpec CodeGenFacts Inflect GenText Sources
  SourceSpec InflectFacts LexFacts GenTextFacts.
Import ListNotations.
Local Open Scope N_scope.
Local Open Scope list_scope.

(** the committed files as texts *)
Definition source_text (ls : list string) : text := flat_map (fun l => lit l ++ [10]) ls.
Definition committed : list (string * text) := map (fun s => (fst s, source_text (snd s))) source_lines.

(** ** C69: the committed modules and the generator *)

Fixpoint tokens_eqb (a b : list token) : bool :=
  match a, b with
  | [], [] => true
  | x :: a', y :: b' => text_eqb x y && tokens_eqb a' b'
  | _, _ => false
  end.
Lemma tokens_eqb_eq a b : tokens_eqb a b = true -> a = b.
Proof.
  revert b. induction a as [|x a IH]; intros [|y b]; try discriminate; [reflexivity|]. cbn.
  intros H. apply andb_true_iff in H. destruct H as (X & Y). apply text_eqb_eq in X. f_equal; auto.
Qed.
Fixpoint all2 {A B} (f : A -> B -> bool) (a : list A) (b : list B) : bool :=
  match a, b with
  | [], [] => true
  | x :: a', y :: b' => f x y && all2 f a' b'
  | _, _ => false
  end.
Lemma all2_Forall2 {A B} (f : A -> B -> bool) a b : all2 f a b = true -> Forall2 (fun x y => f x y = true) a b.
Proof.
  revert b. induction a as [|x a IH]; intros [|y b]; try discriminate; constructor; apply andb_true_iff in H; [tauto|].
  apply IH. tauto.
Qed.
Definition same_module (m s : string * text) : bool :=
  String.eqb (fst m) (fst s) &&
  (String.eqb (fst s) "rfc2865" ||
   (tokens_eqb (code (snd m)) (code (snd s)) &&
    forallb (fun p => existsb (tokens_eqb p) (imports (snd m))) (imports (snd s)))).
Definition check_modules (U : unicode) (od : N -> bool) (dicts cs : list (string * text)) : bool :=
  match generated_texts U od dicts with
  | Ok texts => all2 same_module texts cs
  | _ => false
  end.
Lemma check_modules_sound U od dicts cs : check_modules U od dicts cs = true -> exists texts,
  generated_texts U od dicts = Ok texts /\
  Forall2 (fun m s => fst m = fst s /\
             (fst s <> "rfc2865"%string ->
              same_code (snd m) (snd s) /\ incl (imports (snd s)) (imports (snd m))))
    texts cs.
Proof.
  intros H. unfold check_modules in H.
  destruct (generated_texts U od dicts) as [texts| | |]; try discriminate H. exists texts.
  split; [reflexivity|]. apply all2_Forall2 in H.
  induction H as [|m s ms ss H F IH]; constructor; [|exact IH].
  unfold same_module in H. apply andb_true_iff in H. destruct H as (E & H). apply String.eqb_eq in E.
  split; [exact E|]. intros Nr. apply orb_true_iff in H. destruct H as [H|H]; [now apply String.eqb_eq in H|].
  apply andb_true_iff in H. destruct H as (C & I). split; [now apply tokens_eqb_eq|].
  intros p Hp. rewrite forallb_forall in I. specialize (I p Hp). apply existsb_exists in I.
  destruct I as (q & Q & X). apply tokens_eqb_eq in X. now subst q.
Qed.
Lemma check_modules_true U od : check_modules U od dictionaries committed = true.
Proof. vm_compute. reflexivity. Qed.

(** Generating the modules again gives the committed files, up to formatting and unused imports:
    all but one. *)
Theorem C69_regenerated_partial : forall U od, exists texts,
  generated_texts U od dictionaries = Ok texts /\
  Forall2 (fun m s => fst m = fst s /\
             (fst s <> "rfc2865"%string ->
              same_code (snd m) (snd s) /\ incl (imports (snd s)) (imports (snd m))))
    texts committed.
Proof. intros U od. exact (check_modules_sound U od dictionaries committed (check_modules_true U od)). Qed.

(** rfc2865.rs has a function in addition, in spite of its first line. *)
Definition vsa_function : text := lit "/// Add `vsa_attribute` vsa value to a packet.
pub fn add_vsa_attribute(packet: &mut Packet, value: &dyn VSA) {
    packet.add(AVP::from_bytes(VENDOR_SPECIFIC_TYPE, &value.message()));
}
".
Fixpoint common_prefix (a b : list token) : list token :=
  match a, b with
  | x :: a', y :: b' => if text_eqb x y then x :: common_prefix a' b' else []
  | _, _ => []
  end.
(** the tokens in common before the function; it begins with a comment, which differs *)
Definition check_extra (U : unicode) (od : N -> bool) (dicts : list (string * text)) (name : string)
  (source extra : text) : bool :=
  match generated_texts U od dicts with
  | Ok (m :: _) =>
      let g := code (snd m) in
      let s := code source in
      let before := common_prefix g s in
      String.eqb (fst m) name &&
      tokens_eqb g (before ++ skipn (List.length before) g) &&
      tokens_eqb s (before ++ tokens extra ++ skipn (List.length before) g)
  | _ => false
  end.
Lemma check_extra_sound U od dicts name source extra : check_extra U od dicts name source extra = true ->
  exists t before after,
  (exists texts, generated_texts U od dicts = Ok texts /\ In (name, t) texts) /\
  code t = before ++ after /\ code source = before ++ tokens extra ++ after.
Proof.
  unfold check_extra. intros H.
  destruct (generated_texts U od dicts) as [[|[n t] texts]| | |] eqn:G; try discriminate H.
  cbv zeta in H. cbn [fst snd] in H. apply andb_true_iff in H. destruct H as (H & S). apply andb_true_iff in H.
  destruct H as (N & T). apply String.eqb_eq in N. apply tokens_eqb_eq in S, T. subst n.
  exists t, (common_prefix (code t) (code source)),
    (skipn (List.length (common_prefix (code t) (code source))) (code t)).
  split; [eexists; split; [reflexivity|now left]|]. split; assumption.
Qed.
Lemma check_2865_true U od :
  check_extra U od dictionaries "rfc2865" (source_text source_rfc2865) vsa_function = true.
Proof. vm_compute. reflexivity. Qed.
Theorem C69_rfc2865 : forall U od, exists t before after,
  (exists texts, generated_texts U od dictionaries = Ok texts /\ In ("rfc2865"%string, t) texts) /\
  code t = before ++ after /\
  code (source_text source_rfc2865) = before ++ tokens vsa_function ++ after.
Proof. intros U od. exact (check_extra_sound _ _ _ _ _ _ (check_2865_true U od)). Qed.
(** So running the generator again loses a function. *)
Theorem C69_regenerated_refuted : forall U od, exists texts,
  generated_texts U od dictionaries = Ok texts /\
  ~ (forall rfc t s, In (rfc, t) texts -> In (rfc, s) committed -> same_code t s).
Proof.
  intros U od. destruct (C69_rfc2865 U od) as (t & b & a & (texts & G & I) & E1 & E2). exists texts.
  split; [exact G|]. intros H. specialize (H _ _ (source_text source_rfc2865) I).
  assert (J : In ("rfc2865"%string, source_text source_rfc2865) committed) by (apply (in_map (fun s => (fst s, source_text (snd s))) source_lines ("rfc2865"%string, source_rfc2865)); left; reflexivity).
  specialize (H J). unfold same_code in H. rewrite E1, E2 in H. apply app_inv_head in H.
  apply (f_equal (@List.length token)) in H. rewrite app_length in H.
  assert (X : (0 < List.length (tokens vsa_function))%nat) by (vm_compute; lia). lia.
Qed.

(** The table of accessors (Rfc.v) has exactly the names that the generator gives them. *)
Theorem C69_identifiers : forall U od, exists mods,
  generate od dictionaries = Ok mods /\
  flat_map (fun m => map (fun g => (gm_name m, to_snake_case U (ga_name g), ga_kind g, ga_typ g)) (gm_attributes m)) mods
    = map (fun e => (e_module e, lit (e_name e), e_kind e, b2n (e_type e))) entries /\
  flat_map (fun m => map (fun t => (gm_name m, to_pascal_case U t)) (gm_types m)) mods
    = map (fun t => (fst t, lit (snd t))) value_types /\
  flat_map (fun m => map (fun c =>
      (gm_name m, to_screaming_snake_case U (to_pascal_case U (gc_attr c)) ++ lit "_" ++ to_screaming_snake_case U (gc_name c),
       gc_module c, to_pascal_case U (gc_attr c), gc_value c)) (gm_constants m)) mods
    = map (fun '(m, c, q, t, v) => (m, lit c, if String.eqb q "" then None else Some q, lit t, v)) values.
Proof. intros U od. eexists. split; [vm_compute; reflexivity|]. split; [|split]; vm_compute; reflexivity. Qed.

(** ** C70: identifiers *)

Section Names.
Context (U : unicode).

Theorem C70_snake_case : forall n, ascii_text n ->
  to_snake_case U n = underscored small false 0 n
  /\ to_screaming_snake_case U n = underscored capital false 0 n.
Proof. intros n A. split; now apply snake_like_spec. Qed.

(** All three conversions keep exactly the letters and digits, in order, up to case. *)
Theorem C70_letters : forall n, ascii_text n ->
  squash (to_snake_case U n) = squash n /\ squash (to_screaming_snake_case U n) = squash n
  /\ squash (to_pascal_case U n) = squash n.
Proof.
  intros n A. destruct (C70_snake_case n A) as (E1 & E2). rewrite E1, E2.
  split; [|split]; [apply squash_underscored; [|exact A]..|now apply pascal_facts]; intros c H; now apply small_case.
Qed.

Lemma snake_chars n : ascii_text n ->
  Forall (fun c => alnum c = true \/ c = 95) (to_snake_case U n)
  /\ Forall (fun c => (alnum c = true \/ c = 95) /\ lower c = false) (to_screaming_snake_case U n).
Proof.
  intros A. destruct (C70_snake_case n A) as (-> & ->). split; apply underscored_chars.
  - now right.
  - intros c H. left. unfold alnum, small, lower, upper, digit_char in *.
    destruct ((65 <=? c) && (c <=? 90)) eqn:X; lia.
  - split; [now right|reflexivity].
  - intros c H. unfold alnum, capital, lower, upper, digit_char in *.
    destruct ((97 <=? c) && (c <=? 122)) eqn:X; lia.
Qed.
Lemma not_keyword t c : In c t -> c <> 83 -> lower c = false -> ~ In t rust_keywords.
Proof.
  intros I Nc L H.
  assert (F : forallb (fun w => forallb (fun c => lower c || (c =? 83)) w) rust_keywords = true) by reflexivity.
  rewrite forallb_forall in F. specialize (F t H). rewrite forallb_forall in F. specialize (F c I).
  rewrite L in F. cbn in F. lia.
Qed.
Lemma word_chars_of t : Forall (fun c => alnum c = true \/ c = 95) t -> Forall (fun c => word_char c = true) t.
Proof. apply Forall_impl. intros c. unfold alnum, lower, upper, digit_char, word_char. lia. Qed.

(** Function names are always legal; *)
Theorem C70_function_names : forall n prefix, ascii_text n ->
  In prefix ["add_"; "delete_"; "lookup_"; "lookup_all_"]%string ->
  rust_identifier (lit prefix ++ to_snake_case U n).
Proof.
  intros n prefix A P. destruct (snake_chars n A) as (F & _). split.
  - apply (not_keyword _ 95); [|discriminate|reflexivity]. apply in_app_iff. left.
    destruct P as [<-|[<-|[<-|[<-|[]]]]]; cbn; tauto.
  - destruct P as [<-|[<-|[<-|[<-|[]]]]]; cbn; eexists _, _; (split; [reflexivity|]); (split; [left; reflexivity|]);
      repeat (constructor; [auto|]); exact F.
Qed.
(** constants exactly if the first letter or digit of the name is not a digit. *)
Definition first_is_digit (n : text) : Prop :=
  exists before d after, n = before ++ d :: after /\ digit_char d = true /\ Forall (fun c => alnum c = false) before.
Lemma screaming_first n : ascii_text n ->
  (to_screaming_snake_case U n = [] /\ ~ first_is_digit n) \/
  exists c r, to_screaming_snake_case U n = c :: r /\ (digit_char c = true <-> first_is_digit n)
    /\ (digit_char c = false -> upper c = true).
Proof.
  intros A. destruct (C70_snake_case n A) as (_ & ->).
  destruct (underscored_first capital 0 n) as [(E & S)|(b & c & a & r & E & Al & F & X)].
  - left. split; [exact E|]. intros (b & d & a & -> & D & _). rewrite squash_app in S.
    apply app_eq_nil in S. destruct S as (_ & S). revert S. apply alnum_squash. unfold alnum. rewrite D. now rewrite !orb_true_r.
  - right. exists (capital c), r. split; [exact X|].
    assert (I : digit_char (capital c) = digit_char c).
    { unfold alnum, capital, digit_char, lower, upper in *. destruct ((97 <=? c) && (c <=? 122)) eqn:Y; lia. }
    rewrite I. split.
    + split.
      * intros D. exists b, c, a. auto.
      * intros (b' & d & a' & E' & D & F'). rewrite E in E'.
        assert (Alt : forall (b b' : text) c d a a', b ++ c :: a = b' ++ d :: a' -> alnum c = true -> alnum d = true ->
                        Forall (fun c => alnum c = false) b -> Forall (fun c => alnum c = false) b' -> c = d).
        { clear. induction b as [|x b IH]; intros [|y b'] c d a a' E Ac Ad Fb Fb'; cbn in E; injection E as H E'.
          - exact H.
          - inversion Fb'; subst. congruence.
          - inversion Fb; subst. congruence.
          - inversion Fb; inversion Fb'; subst. eapply IH; eauto. }
        rewrite (Alt _ _ _ _ _ _ E' Al); auto. unfold alnum. rewrite D. now rewrite !orb_true_r.
    + intros D. unfold alnum, capital, digit_char, lower, upper in *. destruct ((97 <=? c) && (c <=? 122)) eqn:Y; lia.
Qed.
Theorem C72_type_constant : forall n, ascii_text n ->
  (rust_identifier (to_screaming_snake_case U n ++ lit "_TYPE") <-> ~ first_is_digit n).
Proof.
  intros n A. destruct (snake_chars n A) as (_ & F).
  assert (K : ~ In (to_screaming_snake_case U n ++ lit "_TYPE") rust_keywords).
  { apply (not_keyword _ 95); [|discriminate|reflexivity]. apply in_app_iff. right. now left. }
  assert (F' : Forall (fun c => alnum c = true \/ c = 95) (to_screaming_snake_case U n)).
  { eapply Forall_impl; [|exact F]. now intros c (H & _). }
  destruct (screaming_first n A) as [(E & D)|(c & r & E & D & Up)]; rewrite E in *.
  - split; [intros _; exact D|]. intros _. split; [exact K|]. exists 95, (lit "TYPE").
    split; [reflexivity|]. split; [right; right; split; [reflexivity|discriminate]|].
    repeat (constructor; [left; reflexivity|]). constructor.
  - split.
    + intros (_ & c' & r' & E' & H & _). injection E' as <- _. rewrite <- D. destruct H as [H|[H|(-> & _)]];
        [|unfold upper, digit_char in *; lia|discriminate].
      unfold lower, digit_char in *. lia.
    + intros H. split; [exact K|]. exists c, (r ++ lit "_TYPE"). split; [reflexivity|].
      destruct (digit_char c) eqn:Dc; [exfalso; apply H, D; reflexivity|]. split; [right; left; auto|].
      apply Forall_app. inversion F' as [|? ? _ Fr]; subst. split; [exact Fr|].
      constructor; [now right|]. repeat (constructor; [left; reflexivity|]). constructor.
Qed.
(** So there are dictionaries for which the generated code cannot be compiled. *)
Theorem C72_identifiers_refuted :
  ~ (forall n, ascii_text n -> squash n <> [] -> rust_identifier (to_screaming_snake_case U n ++ lit "_TYPE")).
Proof.
  intros H. assert (A : ascii_text (lit "3GPP-IMSI")) by (repeat (constructor; [reflexivity|]); constructor).
  apply (proj1 (C72_type_constant _ A)); [apply H; [exact A|discriminate]|].
  exists [], 51, (lit "GPP-IMSI"). repeat split. constructor.
Qed.
End Names.

Example C70_example_names : forall U,
  map (to_snake_case U) (map lit ["User-Name"; "NAS-IPv6-Address"; "WLAN-AKM-Suite"; "3GPP--IMSI-"]%string)
  = map lit ["user_name"; "nas_i_pv_6_address"; "wlan_akm_suite"; "3gpp_imsi"]%string
  /\ map (to_pascal_case U) (map lit ["NAS-Port-Type"; "EAP-Lower-Layer"]%string)
  = map lit ["NasPortType"; "EapLowerLayer"]%string
  /\ to_screaming_snake_case U (lit "IEEE-802.1X") = lit "IEEE_802_1X".
Proof. intros U. vm_compute. repeat split. Qed.

(** ** C71: the declarations in the generated text *)
Section Declarations.
Context (U : unicode).

Lemma spelled_good n : spelled n -> good_name n.
Proof.
  intros (A & c & I & L). split; [exact A|]. apply in_split in I. destruct I as (a & b & ->). rewrite squash_app.
  intros E. apply app_eq_nil in E. destruct E as (_ & E). revert E. now apply alnum_squash.
Qed.
Lemma identifier_plain t : rust_identifier t -> plain_word t.
Proof.
  intros (K & c & r & -> & C & F). split; [discriminate|]. split.
  - constructor; [|now apply word_chars_of]. destruct C as [C|[C|(-> & _)]]; [..|reflexivity];
      unfold lower, upper, word_char in *; lia.
  - destruct (item_keyword (c :: r)) eqn:E; [|reflexivity]. exfalso. apply K. apply keyword_in in E.
    destruct E as [-> | [-> | ->]]; cbn; tauto.
Qed.

Definition usable (m : gen_module) : Prop :=
  Forall (fun g => spelled (ga_name g)) (gm_attributes m) /\ Forall spelled (gm_types m) /\
  Forall (fun c => spelled (gc_attr c) /\ spelled (gc_name c)) (gm_constants m).
Definition snake (n : text) : text := underscored small false 0 n.
Definition capitals (n : text) : text := underscored capital false 0 n.

(** the declarations that the module [m] must have, by keyword *)
Definition functions_for (m : gen_module) : list text :=
  flat_map (fun g => declarations_fn (snake (ga_name g)) (to_pascal_case U (ga_name g)) (ga_kind g)) (gm_attributes m).
Definition types_for (m : gen_module) : list text :=
  map (fun n => declaration_type (to_pascal_case U n)) (gm_types m).
Definition declares (ts : list (list token)) (ds : list text) : Prop := ts = map tokens ds.
(** the constants, [d] being the number in decimal notation *)
Definition number_for (g : gen_attribute) (i : list token) : Prop :=
  exists d, decimal d (ga_typ g) /\ i = tokens (declaration_number (capitals (ga_name g)) d).
Definition value_for (c : gen_constant) (i : list token) : Prop :=
  exists d, decimal d (gc_value c) /\
    i = tokens (declaration_value (capitals (to_pascal_case U (gc_attr c))) (capitals (gc_name c))
                  (option_map tok (gc_module c)) (to_pascal_case U (gc_attr c)) d).

Lemma attributes_text_spec attrs values code : attributes_text U attrs values = Ok code ->
  exists gs, generate_attributes attrs values = Ok gs /\
    code = flat_map (fun g => attribute_text U (ga_name g) (ga_typ g) (ga_kind g)) gs.
Proof.
  revert code. induction attrs as [|a attrs IH]; intros code H; cbn [attributes_text generate_attributes] in *.
  - injection H as <-. exists []. split; reflexivity.
  - destruct (attribute_kind a _) as [k| | |]; cbn [bind] in *; try discriminate H.
    destruct (attributes_text U attrs values) as [t| | |]; cbn [bind] in *; try discriminate H. injection H as <-.
    destruct (IH t eq_refl) as (gs & -> & ->). cbn [bind]. eexists. split; reflexivity.
Qed.
Definition entry_items (names : list (text * string)) (e : text * list radius_value) : list (list token) :=
  type_items (to_pascal_case U (fst e)) (rfc_of names (fst e))
  ++ map (value_item U (to_pascal_case U (fst e)) (rfc_of names (fst e))) (snd e).
Lemma entry_defines names e :
  Forall (fun n => plain_word (lit_text (snd n))) names ->
  (rfc_of names (fst e) = None \/ snd e <> [] -> good_name (fst e)) ->
  Forall (fun v => good_name (rv_name v)) (snd e) ->
  defines (values_text U (fst e) (snd e) (rfc_of names (fst e))) (entry_items names e).
Proof.
  intros P G F. unfold entry_items.
  assert (Pr : forall r, rfc_of names (fst e) = Some r -> plain_word (lit_text r)).
  { intros r H. unfold rfc_of in H. destruct (find _ names) as [x|] eqn:X; [|discriminate H]. injection H as <-.
    apply find_some in X. rewrite Forall_forall in P. now apply P. }
  destruct e as (n & vs). cbn [fst snd] in *. destruct (rfc_of names n) as [r|].
  - destruct vs as [|v vs].
    + exact defines_lf.
    + apply values_defines; auto. apply G. right. discriminate.
  - apply values_defines; auto.
Qed.
Lemma module_defines earlier names rfc t attrs values code :
  Forall (fun r => plain_word (lit_text r)) earlier -> Forall (fun n => plain_word (lit_text (snd n))) names ->
  plain_word (lit_text rfc) ->
  attributes_text U attrs values = Ok code -> exists gs, generate_attributes attrs values = Ok gs /\
  (usable (GenModule rfc gs (generate_types values names) (generate_constants values names)) ->
   defines (header_text earlier rfc (text_lines t) ++ code ++ all_values_text U values names)
     (flat_map (fun g => attribute_items U (ga_name g) (ga_typ g) (ga_kind g)) gs
      ++ flat_map (entry_items names) values)).
Proof.
  intros Pe Pn Pr A. destruct (attributes_text_spec _ _ _ A) as (gs & Gs & ->). exists gs. split; [exact Gs|].
  intros (Ua & Ut & Uc). cbn [gm_attributes gm_types gm_constants] in *.
  apply (defines_app _ _ []).
  { apply header_defines; try assumption. apply (lines_no_lf t). apply lines_are_model. }
  apply defines_app.
  - apply (defines_flat_map (fun g => attribute_text U (ga_name g) (ga_typ g) (ga_kind g))).
    eapply Forall_impl; [|exact Ua]. intros g H. apply attribute_defines. now apply spelled_good.
  - unfold all_values_text.
    apply (defines_flat_map (fun e => values_text U (fst e) (snd e) (rfc_of names (fst e)))).
    apply Forall_forall. intros e I. rewrite Forall_forall in Ut, Uc. unfold generate_types, generate_constants in *.
    apply entry_defines; [exact Pn| |].
    + intros [H|H].
      * apply spelled_good, Ut. apply in_map_iff. exists e. split; [reflexivity|]. apply filter_In. split; [exact I|].
        now rewrite H.
      * destruct (snd e) as [|v vs] eqn:E; [congruence|]. apply spelled_good.
        apply (Uc (GenConstant (fst e) (rv_name v) (rfc_of names (fst e)) (rv_value v))).
        apply in_flat_map. exists e. split; [exact I|]. apply in_map_iff. exists v. split; [reflexivity|]. rewrite E. now left.
    + apply Forall_forall. intros v J. apply spelled_good.
      apply (Uc (GenConstant (fst e) (rv_name v) (rfc_of names (fst e)) (rv_value v))).
      apply in_flat_map. exists e. split; [exact I|]. apply in_map_iff. exists v. split; [reflexivity|exact J].
Qed.

(** selecting by keyword *)
Definition starts (keyword : string) (i : list token) : bool :=
  match i with k :: _ => text_eqb k (tok keyword) | [] => false end.
Lemma tokens_keyword w rest : w <> [] -> Forall (fun c => word_char c = true) w ->
  exists ts, tokens (w ++ 32 :: rest) = w :: ts.
Proof.
  intros N F. unfold tokens. exists (tokens_from Between rest).
  destruct w as [|c w]; [congruence|]. inversion F as [|? ? Wc Fw]; subst.
  assert (H : forall acc, tokens_from (InWord acc) (w ++ 32 :: rest) = rev (rev w ++ acc) :: tokens_from Between rest).
  { clear - Fw. induction Fw as [|c w Wc F IH]; intros acc.
    - cbn. reflexivity.
    - cbn [app tokens_from read_char]. rewrite Wc. cbn [app]. rewrite IH. cbn [rev]. now rewrite <- app_assoc. }
  cbn [app tokens_from read_char]. unfold begin_token. pose proof (word_char_not c Wc) as Wn.
  destruct Wn as (-> & _). rewrite Wc. cbn [app]. rewrite H. f_equal. rewrite rev_app_distr, rev_involutive. reflexivity.
Qed.
Lemma starts_decl kw w rest : kw = tok w -> kw <> [] -> Forall (fun c => word_char c = true) kw ->
  forall k, starts k (tokens (kw ++ 32 :: rest)) = text_eqb (tok w) (tok k).
Proof.
  intros -> N F k. destruct (tokens_keyword (tok w) rest N F) as (ts & ->). reflexivity.
Qed.
Lemma starts_fn x v g k : forall d, In d (declarations_fn x v g) -> starts k (tokens d) = text_eqb (tok "fn") (tok k).
Proof.
  assert (H : forall s r, starts k (tokens (tok "fn " ++ s ++ r)) = text_eqb (tok "fn") (tok k)).
  { intros s r. apply (starts_decl (tok "fn") "fn" (s ++ r)); [reflexivity|discriminate|repeat constructor]. }
  assert (D : starts k (tokens (declaration_delete x)) = text_eqb (tok "fn") (tok k))
    by exact (H (tok "delete_") (x ++ tok "(packet: &mut Packet) {")).
  assert (A : starts k (tokens (declaration_add x v g)) = text_eqb (tok "fn") (tok k))
    by exact (H (tok "add_") (x ++ tok "(packet: &mut Packet" ++ add_signature g v ++ tok " {")).
  assert (L : starts k (tokens (declaration_lookup x v g)) = text_eqb (tok "fn") (tok k))
    by exact (H (tok "lookup_") _).
  assert (Al : starts k (tokens (declaration_lookup_all x v g)) = text_eqb (tok "fn") (tok k))
    by exact (H (tok "lookup_all_") _).
  intros d I. unfold declarations_fn in I. destruct I as [<-|I]; [exact D|].
  destruct g; cbn [In] in I; intuition (subst; assumption).
Qed.
Lemma starts_number X d k : starts k (tokens (declaration_number X d)) = text_eqb (tok "const") (tok k).
Proof. exact (starts_decl (tok "const") "const" _ eq_refl ltac:(discriminate) ltac:(repeat constructor) k). Qed.
Lemma starts_value V X m v d k : starts k (tokens (declaration_value V X m v d)) = text_eqb (tok "const") (tok k).
Proof. exact (starts_decl (tok "const") "const" _ eq_refl ltac:(discriminate) ltac:(repeat constructor) k). Qed.
Lemma starts_type v k : starts k (tokens (declaration_type v)) = text_eqb (tok "type") (tok k).
Proof. exact (starts_decl (tok "type") "type" _ eq_refl ltac:(discriminate) ltac:(repeat constructor) k). Qed.

Lemma filter_all {A} (f : A -> bool) l : (forall x, In x l -> f x = true) -> filter f l = l.
Proof.
  induction l as [|x l IH]; intros H; [reflexivity|]. cbn. rewrite (H x (or_introl eq_refl)). f_equal. apply IH.
  intros y I. apply H. now right.
Qed.
Lemma filter_none {A} (f : A -> bool) l : (forall x, In x l -> f x = false) -> filter f l = [].
Proof.
  induction l as [|x l IH]; intros H; [reflexivity|]. cbn. rewrite (H x (or_introl eq_refl)). apply IH.
  intros y I. apply H. now right.
Qed.
Lemma filter_flat_map {A B} (f : B -> bool) (g : A -> list B) l :
  filter f (flat_map g l) = flat_map (fun x => filter f (g x)) l.
Proof. induction l as [|x l IH]; [reflexivity|]. cbn. now rewrite filter_app, IH. Qed.
Lemma attribute_fn n typ k :
  filter (starts "fn") (attribute_items U n typ k) = map tokens (declarations_fn (to_snake_case U n) (to_pascal_case U n) k).
Proof.
  unfold attribute_items. cbn [map filter]. rewrite starts_number. change (text_eqb (tok "const") (tok "fn")) with false. cbv iota. apply filter_all. intros i I.
  apply in_map_iff in I. destruct I as (d & <- & I). now rewrite (starts_fn _ _ _ _ d I).
Qed.
Lemma attribute_other n typ k kw : text_eqb (tok "fn") (tok kw) = false ->
  filter (starts kw) (attribute_items U n typ k)
  = if text_eqb (tok "const") (tok kw)
    then [tokens (declaration_number (to_screaming_snake_case U n) (dec_text typ))] else [].
Proof.
  intros E. unfold attribute_items. cbn [map filter]. rewrite starts_number.
  rewrite (filter_none (starts kw) (map tokens (declarations_fn _ _ _))).
  - now destruct (text_eqb (tok "const") (tok kw)).
  - intros i I. apply in_map_iff in I. destruct I as (d & <- & I). now rewrite (starts_fn _ _ _ _ d I).
Qed.
Lemma entry_fn names e : filter (starts "fn") (entry_items names e) = [].
Proof.
  unfold entry_items. rewrite filter_app. rewrite (filter_none _ (type_items _ _)), (filter_none _ (map _ _)); [reflexivity|..].
  - intros i I. apply in_map_iff in I. destruct I as (v & <- & I). unfold value_item. now rewrite starts_value.
  - intros i I. unfold type_items in I. destruct (rfc_of names (fst e)); [destruct I|]. destruct I as [<-|[]].
    now rewrite starts_type.
Qed.
Lemma entry_const names e :
  filter (starts "const") (entry_items names e)
  = map (value_item U (to_pascal_case U (fst e)) (rfc_of names (fst e))) (snd e).
Proof.
  unfold entry_items. rewrite filter_app. rewrite (filter_none _ (type_items _ _)), (filter_all _ (map _ _)); [reflexivity|..].
  - intros i I. apply in_map_iff in I. destruct I as (v & <- & I). unfold value_item. now rewrite starts_value.
  - intros i I. unfold type_items in I. destruct (rfc_of names (fst e)); [destruct I|]. destruct I as [<-|[]].
    now rewrite starts_type.
Qed.
Lemma entry_type names e :
  filter (starts "type") (entry_items names e) = type_items (to_pascal_case U (fst e)) (rfc_of names (fst e)).
Proof.
  unfold entry_items. rewrite filter_app. rewrite (filter_all _ (type_items _ _)), (filter_none _ (map _ _)); [apply app_nil_r|..].
  - intros i I. apply in_map_iff in I. destruct I as (v & <- & I). unfold value_item. now rewrite starts_value.
  - intros i I. unfold type_items in I. destruct (rfc_of names (fst e)); [destruct I|]. destruct I as [<-|[]].
    now rewrite starts_type.
Qed.

(** What a module consists of. *)
Definition module_text (m : gen_module) (t : text) : Prop :=
  declares (items_of "fn" t) (functions_for m) /\
  declares (items_of "type" t) (types_for m) /\
  exists numbers values, items_of "const" t = numbers ++ values /\
    Forall2 number_for (gm_attributes m) numbers /\ Forall2 value_for (gm_constants m) values.

Lemma module_of_items names rfc gs values t :
  let m := GenModule rfc gs (generate_types values names) (generate_constants values names) in
  usable m ->
  defines t (flat_map (fun g => attribute_items U (ga_name g) (ga_typ g) (ga_kind g)) gs
             ++ flat_map (entry_items names) values) ->
  module_text m t.
Proof.
  intros m (Ua & Ut & Uc) D. apply defines_items in D.
  change (items_of ?k t) with (filter (starts k) (items t)). unfold module_text, items_of.
  change (fun i => match i with k :: _ => text_eqb k (tok ?kw) | [] => false end) with (starts kw).
  rewrite D. unfold declares. rewrite !filter_app, !filter_flat_map. split; [|split].
  - rewrite (flat_map_ext _ (fun _ => []) (entry_fn names)).
    replace (flat_map (fun _ : text * list radius_value => @nil (list token)) values) with (@nil (list token))
      by (clear; induction values; auto).
    rewrite app_nil_r. unfold functions_for. cbn [gm_attributes m] in *. clear - Ua.
    induction Ua as [|g gs H Ua IH]; [reflexivity|]. cbn [flat_map]. rewrite map_app, <- IH, attribute_fn.
    rewrite (proj1 (C70_snake_case U _ (proj1 H))). reflexivity.
  - rewrite (flat_map_ext _ (fun _ => [])).
    2: { intros g. rewrite attribute_other by reflexivity. reflexivity. }
    replace (flat_map (fun _ : gen_attribute => @nil (list token)) gs) with (@nil (list token))
      by (clear; induction gs; auto).
    rewrite (flat_map_ext _ _ (entry_type names)). cbn [app]. unfold types_for. cbn [gm_types m]. unfold generate_types.
    clear. induction values as [|e values IH]; [reflexivity|]. cbn [flat_map filter].
    rewrite IH. destruct (rfc_of names (fst e)); reflexivity.
  - eexists _, _. split; [reflexivity|]. cbn [gm_attributes gm_constants m] in *. split.
    + clear - Ua. induction Ua as [|g gs H Ua IH]; [constructor|]. cbn [flat_map].
      rewrite attribute_other by reflexivity. cbn [app]. constructor; [|exact IH].
      exists (dec_text (ga_typ g)). split; [apply decimal_dec|].
      rewrite (proj2 (C70_snake_case U _ (proj1 H))). reflexivity.
    + rewrite (flat_map_ext _ _ (entry_const names)). unfold generate_constants in *. clear - Uc.
      assert (E : flat_map (fun e => map (value_item U (to_pascal_case U (fst e)) (rfc_of names (fst e))) (snd e)) values
                = map (fun c => value_item U (to_pascal_case U (gc_attr c)) (gc_module c) (RadiusValue (gc_name c) (gc_value c)))
                    (flat_map (fun e => map (fun v => GenConstant (fst e) (rv_name v) (rfc_of names (fst e)) (rv_value v)) (snd e)) values)).
      { clear. induction values as [|e values IH]; [reflexivity|]. cbn [flat_map]. rewrite map_app, IH, map_map. f_equal.
      }
      rewrite E. clear E. induction Uc as [|c cs (Ga & Gn) Uc IH]; [constructor|]. cbn [map]. constructor; [|exact IH].
      exists (dec_text (gc_value c)). split; [apply decimal_dec|]. unfold value_item. cbn [rv_name rv_value].
      rewrite (proj2 (C70_snake_case U _ (proj1 Gn))).
      rewrite (proj2 (C70_snake_case U _ (pascal_ascii U _ (proj1 Ga)))). reflexivity.
Qed.

(** For all dictionaries whose names are ASCII with a letter or digit each, in files named like modules: the
    generated text of every module declares exactly the functions with the signatures, the numbers, types and
    values that belong to the dictionary, each once and in its order. *)
Theorem C71_declarations : forall od dicts texts,
  Forall (fun d => rust_identifier (tok (fst d))) dicts ->
  generated_texts U od dicts = Ok texts -> exists mods,
  generate od dicts = Ok mods /\
  Forall2 (fun m t => gm_name m = fst t /\ (usable m -> module_text m (snd t))) mods texts.
Proof.
  intros od dicts texts P. unfold generated_texts, generate.
  assert (Pe : Forall (fun r => plain_word (lit_text r)) []) by constructor.
  assert (Pn : Forall (fun n : text * string => plain_word (lit_text (snd n))) []) by constructor.
  revert Pe Pn texts. generalize (@nil string) as earlier. generalize (@nil (text * string)) as names.
  induction P as [|[rfc t] dicts Pd P IH]; intros names earlier Pe Pn texts H; cbn [generate_texts generate_all] in *.
  - injection H as <-. exists []. split; [reflexivity|constructor].
  - destruct (parse_dict_file od t) as [[attrs values]| | |]; try discriminate H.
    destruct (attributes_text U attrs values) as [code| | |] eqn:A; cbn [bind] in H; try discriminate H.
    apply identifier_plain in Pd. cbn [fst] in Pd.
    destruct (module_defines earlier names rfc t attrs values code Pe Pn Pd A) as (gs & -> & D). cbn [bind].
    destruct (generate_texts U od (earlier ++ [rfc]) _ dicts) as [ms| | |] eqn:G; cbn [bind] in H; try discriminate H.
    injection H as <-.
    assert (Pe' : Forall (fun r => plain_word (lit_text r)) (earlier ++ [rfc])).
    { apply Forall_app. split; [exact Pe|]. constructor; [exact Pd|constructor]. }
    assert (Pn' : Forall (fun n => plain_word (lit_text (snd n))) (rev (map (fun a => (ra_name a, rfc)) attrs) ++ names)).
    { apply Forall_app. split; [|exact Pn]. apply Forall_forall. intros x I. apply in_rev in I.
      apply in_map_iff in I. destruct I as (a & <- & _). exact Pd. }
    destruct (IH _ _ Pe' Pn' _ G) as (mods & -> & F).
    cbn [bind]. eexists. split; [reflexivity|]. constructor; [|exact F]. split; [reflexivity|].
    intros Us. cbn [snd]. apply module_of_items; [exact Us|]. now apply D.
Qed.

(** *** Are the defined names distinct? *)
Definition name_of (i : list token) : token := nth 1 i [].
(** [lookup_all_x] exists; [lookup_x] exists *)
Definition has_all (k : kind) : bool := match k with KVsa | KConcatOctets => false | _ => true end.
Definition has_lookup (k : kind) : bool := match k with KVsa => false | _ => true end.

Lemma tokens_word w c rest : w <> [] -> Forall (fun c => word_char c = true) w -> word_char c = false ->
  tokens (w ++ c :: rest) = w :: tokens (c :: rest).
Proof.
  intros N F C. unfold tokens. destruct w as [|d w]; [congruence|]. inversion F as [|? ? Wd Fw]; subst.
  assert (H : forall acc, tokens_from (InWord acc) (w ++ c :: rest) = rev (rev w ++ acc) :: tokens_from Between (c :: rest)).
  { clear - Fw C. induction Fw as [|x w Wx F IH]; intros acc.
    - cbn [app rev tokens_from read_char]. rewrite C. destruct (begin_token c). reflexivity.
    - cbn [app tokens_from read_char]. rewrite Wx. cbn [app]. rewrite IH. cbn [rev]. now rewrite <- app_assoc. }
  change (tokens_from Between ((d :: w) ++ c :: rest)) with (let '(ts, m) := begin_token d in ts ++ tokens_from m (w ++ c :: rest)).
  unfold begin_token. destruct (word_char_not d Wd) as (-> & _). rewrite Wd. cbn [app]. rewrite H. f_equal.
  rewrite rev_app_distr, rev_involutive. reflexivity.
Qed.
Lemma name_declaration p x rest : Forall (fun c => word_char c = true) p -> p <> [] ->
  Forall (fun c => word_char c = true) x ->
  name_of (tokens (tok "fn " ++ p ++ x ++ tok "(" ++ rest)) = p ++ x.
Proof.
  intros Fp Np Fx. change (tok "fn " ++ p ++ x ++ tok "(" ++ rest) with (tok "fn" ++ 32 :: (p ++ x ++ 40 :: rest)).
  rewrite tokens_word; [|discriminate|repeat constructor|reflexivity].
  change (tokens (32 :: p ++ x ++ 40 :: rest)) with (tokens (p ++ x ++ 40 :: rest)).
  rewrite app_assoc, tokens_word; [reflexivity|destruct p; [congruence|discriminate]|now apply Forall_app|reflexivity].
Qed.
Definition function_names (x : text) (k : kind) : list text :=
  (tok "delete_" ++ x) :: match k with
                          | KVsa => []
                          | KConcatOctets => [tok "add_" ++ x; tok "lookup_" ++ x]
                          | _ => [tok "add_" ++ x; tok "lookup_" ++ x; tok "lookup_all_" ++ x]
                          end.
Lemma names_of_declarations x v k : Forall (fun c => word_char c = true) x ->
  map (fun d => name_of (tokens d)) (declarations_fn x v k) = function_names x k.
Proof.
  intros F.
  assert (H : forall p rest, Forall (fun c => word_char c = true) (tok p) -> tok p <> [] ->
    name_of (tokens (tok "fn " ++ tok p ++ x ++ tok "(" ++ rest)) = tok p ++ x)
    by (intros p rest A B; now apply name_declaration).
  assert (D : name_of (tokens (declaration_delete x)) = tok "delete_" ++ x)
    by (apply (H "delete_"%string (tok "packet: &mut Packet) {")); [repeat constructor|discriminate]).
  assert (A : name_of (tokens (declaration_add x v k)) = tok "add_" ++ x)
    by (apply (H "add_"%string (tok "packet: &mut Packet" ++ add_signature k v ++ tok " {")); [repeat constructor|discriminate]).
  assert (L : name_of (tokens (declaration_lookup x v k)) = tok "lookup_" ++ x).
  { unfold declaration_lookup. destruct (fallible k).
    - apply (H "lookup_"%string (tok "packet: &Packet) -> Option<" ++ (tok "Result<" ++ value_of k v ++ tok ", AVPError>") ++ tok "> {"));
        [repeat constructor|discriminate].
    - apply (H "lookup_"%string (tok "packet: &Packet) -> Option<" ++ value_of k v ++ tok "> {")); [repeat constructor|discriminate]. }
  assert (Al : name_of (tokens (declaration_lookup_all x v k)) = tok "lookup_all_" ++ x).
  { unfold declaration_lookup_all. destruct (fallible k).
    - apply (H "lookup_all_"%string (tok "packet: &Packet) -> " ++ (tok "Result<Vec<" ++ value_of k v ++ tok ">, AVPError>") ++ tok " {"));
        [repeat constructor|discriminate].
    - apply (H "lookup_all_"%string (tok "packet: &Packet) -> " ++ (tok "Vec<" ++ value_of k v ++ tok ">") ++ tok " {"));
        [repeat constructor|discriminate]. }
  unfold declarations_fn, function_names. cbn [map]. rewrite D. f_equal.
  destruct k; cbn [map]; rewrite ?A, ?L, ?Al; reflexivity.
Qed.
Lemma function_names_in x k n : In n (function_names x k) <->
  n = tok "delete_" ++ x \/ (has_lookup k = true /\ (n = tok "add_" ++ x \/ n = tok "lookup_" ++ x))
  \/ (has_all k = true /\ n = tok "lookup_all_" ++ x).
Proof.
  unfold function_names. destruct k; cbn [In has_all has_lookup]; intuition (try discriminate; subst; auto).
Qed.
Lemma all_longer x : x <> tok "all_" ++ x.
Proof. intros E. apply (f_equal (@length N)) in E. rewrite app_length in E. cbn in E. lia. Qed.
Lemma function_names_nodup x k : NoDup (function_names x k).
Proof.
  assert (A : tok "lookup_" ++ x <> tok "lookup_all_" ++ x).
  { intros E. change (tok "lookup_all_" ++ x) with (tok "lookup_" ++ (tok "all_" ++ x)) in E.
    apply app_inv_head in E. now apply all_longer in E. }
  destruct k; cbn [function_names]; repeat (constructor; [cbn [In]; intuition (try discriminate; auto)|]); constructor.
Qed.
Lemma NoDup_flat_map {A B} (f : A -> list B) (l : list A) :
  NoDup (flat_map f l) <->
  (Forall (fun a => NoDup (f a)) l /\
   forall a1 x a2 y a3 b, l = a1 ++ x :: a2 ++ y :: a3 -> In b (f x) -> In b (f y) -> False).
Proof.
  induction l as [|a l IH]; cbn [flat_map].
  - split; [|intros _; constructor]. intros _. split; [constructor|]. intros [|] *; discriminate.
  - split.
    + intros N. assert (Na : NoDup (f a)) by (revert N; clear; induction (f a) as [|b bs IH]; [constructor|];
        cbn; intros N; inversion N; subst; constructor; [rewrite in_app_iff in *; tauto|auto]).
      assert (Nl : NoDup (flat_map f l)) by (revert N; clear; induction (f a) as [|b bs IH]; [auto|];
        cbn; intros N; inversion N; subst; auto).
      apply IH in Nl. destruct Nl as (F & D). split; [constructor; assumption|].
      intros [|z a1] x a2 y a3 b E I J; cbn in E; injection E as -> ->.
      * clear - N I J. revert N. induction (f x) as [|c cs IH]; [destruct I|]. cbn. intros N. inversion N; subst.
        destruct I as [->|I]; [|now apply IH]. apply H1. rewrite in_app_iff. right. apply in_flat_map.
        exists y. split; [apply in_elt|exact J].
      * now apply (D a1 x a2 y a3 b).
    + intros (F & D). inversion F as [|? ? Fa Fl]; subst.
      assert (N : NoDup (flat_map f l)).
      { apply IH. split; [exact Fl|]. intros a1 x a2 y a3 b E. apply (D (a :: a1) x a2 y a3 b). cbn. now rewrite E. }
      assert (X : forall b, In b (f a) -> ~ In b (flat_map f l)).
      { intros b I J. apply in_flat_map in J. destruct J as (y & Iy & J). apply in_split in Iy.
        destruct Iy as (a2 & a3 & ->). exact (D [] a a2 y a3 b eq_refl I J). }
      clear - Fa N X. induction Fa as [|b bs Nb Fa IH]; [exact N|]. cbn. constructor.
      * rewrite in_app_iff. intros [I|I]; [now apply Nb|]. apply (X b); [now left|exact I].
      * apply IH. intros c I. apply X. now right.
Qed.
Lemma NoDup_names (names : list text) : NoDup names <->
  forall a1 x a2 y a3, names = a1 ++ x :: a2 ++ y :: a3 -> x <> y.
Proof.
  split.
  - intros N a1 x a2 y a3 -> ->. apply NoDup_remove_2 in N. apply N. rewrite !in_app_iff. right. right. now left.
  - induction names as [|n names IH]; intros H; constructor.
    + intros I. apply in_split in I. destruct I as (a2 & a3 & ->). now apply (H [] n a2 n a3).
    + apply IH. intros a1 x a2 y a3 E. apply (H (n :: a1) x a2 y a3). cbn. now rewrite E.
Qed.
Lemma split_map {A B} (f : A -> B) l b1 x b2 y b3 : map f l = b1 ++ x :: b2 ++ y :: b3 ->
  exists a1 a a2 a' a3, l = a1 ++ a :: a2 ++ a' :: a3 /\ f a = x /\ f a' = y.
Proof.
  intros E. apply map_eq_app in E. destruct E as (a1 & l1 & -> & _ & E). destruct l1 as [|a l1]; [discriminate E|].
  cbn in E. injection E as Ea E. apply map_eq_app in E. destruct E as (a2 & l2 & -> & _ & E).
  destruct l2 as [|a' l2]; [discriminate E|]. cbn in E. injection E as Ea' E. exists a1, a, a2, a', l2. auto.
Qed.
(** The functions of a module have distinct names exactly if the attributes have distinct names in snake case and
    none has the name of another one with [all_] in front of it. *)
Theorem C73_functions_distinct : forall m, usable m ->
  (NoDup (map (fun d => name_of (tokens d)) (functions_for m)) <->
   NoDup (map (fun g => snake (ga_name g)) (gm_attributes m)) /\
   forall a b, In a (gm_attributes m) -> In b (gm_attributes m) ->
     has_all (ga_kind a) = true -> has_lookup (ga_kind b) = true ->
     snake (ga_name b) <> tok "all_" ++ snake (ga_name a)).
Proof.
  intros m (Ua & _). unfold functions_for. generalize dependent (gm_attributes m). intros gs Ua.
  assert (E : map (fun d => name_of (tokens d))
                (flat_map (fun g => declarations_fn (snake (ga_name g)) (to_pascal_case U (ga_name g)) (ga_kind g)) gs)
              = flat_map (fun g => function_names (snake (ga_name g)) (ga_kind g)) gs).
  { induction Ua as [|g gs H Ua IH]; [reflexivity|]. cbn [flat_map]. rewrite map_app, IH, names_of_declarations; [reflexivity|].
    unfold snake. rewrite <- (proj1 (C70_snake_case U _ (proj1 H))). apply word_chars_of. now apply snake_chars, H. }
  rewrite E. clear E Ua. rewrite NoDup_flat_map, NoDup_names. split.
  - intros (_ & D). split.
    + intros a1 x a2 y a3 E. apply split_map in E. destruct E as (b1 & a & b2 & b & b3 & Eg & <- & <-). intros X.
      apply (D _ _ _ _ _ (tok "delete_" ++ snake (ga_name a)) Eg); apply function_names_in; left; [reflexivity|now rewrite X].
    + intros a b Ia Ib Ha Hb X.
      assert (Ja : In (tok "lookup_all_" ++ snake (ga_name a)) (function_names (snake (ga_name a)) (ga_kind a)))
        by (apply function_names_in; auto).
      assert (Jb : In (tok "lookup_all_" ++ snake (ga_name a)) (function_names (snake (ga_name b)) (ga_kind b))).
      { apply function_names_in. right. left. split; [exact Hb|]. right. rewrite X. reflexivity. }
      apply in_split in Ia. destruct Ia as (l1 & l2 & ->). rewrite in_app_iff in Ib. destruct Ib as [Ib|[<-|Ib]].
      * apply in_split in Ib. destruct Ib as (l3 & l4 & ->). rewrite <- app_assoc in D. eapply D; [reflexivity|exact Jb|exact Ja].
      * now apply all_longer in X.
      * apply in_split in Ib. destruct Ib as (l3 & l4 & ->). eapply D; [reflexivity|exact Ja|exact Jb].
  - intros (N & D). split.
    + apply Forall_forall. intros g _. apply function_names_nodup.
    + intros a1 a a2 b a3 n -> Ia Ib.
      assert (X : snake (ga_name a) <> snake (ga_name b)).
      { apply (N (map (fun g => snake (ga_name g)) a1) _ (map (fun g => snake (ga_name g)) a2) _
                 (map (fun g => snake (ga_name g)) a3)). rewrite map_app. cbn [map]. rewrite map_app. reflexivity. }
      assert (Ma : In a (a1 ++ a :: a2 ++ b :: a3)) by apply in_elt.
      assert (Mb : In b (a1 ++ a :: a2 ++ b :: a3)) by (rewrite in_app_iff; right; right; apply in_elt).
      apply function_names_in in Ia. apply function_names_in in Ib.
      assert (L : forall u v : text, tok "lookup_all_" ++ u = tok "lookup_" ++ v -> v = tok "all_" ++ u).
      { intros u v H. change (tok "lookup_all_" ++ u) with (tok "lookup_" ++ (tok "all_" ++ u)) in H.
        apply app_inv_head in H. now symmetry. }
      destruct Ia as [->|[(Ha & [-> | ->])|(Ha & ->)]], Ib as [I|[(Hb & [I|I])|(Hb & I)]]; try discriminate I;
        try (apply app_inv_head in I; now apply X).
      * symmetry in I. apply L in I. now apply (D b a Mb Ma Hb Ha).
      * apply L in I. now apply (D a b Ma Mb Ha Hb).
Qed.
End Declarations.

(** The 24 dictionaries meet the conditions, *)
Definition spelledb (n : text) : bool := forallb (fun c => c <? 128) n && existsb alnum n.
Lemma spelledb_ok n : spelledb n = true -> spelled n.
Proof.
  unfold spelledb. intros H. apply andb_true_iff in H. destruct H as (A & E). split.
  - apply Forall_forall. rewrite forallb_forall in A. intros c I. specialize (A c I). lia.
  - apply existsb_exists in E. exact E.
Qed.
Definition usableb (m : gen_module) : bool :=
  forallb (fun g => spelledb (ga_name g)) (gm_attributes m) && forallb spelledb (gm_types m)
  && forallb (fun c => spelledb (gc_attr c) && spelledb (gc_name c)) (gm_constants m).
Lemma usableb_ok m : usableb m = true -> usable m.
Proof.
  unfold usableb, usable. intros H. apply andb_true_iff in H. destruct H as (H & C). apply andb_true_iff in H. destruct H as (A & T).
  rewrite forallb_forall in A, T, C. repeat split; apply Forall_forall.
  - intros g I. now apply spelledb_ok, A.
  - intros n I. now apply spelledb_ok, T.
  - intros c I. specialize (C c I). apply andb_true_iff in C. destruct C. split; now apply spelledb_ok.
Qed.
Definition identifierb (t : text) : bool :=
  negb (existsb (text_eqb t) rust_keywords) &&
  match t with c :: r => lower c && forallb alnum r | [] => false end.
Lemma identifierb_ok t : identifierb t = true -> rust_identifier t.
Proof.
  unfold identifierb. intros H. apply andb_true_iff in H. destruct H as (K & H). split.
  - intros I. apply negb_true_iff in K. assert (existsb (text_eqb t) rust_keywords = true); [|congruence].
    apply existsb_exists. exists t. split; [exact I|apply text_eqb_refl].
  - destruct t as [|c r]; [discriminate H|]. apply andb_true_iff in H. destruct H as (L & F).
    exists c, r. split; [reflexivity|]. split; [now left|]. apply Forall_forall. rewrite forallb_forall in F. intros x I.
    left. now apply F.
Qed.
Definition all_usable (od : N -> bool) (dicts : list (string * text)) : bool :=
  forallb (fun d => identifierb (tok (fst d))) dicts &&
  match generate od dicts with Ok mods => forallb usableb mods | _ => false end.
Lemma all_usable_sound od dicts : all_usable od dicts = true ->
  Forall (fun d => rust_identifier (tok (fst d))) dicts /\ exists mods, generate od dicts = Ok mods /\ Forall usable mods.
Proof.
  unfold all_usable. intros H. apply andb_true_iff in H. destruct H as (I & H). rewrite forallb_forall in I. split.
  - apply Forall_forall. intros d J. now apply identifierb_ok, I.
  - destruct (generate od dicts) as [mods| | |]; try discriminate H. exists mods. split; [reflexivity|].
    rewrite forallb_forall in H. apply Forall_forall. intros m J. now apply usableb_ok, H.
Qed.
Lemma committed_usable od : all_usable od dictionaries = true.
Proof. vm_compute. reflexivity. Qed.
Example C71_example_usable : forall od, Forall (fun d => rust_identifier (tok (fst d))) dictionaries /\
  exists mods, generate od dictionaries = Ok mods /\ Forall usable mods.
Proof. intros od. exact (all_usable_sound od dictionaries (committed_usable od)). Qed.
(** so that the text of each of the 24 generated modules is known; *)
Lemma Forall2_usable {A B} (P : A -> Prop) (Q : A -> B -> Prop) (R : A -> B -> Prop) l l' :
  Forall P l -> Forall2 (fun a b => R a b /\ (P a -> Q a b)) l l' -> Forall2 (fun a b => R a b /\ Q a b) l l'.
Proof.
  intros F F2. induction F2 as [|a b l l' (H1 & H2) F2 IH]; [constructor|]. inversion F; subst. constructor; auto.
Qed.
Theorem C71_committed_declarations : forall U od, exists mods texts,
  generate od dictionaries = Ok mods /\ generated_texts U od dictionaries = Ok texts /\
  Forall2 (fun m t => gm_name m = fst t /\ module_text U m (snd t)) mods texts.
Proof.
  intros U od. destruct (C69_regenerated_partial U od) as (texts & G & _).
  destruct (C71_example_usable od) as (I & mods & Gm & Us).
  destruct (C71_declarations U od dictionaries texts I G) as (mods' & Gm' & F). rewrite Gm in Gm'. injection Gm' as <-.
  exists mods, texts. split; [exact Gm|]. split; [exact G|]. now apply (Forall2_usable usable).
Qed.
(** in the committed files no name is defined twice. *)
Fixpoint texts_distinct (l : list text) : bool :=
  match l with [] => true | x :: l' => negb (existsb (text_eqb x) l') && texts_distinct l' end.
Lemma texts_distinct_ok l : texts_distinct l = true -> NoDup l.
Proof.
  induction l as [|x l IH]; cbn; [constructor|]. rewrite andb_true_iff, negb_true_iff. intros (H & D). constructor; [|auto].
  intros I. assert (existsb (text_eqb x) l = true); [|congruence]. apply existsb_exists. exists x. split; [exact I|apply text_eqb_refl].
Qed.
Definition names_distinct (s : string * text) : bool := texts_distinct (map name_of (items (snd s))).
Lemma names_distinct_sound cs : forallb names_distinct cs = true -> Forall (fun s => NoDup (map name_of (items (snd s)))) cs.
Proof.
  intros H. rewrite forallb_forall in H. apply Forall_forall. intros s I. apply texts_distinct_ok. exact (H s I).
Qed.
Lemma committed_distinct : forallb names_distinct committed = true.
Proof. vm_compute. reflexivity. Qed.
Theorem C73_committed_distinct : Forall (fun s => NoDup (map name_of (items (snd s)))) committed.
Proof. exact (names_distinct_sound committed committed_distinct). Qed.

(** In general they are not distinct: [Foo] and [All-Foo] are two attributes with one function [lookup_all_foo]. *)
Definition foo_dictionary : list (string * text) :=
  [("rfc1"%string, lit "ATTRIBUTE Foo 1 string" ++ [10] ++ lit "ATTRIBUTE All-Foo 2 string" ++ [10])].
Fixpoint repeated (l : list text) : bool :=
  match l with [] => false | x :: l' => existsb (text_eqb x) l' || repeated l' end.
Lemma repeated_ok l : repeated l = true -> ~ NoDup l.
Proof.
  induction l as [|x l IH]; cbn; [discriminate|]. intros H N. inversion N; subst. apply orb_true_iff in H.
  destruct H as [H|H]; [|now apply IH]. apply existsb_exists in H. destruct H as (y & I & E). apply text_eqb_eq in E. now subst.
Qed.
Definition text_repeats (od : N -> bool) (U : unicode) : bool :=
  match generated_texts U od foo_dictionary with Ok [m] => repeated (map name_of (items_of "fn" (snd m))) | _ => false end.
Theorem C73_distinct_refuted : ~ (forall U od dicts texts,
  generated_texts U od dicts = Ok texts ->
  (forall mods, generate od dicts = Ok mods ->
     Forall usable mods /\ Forall (fun m => NoDup (map (fun g => snake (ga_name g)) (gm_attributes m))) mods) ->
  Forall (fun t => NoDup (map name_of (items_of "fn" (snd t)))) texts).
Proof.
  intros H. set (U := Unicode (fun _ => false) (fun _ => false) (fun _ => false) (fun _ => false)).
  assert (E : text_repeats (fun _ => false) U = true) by (vm_compute; reflexivity).
  unfold text_repeats in E. specialize (H U (fun _ => false) foo_dictionary).
  destruct (generated_texts U (fun _ => false) foo_dictionary) as [[|m [|]]| | |]; try discriminate E.
  specialize (H _ eq_refl).
  assert (F : Forall (fun t => NoDup (map name_of (items_of "fn" (snd t)))) [m]).
  { apply H. intros mods G. vm_compute in G. injection G as <-. split.
    - constructor; [|constructor]. apply usableb_ok. vm_compute. reflexivity.
    - constructor; [|constructor]. apply texts_distinct_ok. vm_compute. reflexivity. }
  inversion F; subst. revert H2. now apply repeated_ok.
Qed.

Example C71_example_items :
  items (lit "pub const A_TYPE: AVPType = 7; pub fn add_a(packet: &mut Packet) { packet.x(); } pub type T = u32;")
  = map (map lit) [["const"; "A_TYPE"; ":"; "AVPType"; "="; "7"; ";"]; ["fn"; "add_a"; "("; "packet"; ":"; "&"; "mut"; "Packet"; ")"; "{"];
                   ["type"; "T"; "="; "u32"; ";"]]%string.
Proof. vm_compute. reflexivity. Qed.

(** * Assumptions *)
Print Assumptions C69_regenerated_partial.
Print Assumptions C69_rfc2865.
Print Assumptions C69_regenerated_refuted.
Print Assumptions C69_identifiers.
Print Assumptions C70_snake_case.
Print Assumptions C70_letters.
Print Assumptions C70_function_names.
Print Assumptions C72_type_constant.
Print Assumptions C72_identifiers_refuted.
Print Assumptions C71_declarations.
Print Assumptions C73_functions_distinct.
Print Assumptions C71_committed_declarations.
Print Assumptions C73_committed_distinct.
Print Assumptions C73_distinct_refuted.
