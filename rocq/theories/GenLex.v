(** * Reading the generated text: tokens of a template

    The templates of GenText.v have names and numbers in them that come from a dictionary.  Here is what
    Rust.v's lexer makes of a template for all names and numbers. *)
From Coq Require Import String Ascii List NArith Bool Strings.Byte Lia ZifyBool ZifyNat ZifyN Decimal DecimalString DecimalN DecimalPos.
From Verif Require Import Prelude CodeGen Inflect GenText Rust.
Import ListNotations.
Local Open Scope string_scope.
Local Open Scope N_scope.
Local Open Scope list_scope.

(** ** Decimal numbers *)
Fixpoint all_chars (p : ascii -> bool) (s : string) : bool :=
  match s with EmptyString => true | String c s' => p c && all_chars p s' end.
Lemma all_chars_app p a b : all_chars p (a ++ b) = all_chars p a && all_chars p b.
Proof. induction a as [|c a IH]; cbn; [reflexivity|]. now rewrite IH, andb_assoc. Qed.
Lemma uint_digits d : all_chars is_digit (NilEmpty.string_of_uint d) = true.
Proof. induction d; cbn [NilEmpty.string_of_uint all_chars]; [reflexivity|now rewrite IHd..]. Qed.
Lemma digits_acc d : forall p, digits 10 (Npos p) (NilEmpty.string_of_uint d) = Some (Npos (Pos.of_uint_acc d p)).
Proof.
  induction d; intro p; cbn [NilEmpty.string_of_uint digits Pos.of_uint_acc]; [reflexivity|..];
    match goal with |- context [code_of ?c =? 95] => change (code_of c =? 95) with false end; cbv iota;
    match goal with |- context [digit_value 10 ?c] => let v := eval vm_compute in (digit_value 10 c) in change (digit_value 10 c) with v end;
    cbv iota; rewrite <- IHd; f_equal; lia.
Qed.
Lemma digits_uint d : digits 10 0 (NilEmpty.string_of_uint d) = Some (N.of_uint d).
Proof.
  induction d; cbn [NilEmpty.string_of_uint digits]; [reflexivity|..];
    match goal with |- context [code_of ?c =? 95] => change (code_of c =? 95) with false end; cbv iota;
    match goal with |- context [digit_value 10 ?c] => let v := eval vm_compute in (digit_value 10 c) in change (digit_value 10 c) with v end;
    cbv iota; [exact IHd|..];
    match goal with |- digits 10 ?x _ = _ => let v := eval vm_compute in x in change x with v end; rewrite digits_acc; reflexivity.
Qed.
Lemma to_uint_not_nil n : N.to_uint n <> Nil.
Proof. destruct n as [|p]; [discriminate|]. apply DecimalPos.Unsigned.to_uint_nonnil. Qed.
Lemma dec_string n : dec n = NilEmpty.string_of_uint (N.to_uint n).
Proof. unfold dec, NilZero.string_of_uint. destruct (N.to_uint n) eqn:E; [|reflexivity..]. now apply to_uint_not_nil in E. Qed.
Lemma dec_digits n : all_chars is_digit (dec n) = true.
Proof. rewrite dec_string. apply uint_digits. Qed.
Lemma dec_nonempty n : exists c s, dec n = String c s /\ is_digit c = true.
Proof.
  pose proof (dec_digits n) as D. rewrite dec_string in *. destruct (N.to_uint n) eqn:E; [now apply to_uint_not_nil in E|..];
    (cbn in D |- *; eexists _, _; split; reflexivity).
Qed.
Lemma number_digits s : all_chars is_digit s = true -> Rust.number s = digits 10 0 s.
Proof.
  destruct s as [|a [|b [|c s]]]; try reflexivity. cbn [all_chars]. intro D. unfold Rust.number.
  unfold is_digit in D. replace (code_of b =? 120) with false by lia. replace (code_of b =? 98) with false by lia.
  now rewrite !andb_false_r.
Qed.
Lemma dec_token n : word_token (dec n) = TNum n.
Proof.
  destruct (dec_nonempty n) as (c & s & E & D). unfold word_token. rewrite E, D, <- E.
  rewrite number_digits by apply dec_digits. rewrite dec_string, digits_uint, DecimalN.Unsigned.of_to. reflexivity.
Qed.

(** ** Strings *)
Lemma string_app_assoc (a b c : string) : ((a ++ b) ++ c = a ++ (b ++ c))%string.
Proof. induction a as [|x a IH]; cbn; [reflexivity|]. now rewrite IH. Qed.
Lemma string_app_nil (a : string) : (a ++ "" = a)%string.
Proof. induction a as [|x a IH]; cbn; [reflexivity|]. now rewrite IH. Qed.
Lemma rev_rev s : forall t acc, rev_string (rev_string s t) acc = rev_string t (s ++ acc).
Proof. induction s as [|c s IH]; intros t acc; [reflexivity|]. cbn [rev_string]. now rewrite IH. Qed.
Lemma rev_twice s : rev_string (rev_string s "") "" = s.
Proof. rewrite rev_rev. cbn [rev_string]. apply string_app_nil. Qed.
Lemma rev_app a : forall b acc, rev_string (a ++ b) acc = rev_string b (rev_string a acc).
Proof. induction a as [|c a IH]; intros b acc; [reflexivity|]. cbn. apply IH. Qed.

(** ** What is put into a template *)
Record env := Env { v_method : string; v_type_id : string; v_type_value : N; v_fixed_length : N; v_value_type : string }.
Definition value_of (e : env) (p : piece) : string :=
  match p with
  | T s => s
  | Method => v_method e
  | TypeId => v_type_id e
  | TypeValue => dec (v_type_value e)
  | FixedLength => dec (v_fixed_length e)
  | ValueType => v_value_type e
  end.
Fixpoint rendered (e : env) (ps : list piece) : string :=
  match ps with [] => "" | p :: ps => (value_of e p ++ rendered e ps)%string end.
Definition number_of (e : env) (p : piece) : N := match p with FixedLength => v_fixed_length e | _ => v_type_value e end.
Definition begins (s : string) : bool := match s with String c _ => negb (is_digit c) | EmptyString => false end.
(** The words are words; the ones that may stand alone begin with no digit.  [alone]: the method, too. *)
Record words (alone : bool) (e : env) : Prop := Words {
  w_method : all_chars is_word (v_method e) = true;
  w_method_begins : alone = true -> begins (v_method e) = true;
  w_type_id : all_chars is_word (v_type_id e) = true /\ begins (v_type_id e) = true;
  w_value_type : all_chars is_word (v_value_type e) = true /\ begins (v_value_type e) = true }.

(** ** The lexer on a template *)
(** a token with something put in, and the state of the lexer in the middle of one *)
Inductive stoken := Plain (t : token) | Word (before : string) (p : piece) | Num (p : piece) | Text (before : string) (p : piece) (after : string).
Inductive smode := Mode (m : lex_mode) | InWord (before : string) (p : piece) | InNum (p : piece) | InText (before : string) (p : piece) (after : string).
Definition the_token (e : env) (t : stoken) : token :=
  match t with
  | Plain t => t
  | Word b p => TId (b ++ value_of e p)
  | Num p => TNum (number_of e p)
  | Text b p a => TStr (b ++ dec (number_of e p) ++ a)
  end.
Definition the_mode (e : env) (m : smode) : lex_mode :=
  match m with
  | Mode m => m
  | InWord b p => LWord (rev_string (b ++ value_of e p) "")
  | InNum p => LWord (rev_string (dec (number_of e p)) "")
  | InText b p a => LString (rev_string (b ++ dec (number_of e p) ++ a) "") false
  end.
Definition sound (e : env) (m : smode) : Prop :=
  match m with
  | InWord b p => begins (b ++ value_of e p) = true
  | _ => True
  end.
Definition read (m : smode) (c : ascii) : option (list stoken * smode) :=
  match m with
  | Mode m => let '(ts, m') := lex_char m c in Some (map Plain ts, Mode m')
  | InWord b p => if is_word c || (code_of c =? 34) then None else Some ([Word b p], Mode (lex_base c))
  | InNum p => if is_word c || (code_of c =? 34) then None else Some ([Num p], Mode (lex_base c))
  | InText b p a =>
      if code_of c =? 92 then None
      else if code_of c =? 34 then Some ([Text b p a], Mode LBase)
      else Some ([], InText b p (a ++ String c ""))
  end.
Fixpoint read_all (m : smode) (s : string) : option (list stoken * smode) :=
  match s with
  | EmptyString => Some ([], m)
  | String c s =>
      match read m c with
      | Some (ts, m) => match read_all m s with Some (ts', m) => Some (ts ++ ts', m) | None => None end
      | None => None
      end
  end.
Definition is_number (p : piece) : bool := match p with TypeValue | FixedLength => true | _ => false end.
Definition may_begin (alone : bool) (p : piece) : bool :=
  match p with TypeId | ValueType => true | Method => alone | _ => false end.
Definition put (alone : bool) (m : smode) (p : piece) : option (list stoken * smode) :=
  match p with
  | T s => read_all m s
  | TypeValue | FixedLength =>
      match m with
      | Mode LBase => Some ([], InNum p)
      | Mode (LPunct q) => Some ([Plain (TP q)], InNum p)
      | Mode (LString s false) => Some ([], InText (rev_string s "") p "")
      | _ => None
      end
  | _ =>
      match m with
      | Mode LBase => if may_begin alone p then Some ([], InWord "" p) else None
      | Mode (LPunct q) => if may_begin alone p then Some ([Plain (TP q)], InWord "" p) else None
      | Mode (LWord w) => if begins (rev_string w "") then Some ([], InWord (rev_string w "") p) else None
      | Mode LLine => Some ([], m)
      | _ => None
      end
  end.
Fixpoint put_all (alone : bool) (m : smode) (ps : list piece) : option (list stoken * smode) :=
  match ps with
  | [] => Some ([], m)
  | p :: ps =>
      match put alone m p with
      | Some (ts, m) => match put_all alone m ps with Some (ts', m) => Some (ts ++ ts', m) | None => None end
      | None => None
      end
  end.

Lemma begins_token w : begins w = true -> word_token w = TId w.
Proof. destruct w as [|c w]; [discriminate|]. cbn. now destruct (is_digit c). Qed.
Lemma read_sound e m c ts m' : sound e m -> read m c = Some (ts, m') ->
  lex_char (the_mode e m) c = (map (the_token e) ts, the_mode e m') /\ sound e m'.
Proof.
  intros S H. destruct m as [m|b p|p|b p a]; cbn [read the_mode sound] in *.
  - destruct (lex_char m c) as [us m1]. injection H as <- <-. split; [|exact I]. cbn [the_mode]. f_equal.
    rewrite map_map. cbn [the_token]. now rewrite map_id.
  - destruct (is_word c || (code_of c =? 34)) eqn:E; [discriminate|]. injection H as <- <-.
    apply orb_false_elim in E as [E1 E2]. split; [|exact I]. cbn [lex_char the_mode map the_token].
    rewrite E1, E2, rev_twice. cbn [andb]. now rewrite begins_token.
  - destruct (is_word c || (code_of c =? 34)) eqn:E; [discriminate|]. injection H as <- <-.
    apply orb_false_elim in E as [E1 E2]. split; [|exact I]. cbn [lex_char the_mode map the_token].
    rewrite E1, E2, rev_twice. cbn [andb]. now rewrite dec_token.
  - destruct (code_of c =? 92) eqn:E1; [discriminate|]. destruct (code_of c =? 34) eqn:E2; injection H as <- <-; (split; [|exact I]).
    + cbn [lex_char the_mode map the_token]. now rewrite E1, E2, rev_twice.
    + cbn [lex_char the_mode map the_token]. rewrite E1, E2. do 2 f_equal.
      rewrite <- !string_app_assoc. rewrite (rev_app _ (String c "")). reflexivity.
Qed.
Lemma read_all_sound e s : forall m ts m' rest, sound e m -> read_all m s = Some (ts, m') ->
  lex_from (the_mode e m) (s ++ rest) = map (the_token e) ts ++ lex_from (the_mode e m') rest /\ sound e m'.
Proof.
  induction s as [|c s IH]; intros m ts m' rest S H; cbn [read_all] in H.
  - injection H as <- <-. auto.
  - destruct (read m c) as [[t1 m1]|] eqn:E; [|discriminate]. destruct (read_all m1 s) as [[t2 m2]|] eqn:F; [|discriminate].
    injection H as <- <-. destruct (read_sound e _ _ _ _ S E) as [R S1]. destruct (IH _ _ _ rest S1 F) as [R2 S2].
    split; [|exact S2]. cbn [append lex_from]. rewrite R, R2. now rewrite map_app, app_assoc.
Qed.
Lemma lex_words w : all_chars is_word w = true -> forall acc rest,
  lex_from (LWord acc) (w ++ rest) = lex_from (LWord (rev_string w acc)) rest.
Proof.
  induction w as [|c w IH]; intros H acc rest; [reflexivity|]. cbn [all_chars] in H. apply andb_prop in H as [H1 H2].
  cbn [append lex_from lex_char rev_string]. rewrite H1. cbn [app]. now apply IH.
Qed.
Lemma word_begin c : is_word c = true -> lex_base c = LWord (String c "").
Proof.
  intro H. unfold lex_base. rewrite H. replace (is_blank c) with false; [reflexivity|].
  unfold is_word, is_blank, is_digit, is_upper in *. lia.
Qed.
Lemma last_char p c : forall q d, (p ++ String c "" = q ++ String d "")%string -> c = d.
Proof.
  induction p as [|x p IH]; intros [|y q] d H; cbn in H.
  - now injection H.
  - injection H as -> H. destruct q; discriminate H.
  - injection H as -> H. destruct p; discriminate H.
  - injection H as -> H. now apply (IH q).
Qed.
Lemma word_ends c p : is_word c = true -> mem (p ++ String c "") long_punctuation = false.
Proof.
  intro H. assert (X : forall q d, is_word d = false -> String.eqb (p ++ String c "") (q ++ String d "") = false).
  { intros q d D. apply String.eqb_neq. intro E. apply last_char in E. subst. congruence. }
  unfold long_punctuation. cbn [mem].
  replace (String.eqb (p ++ String c "") "::") with false by (symmetry; exact (X ":" ":"%char eq_refl)).
  replace (String.eqb (p ++ String c "") "->") with false by (symmetry; exact (X "-" ">"%char eq_refl)).
  replace (String.eqb (p ++ String c "") "=>") with false by (symmetry; exact (X "=" ">"%char eq_refl)).
  replace (String.eqb (p ++ String c "") "==") with false by (symmetry; exact (X "=" "="%char eq_refl)).
  replace (String.eqb (p ++ String c "") "!=") with false by (symmetry; exact (X "!" "="%char eq_refl)).
  replace (String.eqb (p ++ String c "") "<=") with false by (symmetry; exact (X "<" "="%char eq_refl)).
  replace (String.eqb (p ++ String c "") ">=") with false by (symmetry; exact (X ">" "="%char eq_refl)).
  replace (String.eqb (p ++ String c "") "&&") with false by (symmetry; exact (X "&" "&"%char eq_refl)).
  replace (String.eqb (p ++ String c "") "||") with false by (symmetry; exact (X "|" "|"%char eq_refl)).
  replace (String.eqb (p ++ String c "") "..") with false by (symmetry; exact (X "." "."%char eq_refl)).
  replace (String.eqb (p ++ String c "") "..=") with false by (symmetry; exact (X ".." "="%char eq_refl)).
  replace (String.eqb (p ++ String c "") "+=") with false by (symmetry; exact (X "+" "="%char eq_refl)).
  replace (String.eqb (p ++ String c "") "-=") with false by (symmetry; exact (X "-" "="%char eq_refl)).
  replace (String.eqb (p ++ String c "") "*=") with false by (symmetry; exact (X "*" "="%char eq_refl)).
  reflexivity.
Qed.
Lemma lex_begin w rest : all_chars is_word w = true -> w <> "" ->
  lex_from LBase (w ++ rest) = lex_from (LWord (rev_string w "")) rest
  /\ forall q, lex_from (LPunct q) (w ++ rest) = TP q :: lex_from (LWord (rev_string w "")) rest.
Proof.
  destruct w as [|c w]; [congruence|]. intros H _. cbn [all_chars] in H. apply andb_prop in H as [H1 H2].
  cbn [append lex_from lex_char rev_string]. split; [|intro q].
  - rewrite word_begin by assumption. cbn [app]. now rewrite lex_words.
  - rewrite word_ends, word_begin by assumption. cbn [app]. now rewrite lex_words.
Qed.
Lemma lex_line w rest : all_chars (fun c => negb (code_of c =? 10)) w = true -> lex_from LLine (w ++ rest) = lex_from LLine rest.
Proof.
  induction w as [|c w IH]; intro H; [reflexivity|]. cbn [all_chars] in H. apply andb_prop in H as [H1 H2].
  cbn [append lex_from lex_char]. destruct (code_of c =? 10); [discriminate|]. now apply IH.
Qed.
Lemma lex_in_string w : all_chars is_digit w = true -> forall acc rest,
  lex_from (LString acc false) (w ++ rest) = lex_from (LString (rev_string w acc) false) rest.
Proof.
  induction w as [|c w IH]; intros H acc rest; [reflexivity|]. cbn [all_chars] in H. apply andb_prop in H as [H1 H2].
  cbn [append lex_from lex_char rev_string]. unfold is_digit in H1.
  replace (code_of c =? 92) with false by lia. replace (code_of c =? 34) with false by lia. cbn [app]. now apply IH.
Qed.
Lemma chars_impl (p q : ascii -> bool) s : (forall c, p c = true -> q c = true) -> all_chars p s = true -> all_chars q s = true.
Proof.
  intros I. induction s as [|c s IH]; [reflexivity|]. cbn [all_chars]. intro H. apply andb_prop in H as [H1 H2].
  rewrite (I _ H1). now apply IH.
Qed.
Lemma digit_word c : is_digit c = true -> is_word c = true.
Proof. unfold is_word. now intros ->. Qed.
Lemma word_line c : is_word c = true -> negb (code_of c =? 10) = true.
Proof. unfold is_word, is_digit, is_upper. lia. Qed.
Lemma begins_nonempty w : begins w = true -> w <> "".
Proof. now destruct w. Qed.
Lemma begins_app a b : begins a = true -> begins (a ++ b) = true.
Proof. now destruct a. Qed.
Lemma word_value alone e p : words alone e -> is_number p = false -> (forall s, p <> T s) ->
  all_chars is_word (value_of e p) = true /\ (may_begin alone p = true -> begins (value_of e p) = true).
Proof.
  intros [M MB [A1 A2] [B1 B2]] N P. destruct p; cbn [value_of may_begin] in *; try discriminate N; auto.
  now destruct (P s).
Qed.
Lemma put_sound alone e : words alone e -> forall p m ts m' rest, sound e m -> put alone m p = Some (ts, m') ->
  lex_from (the_mode e m) (value_of e p ++ rest) = map (the_token e) ts ++ lex_from (the_mode e m') rest /\ sound e m'.
Proof.
  intros We p m ts m' rest S H. destruct (is_number p) eqn:N.
  - assert (V : value_of e p = dec (number_of e p)) by (destruct p; try discriminate N; reflexivity).
    assert (H' : match m with
      | Mode LBase => Some ([], InNum p)
      | Mode (LPunct q) => Some ([Plain (TP q)], InNum p)
      | Mode (LString s false) => Some ([], InText (rev_string s "") p "")
      | _ => None
      end = Some (ts, m')) by (destruct p; try discriminate N; exact H).
    clear H. rename H' into H. rewrite V. pose proof (dec_digits (number_of e p)) as D.
    assert (Dw : all_chars is_word (dec (number_of e p)) = true) by (eapply chars_impl; [exact digit_word|exact D]).
    assert (Dn : dec (number_of e p) <> "") by (destruct (dec_nonempty (number_of e p)) as (? & ? & -> & _); discriminate).
    destruct (lex_begin _ rest Dw Dn) as [L1 L2].
    destruct m as [[]| | |]; try discriminate H.
    + injection H as <- <-. split; [exact L1|exact I].
    + injection H as <- <-. split; [apply L2|exact I].
    + destruct escaped; [discriminate H|]. injection H as <- <-. split; [|exact I]. cbn [map app the_mode].
      rewrite (lex_in_string _ D). rewrite string_app_nil, rev_app. cbn [rev_string]. do 2 f_equal. now rewrite rev_twice.
  - destruct p as [s| | | | |]; try discriminate N; [now apply read_all_sound|..].
    all: match type of H with put _ _ ?p = _ => destruct (word_value alone e p We N ltac:(discriminate)) as [W B] end.
    all: cbn [put] in H; destruct m as [[]| | |]; try discriminate H;
      repeat match type of H with (if ?b then _ else _) = _ => destruct b eqn:?; [|discriminate H] end; injection H as <- <-.
    all: try (destruct (lex_begin _ rest W (begins_nonempty _ (B eq_refl))) as [L1 L2]; cbn [map app the_mode sound append the_token]; split; [first [exact L1|apply L2]|exact (B eq_refl)]).
    all: try (split; [|exact I]; apply lex_line; eapply chars_impl; [exact word_line|exact W]).
    all: try (cbn [map app the_mode sound]; rewrite (lex_words _ W), rev_app, rev_twice; split; [reflexivity|now apply begins_app]).
Qed.
Lemma put_all_sound alone e : words alone e -> forall ps m ts m' rest, sound e m -> put_all alone m ps = Some (ts, m') ->
  lex_from (the_mode e m) (rendered e ps ++ rest) = map (the_token e) ts ++ lex_from (the_mode e m') rest /\ sound e m'.
Proof.
  intros We. induction ps as [|p ps IH]; intros m ts m' rest S H; cbn [put_all] in H.
  - injection H as <- <-. auto.
  - destruct (put alone m p) as [[t1 m1]|] eqn:E; [|discriminate]. destruct (put_all alone m1 ps) as [[t2 m2]|] eqn:F; [|discriminate].
    injection H as <- <-. cbn [rendered]. rewrite string_app_assoc.
    destruct (put_sound alone e We _ _ _ _ (rendered e ps ++ rest) S E) as [R S1].
    destruct (IH _ _ _ rest S1 F) as [R2 S2]. split; [|exact S2]. rewrite R, R2. now rewrite map_app, app_assoc.
Qed.

(** ** A text that is complete tokens *)
Definition lexes (s : string) (ts : list token) : Prop :=
  forall rest, lex_from LBase (s ++ rest) = ts ++ lex_from LBase rest.
Lemma lexes_app a b ts us : lexes a ts -> lexes b us -> lexes (a ++ b) (ts ++ us).
Proof. intros A B rest. rewrite string_app_assoc, A, B. apply app_assoc. Qed.
Lemma lexes_nil : lexes "" [].
Proof. intro rest. reflexivity. Qed.
(** the tokens of a template *)
Definition template_tokens (alone : bool) (ps : list piece) : list stoken :=
  match put_all alone (Mode LBase) ps with Some (ts, Mode LBase) => ts | _ => [] end.
Definition complete (alone : bool) (ps : list piece) : bool :=
  match put_all alone (Mode LBase) ps with Some (_, Mode LBase) => true | _ => false end.
Lemma template_lexes alone e ps : words alone e -> complete alone ps = true ->
  lexes (rendered e ps) (map (the_token e) (template_tokens alone ps)).
Proof.
  intros We C rest. unfold complete, template_tokens in *.
  destruct (put_all alone (Mode LBase) ps) as [[ts m]|] eqn:E; [|discriminate].
  destruct m as [[]| | |]; try discriminate C. exact (proj1 (put_all_sound alone e We ps (Mode LBase) ts _ rest I E)).
Qed.
Lemma templates_complete k : complete false (common_template ++ template_of k) = true.
Proof. destruct k; vm_compute; reflexivity. Qed.
