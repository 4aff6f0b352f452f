(** * Texts and their UTF-8 encoding: what the interpreter does on octets is what the model does on scalar values *)
From Coq Require Import String List NArith ZArith Bool Arith Strings.Byte Strings.Ascii Lia ZifyBool ZifyNat ZifyN.
From Verif Require Import Prelude PreludeFacts Utf8 AvpSpec Accessors CodeGen CodeGenSpec CodeGenFacts Inflect GenText GenTextFacts Rust RustEval.
Import ListNotations.
Local Open Scope string_scope.
Local Open Scope N_scope.
Local Open Scope list_scope.

Lemma utf8_text_app a b : utf8_text (a ++ b) = utf8_text a ++ utf8_text b.
Proof. apply flat_map_app. Qed.
Lemma utf8_text_cons c t : utf8_text (c :: t) = utf8_char c ++ utf8_text t.
Proof. reflexivity. Qed.
Lemma utf8_text_flat {A} (f : A -> text) l : utf8_text (flat_map f l) = flat_map (fun x => utf8_text (f x)) l.
Proof. induction l as [|x l IH]; [reflexivity|]. cbn [flat_map]. now rewrite utf8_text_app, IH. Qed.

(** ** Decoding *)
Fixpoint utf8_decode (b : bytes) : text :=
  match b with
  | [] => []
  | b0 :: r =>
      let x := b2n b0 in
      if x <? 0x80 then x :: utf8_decode r
      else match r with
           | [] => []
           | b1 :: r =>
               let y := b2n b1 - 0x80 in
               if x <? 0xE0 then ((x - 0xC0) * 64 + y) :: utf8_decode r
               else match r with
                    | [] => []
                    | b2 :: r =>
                        let z := b2n b2 - 0x80 in
                        if x <? 0xF0 then ((x - 0xE0) * 4096 + y * 64 + z) :: utf8_decode r
                        else match r with
                             | [] => []
                             | b3 :: r => ((x - 0xF0) * 262144 + y * 4096 + z * 64 + (b2n b3 - 0x80)) :: utf8_decode r
                             end
                    end
           end
  end.
Lemma utf8_decode_char c r : scalar c -> utf8_decode (utf8_char c ++ r) = c :: utf8_decode r.
Proof.
  intro S. unfold scalar in S. unfold utf8_char.
  destruct (c <? 0x80) eqn:E1; [|destruct (c <? 0x800) eqn:E2; [|destruct (c <? 0x10000) eqn:E3]];
    cbn [app utf8_decode]; rewrite ?b2n_n2b_small by lia.
  - now rewrite E1.
  - replace (0xC0 + c / 64 <? 0x80) with false by lia. replace (0xC0 + c / 64 <? 0xE0) with true by lia. f_equal. lia.
  - replace (0xE0 + c / 4096 <? 0x80) with false by lia. replace (0xE0 + c / 4096 <? 0xE0) with false by lia.
    replace (0xE0 + c / 4096 <? 0xF0) with true by lia. f_equal. lia.
  - replace (0xF0 + c / 262144 <? 0x80) with false by lia. replace (0xF0 + c / 262144 <? 0xE0) with false by lia.
    replace (0xF0 + c / 262144 <? 0xF0) with false by lia. f_equal. lia.
Qed.
Lemma utf8_decode_text t : Forall scalar t -> utf8_decode (utf8_text t) = t.
Proof.
  induction 1 as [|c t S _ IH]; [reflexivity|]. rewrite utf8_text_cons, utf8_decode_char by exact S. now rewrite IH.
Qed.
Lemma utf8_text_inj a b : Forall scalar a -> Forall scalar b -> utf8_text a = utf8_text b -> a = b.
Proof. intros A B E. rewrite <- (utf8_decode_text a A), <- (utf8_decode_text b B). now rewrite E. Qed.

Lemma text_eqb_eq a b : text_eqb a b = true <-> a = b.
Proof.
  revert b; induction a as [|x a IH]; intros [|y b]; cbn; split; try discriminate; try reflexivity.
  - intro H. apply andb_prop in H. destruct H as [H1 H2]. apply N.eqb_eq in H1. apply IH in H2. congruence.
  - intro H. injection H as -> ->. rewrite N.eqb_refl. now apply IH.
Qed.
Lemma utf8_eqb a b : Forall scalar a -> Forall scalar b -> bytes_eqb (utf8_text a) (utf8_text b) = text_eqb a b.
Proof.
  intros A B. destruct (text_eqb a b) eqn:E.
  - apply text_eqb_eq in E. subst. apply bytes_eqb_refl.
  - destruct (bytes_eqb (utf8_text a) (utf8_text b)) eqn:F; [|reflexivity].
    apply bytes_eqb_eq in F. apply utf8_text_inj in F; try assumption. apply text_eqb_eq in F. congruence.
Qed.

(** ** ASCII *)
Fixpoint ascii_string (s : string) : bool :=
  match s with EmptyString => true | String c s' => (N_of_ascii c <? 128) && ascii_string s' end.
Lemma utf8_lit s : ascii_string s = true -> bytes_of_string s = utf8_text (lit_text s).
Proof.
  induction s as [|c s IH]; [reflexivity|]. cbn [ascii_string]. intro H. apply andb_prop in H. destruct H as [H1 H2].
  change (bytes_of_string (String c s)) with (byte_of_ascii c :: bytes_of_string s).
  change (lit_text (String c s)) with (N_of_ascii c :: lit_text s). rewrite utf8_text_cons.
  unfold utf8_char. rewrite H1. cbn [app]. rewrite IH by exact H2. f_equal.
  apply b2n_inj. rewrite b2n_n2b_small by lia. destruct c as [[] [] [] [] [] [] [] []]; reflexivity.
Qed.
Lemma scalar_small t : Forall (fun c => c < 128) t -> Forall scalar t.
Proof. intro H. eapply Forall_impl; [|exact H]. intros c L. left. cbn beta in L. lia. Qed.
Lemma lit_small s : ascii_string s = true -> Forall (fun c => c < 128) (lit_text s).
Proof.
  induction s as [|c s IH]; [constructor|]. cbn [ascii_string]. intro H. apply andb_prop in H. destruct H as [H1 H2].
  constructor; [lia|now apply IH].
Qed.
Lemma lit_scalar s : ascii_string s = true -> Forall scalar (lit_text s).
Proof. intro H. apply scalar_small. now apply lit_small. Qed.
Lemma ascii_uint u : ascii_string (DecimalString.NilEmpty.string_of_uint u) = true.
Proof. induction u; [reflexivity|..]; exact IHu. Qed.
Lemma ascii_dec n : ascii_string (dec n) = true.
Proof. unfold dec, DecimalString.NilZero.string_of_uint. destruct (N.to_uint n); [reflexivity|..]; apply ascii_uint. Qed.
Lemma utf8_dec n : bytes_of_string (dec n) = utf8_text (dec_text n).
Proof. apply utf8_lit, ascii_dec. Qed.
Lemma utf8_eqb_lit a s : Forall scalar a -> ascii_string s = true -> bytes_eqb (utf8_text a) (bytes_of_string s) = text_eqb a (text_of_string s).
Proof. intros A H. rewrite (utf8_lit s H). apply utf8_eqb; [exact A|now apply lit_scalar]. Qed.

(** ** Order *)
Lemma bytes_ltb_app a b c : bytes_ltb (a ++ b) (a ++ c) = bytes_ltb b c.
Proof. induction a as [|x a IH]; [reflexivity|]. cbn [app bytes_ltb]. now rewrite N.ltb_irrefl. Qed.
Ltac decide_ltb :=
  repeat match goal with
  | |- context [if ?x <? ?y then _ else _] => first [ replace (x <? y) with true by lia | replace (x <? y) with false by lia | destruct (x <? y) eqn:? ]
  end; try reflexivity; try lia.
Lemma ltb_char c d x y : scalar c -> scalar d -> c < d ->
  bytes_ltb (utf8_char c ++ x) (utf8_char d ++ y) = true /\ bytes_ltb (utf8_char d ++ y) (utf8_char c ++ x) = false.
Proof.
  intros S T L. unfold scalar in S, T. unfold utf8_char.
  destruct (c <? 0x80) eqn:E1; [|destruct (c <? 0x800) eqn:E2; [|destruct (c <? 0x10000) eqn:E3]];
  (destruct (d <? 0x80) eqn:F1; [|destruct (d <? 0x800) eqn:F2; [|destruct (d <? 0x10000) eqn:F3]]); try lia;
    cbn [app bytes_ltb]; rewrite ?b2n_n2b_small by lia; split; decide_ltb.
Qed.
Lemma utf8_ltb a b : Forall scalar a -> Forall scalar b -> bytes_ltb (utf8_text a) (utf8_text b) = text_ltb a b.
Proof.
  intro A. revert b. induction A as [|c a S A IH]; intros b B.
  - destruct B as [|d b T B]; [reflexivity|]. cbn [text_ltb]. rewrite utf8_text_cons. unfold utf8_char.
    destruct (d <? 0x80); [reflexivity|]. destruct (d <? 0x800); [reflexivity|]. destruct (d <? 0x10000); reflexivity.
  - destruct B as [|d b T B].
    + cbn [text_ltb]. rewrite utf8_text_cons. unfold utf8_char.
      destruct (c <? 0x80); [reflexivity|]. destruct (c <? 0x800); [reflexivity|]. destruct (c <? 0x10000); reflexivity.
    + cbn [text_ltb]. rewrite !utf8_text_cons. destruct (N.lt_trichotomy c d) as [L|[E|L]].
      * rewrite (proj1 (ltb_char c d _ _ S T L)). now replace (c <? d) with true by lia.
      * subst. rewrite bytes_ltb_app, IH by exact B. now rewrite N.ltb_irrefl, N.eqb_refl.
      * rewrite (proj2 (ltb_char d c _ _ T S L)). replace (c <? d) with false by lia. now replace (c =? d) with false by lia.
Qed.

(** ** Splitting at a comma *)
Lemma split_text_char sep c r p : scalar c -> b2n sep < 128 -> c <> b2n sep ->
  split_text sep (utf8_char c ++ r) p = split_text sep r (p ++ utf8_char c).
Proof.
  intros S L D. unfold scalar in S.
  assert (E : forall n, n < 256 -> n <> b2n sep -> Byte.eqb (n2b n) sep = false).
  { intros n H H'. destruct (Byte.eqb (n2b n) sep) eqn:X; [|reflexivity]. apply Byte.byte_dec_bl in X. subst.
    rewrite b2n_n2b_small in H' by exact H. congruence. }
  unfold utf8_char.
  destruct (c <? 0x80) eqn:E1; [|destruct (c <? 0x800) eqn:E2; [|destruct (c <? 0x10000) eqn:E3]];
    cbn [app split_text]; rewrite !E by lia; now rewrite <- ?app_assoc.
Qed.
Lemma split_comma_utf8 t : Forall scalar t -> forall rev_item,
  split_text x2c (utf8_text t) (utf8_text (rev rev_item)) = map utf8_text (split_comma_from rev_item t).
Proof.
  induction 1 as [|c t S _ IH]; intro p; [reflexivity|].
  cbn [split_comma_from]. rewrite utf8_text_cons. destruct (c =? 44) eqn:E.
  - apply N.eqb_eq in E. subst c. change (utf8_char 44) with [x2c]. cbn [app split_text map].
    change (Byte.eqb x2c x2c) with true. cbv iota. f_equal. apply (IH []).
  - rewrite split_text_char; [|exact S|cbn; lia|change (b2n x2c) with 44; lia].
    rewrite <- (IH (c :: p)). cbn [rev]. rewrite utf8_text_app. cbn [utf8_text flat_map]. now rewrite app_nil_r.
Qed.

(** ** Numbers *)
Lemma parse_digits_char acc c r : scalar c ->
  RustEval.parse_digits acc (utf8_char c ++ r)
  = if CodeGen.is_digit c then RustEval.parse_digits (10 * acc + (c - 48)) r else None.
Proof.
  intros S. unfold scalar in S. unfold utf8_char, CodeGen.is_digit.
  destruct (c <? 0x80) eqn:E1; [|destruct (c <? 0x800) eqn:E2; [|destruct (c <? 0x10000) eqn:E3]];
    cbn [app RustEval.parse_digits]; rewrite ?b2n_n2b_small by lia; [reflexivity|..];
    replace ((48 <=? c) && (c <=? 57)) with false by lia;
    match goal with |- (if ?b then _ else _) = _ => now replace b with false by lia end.
Qed.
Lemma parse_digits_utf8 t : Forall scalar t -> forall acc,
  RustEval.parse_digits acc (utf8_text t)
  = if forallb CodeGen.is_digit t then Some (fold_left (fun acc d => 10 * acc + (d - 48)) t acc) else None.
Proof.
  induction 1 as [|c t S _ IH]; intro acc; [reflexivity|].
  cbn [forallb fold_left]. rewrite utf8_text_cons, parse_digits_char by exact S.
  destruct (CodeGen.is_digit c); [|reflexivity]. apply IH.
Qed.
Lemma utf8_char_nonempty c r : utf8_char c ++ r <> [].
Proof.
  unfold utf8_char. destruct (c <? 0x80); [discriminate|]. destruct (c <? 0x800); [discriminate|]. destruct (c <? 0x10000); discriminate.
Qed.
Lemma plus_char c r : scalar c ->
  match utf8_char c ++ r with x :: b' => if Byte.eqb x x2b then b' else utf8_char c ++ r | [] => utf8_char c ++ r end
  = if c =? 43 then r else utf8_char c ++ r.
Proof.
  intro S. unfold scalar in S. destruct (c =? 43) eqn:E; [apply N.eqb_eq in E; now subst|].
  assert (X : forall n, n < 256 -> n <> 43 -> Byte.eqb (n2b n) x2b = false).
  { intros n L D. destruct (Byte.eqb (n2b n) x2b) eqn:Y; [|reflexivity]. apply Byte.byte_dec_bl in Y.
    apply (f_equal b2n) in Y. rewrite b2n_n2b_small in Y by exact L. change (b2n x2b) with 43 in Y. congruence. }
  unfold utf8_char.
  destruct (c <? 0x80) eqn:E1; [|destruct (c <? 0x800) eqn:E2; [|destruct (c <? 0x10000) eqn:E3]];
    cbn [app]; now rewrite X by lia.
Qed.
Lemma parse_uint_utf8 max m t : Forall scalar t -> m = max + 1 ->
  RustEval.parse_uint m (utf8_text t) = CodeGen.parse_uint max t.
Proof.
  intros S ->. assert (D : forall t, Forall scalar t ->
    match utf8_text t with
    | [] => None
    | _ => match RustEval.parse_digits 0 (utf8_text t) with Some n => if n <? max + 1 then Some n else None | None => None end
    end = CodeGen.parse_digits max t).
  { clear t S. intros t S. rewrite parse_digits_utf8 by exact S. unfold CodeGen.parse_digits, digits_value.
    destruct S as [|c t S T]; [reflexivity|]. rewrite utf8_text_cons.
    pose proof (utf8_char_nonempty c (utf8_text t)). destruct (utf8_char c ++ utf8_text t); [congruence|].
    destruct (forallb CodeGen.is_digit (c :: t)); [|reflexivity].
    match goal with |- (if ?a <? _ then _ else _) = _ => replace (a <? max + 1) with (a <=? max) by lia end. reflexivity. }
  unfold RustEval.parse_uint. destruct S as [|c t S T]; [reflexivity|].
  rewrite utf8_text_cons, plus_char by exact S. cbn [CodeGen.parse_uint]. destruct (c =? 43) eqn:E.
  - apply N.eqb_eq in E. subst c. apply D. exact T.
  - transitivity (CodeGen.parse_digits max (c :: t)); [exact (D (c :: t) (Forall_cons _ S T))|].
    destruct c as [|p]; [reflexivity|].
    do 6 (try (destruct p as [p|p|]; try reflexivity)); discriminate.
Qed.
