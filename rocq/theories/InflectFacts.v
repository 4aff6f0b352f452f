(** * Facts about the model of Inflector, against a specification of identifiers *)
From Coq Require Import String List NArith ZArith Bool Arith Lia ZifyBool ZifyNat ZifyN.
From Verif Require Import Prelude CodeGen CodeGenSpec Inflect SourceSpec.
Import ListNotations.
Local Open Scope N_scope.
Local Open Scope list_scope.

Lemma squash_app a b : squash (a ++ b) = squash a ++ squash b.
Proof. apply flat_map_app. Qed.

Lemma trim_right_split U s :
  exists junk, s = trim_right U s ++ junk /\ Forall (fun c => is_alphanumeric U c = false) junk
    /\ forall c t, trim_right U s = t ++ [c] -> is_alphanumeric U c = true.
Proof.
  unfold trim_right. set (f := fun c => negb (is_alphanumeric U c)).
  assert (D : forall r, exists j, r = j ++ drop_while f r /\ Forall (fun c => is_alphanumeric U c = false) j
                /\ forall c t, drop_while f r = c :: t -> is_alphanumeric U c = true).
  { induction r as [|c r IH]; cbn [drop_while].
    - exists []. repeat split; [constructor|discriminate].
    - unfold f at 1 3. destruct (is_alphanumeric U c) eqn:A; cbn [negb].
      + exists []. repeat split; [constructor|]. intros c' t [= -> ->]. exact A.
      + destruct IH as (j & E & F & G). exists (c :: j). cbn [app]. split; [f_equal; exact E|].
        split; [constructor; assumption|]. exact G. }
  destruct (D (rev s)) as (j & E & F & G). exists (rev j). split; [|split].
  - rewrite <- (rev_involutive s) at 1. rewrite E at 1. now rewrite rev_app_distr.
  - now apply Forall_rev.
  - intros c t H. apply (f_equal (@rev N)) in H. rewrite rev_involutive, rev_app_distr in H. exact (G _ _ H).
Qed.

Section Ascii.
Context (U : unicode).

Lemma alnum_ascii c : c < 128 -> is_alphanumeric U c = alnum c.
Proof. intros H. unfold is_alphanumeric. replace (c <? 128) with true by lia. reflexivity. Qed.
Lemma lower_ascii c : c < 128 -> is_lowercase U c = lower c.
Proof. intros H. unfold is_lowercase. replace (c <? 128) with true by lia. reflexivity. Qed.
Lemma upper_ascii c : c < 128 -> is_uppercase U c = upper c.
Proof. intros H. unfold is_uppercase. replace (c <? 128) with true by lia. reflexivity. Qed.
Lemma numeric_ascii c : c < 128 -> is_numeric U c = digit_char c.
Proof. intros H. unfold is_numeric. replace (c <? 128) with true by lia. reflexivity. Qed.
Lemma len_utf8_ascii c : c < 128 -> len_utf8 c = 1.
Proof. intros H. unfold len_utf8. replace (c <? 0x80) with true by lia. reflexivity. Qed.

Lemma nth_is_lowercase_at pre c rest :
  Forall (fun c => c < 128) (pre ++ c :: rest) ->
  nth_is_lowercase U (pre ++ c :: rest) (N.of_nat (List.length pre)) = lower c.
Proof.
  intros A. unfold nth_is_lowercase. rewrite Nat2N.id. rewrite nth_error_app2, Nat.sub_diag by lia. cbn.
  apply lower_ascii. rewrite Forall_forall in A. apply A. apply in_elt.
Qed.

Lemma underscored_junk conv seen prev junk :
  Forall (fun c => alnum c = false) junk -> underscored conv seen prev junk = [].
Proof. intros F. revert seen prev. induction F as [|c j H F IH]; intros; cbn; [reflexivity|]. rewrite H. apply IH. Qed.

(** The loop after [pre], whose last character is [prev]. *)
Lemma snake_loop_spec conv s pre rest junk first seen prev :
  Forall (fun c => c < 128) s -> s = pre ++ rest ++ junk ->
  Forall (fun c => alnum c = false) junk ->
  (forall c t, rest = t ++ [c] -> alnum c = true) ->
  (pre = [] \/ exists p, pre = p ++ [prev]) -> (pre = [] -> seen = false) ->
  (rest = [] -> seen = false \/ alnum prev = true) ->
  (seen = false -> first = true) ->
  (seen = true -> first = negb (alnum prev)) ->
  snake_loop U conv s (N.of_nat (List.length pre)) first rest
  = if seen && negb (alnum prev) then tl (underscored conv seen prev (rest ++ junk))
    else underscored conv seen prev (rest ++ junk).
Proof.
  intros A E J. revert pre first seen prev E.
  induction rest as [|c rest IH]; intros pre first seen prev E L P P0 R S0 S1.
  - cbn [snake_loop app]. rewrite underscored_junk by exact J. now destruct (_ && _).
  - cbn [snake_loop app underscored].
    assert (Hc : c < 128) by (rewrite Forall_forall in A; apply A; rewrite E; apply in_elt).
    rewrite (alnum_ascii c Hc), (len_utf8_ascii c Hc).
    assert (E' : s = (pre ++ [c]) ++ rest ++ junk) by (rewrite <- app_assoc; exact E).
    assert (N' : N.of_nat (List.length pre) + 1 = N.of_nat (List.length (pre ++ [c])))
      by (rewrite app_length; cbn; lia).
    assert (L' : forall c0 t, rest = t ++ [c0] -> alnum c0 = true)
      by (intros c0 t H; apply (L c0 (c :: t)); cbn; now rewrite H).
    specialize (IH (pre ++ [c])). rewrite N'.
    destruct (alnum c) eqn:Ac; cbn [negb].
    + rewrite (IH false true c); try assumption; try discriminate;
        [|right; now exists pre|intros H; now destruct pre|now right|intros _; now rewrite Ac].
      rewrite Ac. cbn [andb negb].
      assert (Rq : requires_separator U (N.of_nat (List.length pre)) c first s
                   = negb first && negb (lower c) &&
                     (match rest ++ junk with x :: _ => lower x | [] => false end
                      || match pre with [] => false | _ => lower prev end)).
      { unfold requires_separator, next_or_previous_char_is_lowercase.
        assert (Cu : char_is_uppercase c = negb (lower c)).
        { unfold char_is_uppercase, to_ascii_uppercase, ascii_lower, lower. destruct ((97 <=? c) && (c <=? 122)) eqn:X; lia. }
        rewrite Cu. destruct first; [reflexivity|]. cbn [negb andb]. f_equal. f_equal.
        - rewrite N'. destruct (rest ++ junk) as [|x r] eqn:X.
          + unfold nth_is_lowercase. rewrite Nat2N.id. rewrite (proj2 (nth_error_None s _)); [reflexivity|].
            rewrite E', app_nil_r. lia.
          + rewrite E'. apply nth_is_lowercase_at. rewrite <- E'. exact A.
        - destruct pre as [|y pre'] eqn:Y.
          + destruct seen; [specialize (P0 eq_refl); discriminate|]. specialize (S0 eq_refl). discriminate.
          + rewrite <- Y in *. destruct P as [P|(p & P)]; [congruence|].
            replace (N.of_nat (List.length pre) - 1) with (N.of_nat (List.length p))
              by (rewrite P, app_length; cbn; lia).
            rewrite E, P, <- app_assoc. cbn [app]. apply nth_is_lowercase_at.
            rewrite E, P, <- app_assoc in A. exact A. }
      rewrite Rq.
      destruct seen; cbn [andb].
      * specialize (S1 eq_refl). subst first. rewrite negb_involutive.
        assert (pre <> []) as Np by (intros H; specialize (P0 H); discriminate).
        destruct pre as [|y pre']; [congruence|].
        destruct (alnum prev) eqn:Ap; cbn [negb andb orb].
        -- rewrite orb_comm. destruct (negb (lower c) && _) eqn:X.
           ++ reflexivity.
           ++ reflexivity.
        -- reflexivity.
      * specialize (S0 eq_refl). subst first. reflexivity.
    + assert (Nr : rest <> []) by (intros ->; specialize (L c [] eq_refl); congruence).
      destruct seen eqn:Sn.
      * specialize (S1 eq_refl). subst first.
        rewrite (IH true true c); try assumption; try discriminate;
          [|right; now exists pre|intros H; now destruct pre|intros H; congruence|intros _; now rewrite Ac].
        rewrite Ac. cbn [andb negb].
        destruct (alnum prev) eqn:Ap; cbn [negb]; [|reflexivity].
        (* the underscore of the next letter or digit has been written *)
        assert (X : forall p r, alnum p = false -> (exists x, In x r /\ alnum x = true) ->
                      exists y, underscored conv true p r = 95 :: y).
        { clear. intros p r. revert p. induction r as [|x r IH]; intros p Hp (y & I & Hy); [destruct I|].
          cbn [underscored]. destruct (alnum x) eqn:Ax.
          - rewrite Hp. cbn [negb orb andb app]. eexists. reflexivity.
          - apply IH; [exact Ax|]. destruct I as [->|I]; [congruence|]. now exists y. }
        destruct (X c (rest ++ junk) Ac) as (y & Y).
        { destruct (exists_last Nr) as (r0 & z & ->). exists z. split; [|exact (L z (c :: r0) eq_refl)].
          rewrite <- app_assoc. apply in_elt. }
        rewrite Y. reflexivity.
      * specialize (S0 eq_refl). subst first. cbn [andb].
        rewrite (IH true false c); try assumption; try discriminate;
          [|right; now exists pre|intros H; now destruct pre|intros H; congruence|reflexivity].
        reflexivity.
Qed.

Lemma snake_like_spec conv n : ascii_text n ->
  to_case_snake_like U conv n = underscored conv false 0 n.
Proof.
  intros A. destruct (trim_right_split U n) as (junk & E & J & L).
  unfold to_case_snake_like. set (t := trim_right U n) in *.
  assert (At : forall x, In x n -> is_alphanumeric U x = alnum x).
  { intros x I. apply alnum_ascii. unfold ascii_text in A. rewrite Forall_forall in A. now apply A. }
  assert (J' : Forall (fun c => alnum c = false) junk).
  { rewrite Forall_forall in *. intros x I. rewrite <- At; [now apply J|]. rewrite E. apply in_app_iff. now right. }
  change 0 with (N.of_nat (List.length (@nil N))).
  rewrite (snake_loop_spec conv n [] t junk true false 0); try assumption; try discriminate; auto.
  - cbn [andb]. now rewrite <- E.
  - intros c p H. rewrite <- At; [exact (L c p H)|]. rewrite E. rewrite H. apply in_app_iff. left. apply in_elt.
Qed.
End Ascii.

(** ** Letters and digits are kept *)
Lemma small_case c : c < 128 ->
  squash [small c] = squash [c] /\ squash [capital c] = squash [c].
Proof.
  intros H. unfold squash, small, capital, upper, lower. cbn [flat_map].
  destruct ((65 <=? c) && (c <=? 90)) eqn:Up; destruct ((97 <=? c) && (c <=? 122)) eqn:Lo; rewrite ?Up, ?Lo;
    cbn [orb app]; try (split; reflexivity).
  - exfalso. lia.
  - replace ((65 <=? c + 32) && (c + 32 <=? 90)) with false by lia.
    replace ((97 <=? c + 32) && (c + 32 <=? 122)) with true by lia. split; reflexivity.
  - replace ((65 <=? c - 32) && (c - 32 <=? 90)) with true by lia. split; [reflexivity|].
    cbn [app]. f_equal. lia.
Qed.
Lemma squash_not_alnum c : alnum c = false -> squash [c] = [].
Proof.
  unfold alnum, lower, upper, digit_char, squash. intros H. cbn [flat_map]. rewrite app_nil_r.
  destruct ((65 <=? c) && (c <=? 90)) eqn:A, ((97 <=? c) && (c <=? 122)) eqn:B, ((48 <=? c) && (c <=? 57)) eqn:C;
    cbn [orb] in *; congruence.
Qed.
Lemma squash_cons c t : squash (c :: t) = squash [c] ++ squash t.
Proof. change (c :: t) with ([c] ++ t). apply squash_app. Qed.

Lemma squash_underscored conv seen prev n :
  (forall c, c < 128 -> squash [conv c] = squash [c]) ->
  ascii_text n -> squash (underscored conv seen prev n) = squash n.
Proof.
  intros Cv A. revert seen prev. induction A as [|c n H A IH]; intros seen prev; [reflexivity|].
  cbn [underscored]. rewrite (squash_cons c). destruct (alnum c) eqn:Al.
  - rewrite squash_app, (squash_cons (conv c)), IH, Cv by exact H.
    match goal with |- squash (if ?b then _ else _) ++ _ = _ => destruct b end; reflexivity.
  - rewrite IH. now rewrite squash_not_alnum.
Qed.

Lemma pascal_loop_facts U new_word found last rest :
  ascii_text rest ->
  squash (pascal_loop U new_word found last rest) = squash rest
  /\ Forall (fun c => alnum c = true) (pascal_loop U new_word found last rest).
Proof.
  intros A. revert new_word found last. induction A as [|c n H A IH]; intros new_word found last;
    [split; [reflexivity|constructor]|].
  cbn [pascal_loop]. rewrite alnum_ascii, numeric_ascii by exact H. rewrite (squash_cons c).
  destruct (alnum c) eqn:Al.
  - cbn [negb andb]. rewrite andb_false_r.
    assert (Cap : alnum (capital c) = true /\ alnum (small c) = true).
    { unfold alnum, capital, small, lower, upper, digit_char in *.
      destruct ((97 <=? c) && (c <=? 122)) eqn:X, ((65 <=? c) && (c <=? 90)) eqn:Y; lia. }
    destruct Cap as (Cap & Sm).
    destruct (digit_char c); [|destruct (starts_word _ _ _ _)].
    + destruct (IH true true last) as (E & F). rewrite squash_cons, E. split; [reflexivity|]. constructor; assumption.
    + destruct (IH false true last) as (E & F). rewrite squash_cons, E.
      change (to_ascii_uppercase c) with (capital c).
      split; [f_equal; now apply small_case|]. constructor; assumption.
    + destruct (IH new_word true c) as (E & F). rewrite squash_cons, E.
      change (to_ascii_lowercase c) with (small c).
      split; [f_equal; now apply small_case|]. constructor; assumption.
  - rewrite (squash_not_alnum c Al). cbn [negb andb app]. rewrite andb_true_r.
    destruct found; cbn [negb]; apply IH.
Qed.
Lemma squash_junk junk : Forall (fun c => alnum c = false) junk -> squash junk = [].
Proof.
  induction 1 as [|c j H F IH]; [reflexivity|]. rewrite squash_cons, IH, squash_not_alnum by exact H. reflexivity.
Qed.
Lemma trim_right_ascii U n : ascii_text n -> exists junk,
  n = trim_right U n ++ junk /\ Forall (fun c => alnum c = false) junk /\ ascii_text (trim_right U n).
Proof.
  intros A. destruct (trim_right_split U n) as (junk & E & J & _). exists junk. split; [exact E|].
  unfold ascii_text in *. rewrite E in A. apply Forall_app in A. destruct A as (A & B). split; [|exact A].
  rewrite Forall_forall in *. intros c I. rewrite <- (alnum_ascii U); auto.
Qed.
Lemma pascal_facts U n : ascii_text n ->
  squash (to_pascal_case U n) = squash n /\ Forall (fun c => alnum c = true) (to_pascal_case U n).
Proof.
  intros A. destruct (trim_right_ascii U n A) as (junk & E & J & T). unfold to_pascal_case.
  destruct (pascal_loop_facts U true false 32 _ T) as (S & F). split; [|exact F].
  rewrite S. rewrite E at 2. rewrite squash_app, (squash_junk _ J), app_nil_r. reflexivity.
Qed.
Lemma alnum_lt c : alnum c = true -> c < 128.
Proof. unfold alnum, lower, upper, digit_char. lia. Qed.
Lemma pascal_ascii U n : ascii_text n -> ascii_text (to_pascal_case U n).
Proof.
  intros A. destruct (pascal_facts U n A) as (_ & F). eapply Forall_impl; [|exact F]. exact alnum_lt.
Qed.

(** ** The characters of the results *)
Lemma underscored_chars (P : N -> Prop) conv seen prev n :
  P 95 -> (forall c, alnum c = true -> P (conv c)) -> Forall P (underscored conv seen prev n).
Proof.
  intros P0 Pc. revert seen prev. induction n as [|c n IH]; intros seen prev; cbn [underscored]; [constructor|].
  destruct (alnum c) eqn:A; [|apply IH]. apply Forall_app. split; [|constructor; auto].
  destruct (seen && _); repeat constructor. exact P0.
Qed.
Lemma alnum_squash c t : alnum c = true -> squash (c :: t) <> [].
Proof.
  unfold alnum, lower, upper, digit_char, squash. intros H. cbn [flat_map].
  destruct ((65 <=? c) && (c <=? 90)); [discriminate|].
  destruct ((97 <=? c) && (c <=? 122)); [discriminate|]. cbn [orb] in *. rewrite H. discriminate.
Qed.
(** the first letter or digit *)
Lemma underscored_first conv prev n :
  (underscored conv false prev n = [] /\ squash n = []) \/
  exists before c after r, n = before ++ c :: after /\ alnum c = true
    /\ Forall (fun c => alnum c = false) before /\ underscored conv false prev n = conv c :: r.
Proof.
  revert prev. induction n as [|c n IH]; intros prev; cbn [underscored]; [now left|].
  destruct (alnum c) eqn:A.
  - right. exists [], c, n. eexists. repeat split; [exact A|constructor].
  - destruct (IH c) as [(E & S)|(b & x & a & r & E & X & F & Y)].
    + left. split; [exact E|]. rewrite squash_cons, S, squash_not_alnum by exact A. reflexivity.
    + right. exists (c :: b), x, a, r. rewrite E. repeat split; try assumption.
      * constructor; assumption.
      * now rewrite <- E.
Qed.
Lemma pascal_loop_first U last n : ascii_text n ->
  pascal_loop U true false last n = [] \/
  exists c r, pascal_loop U true false last n = c :: r /\ lower c = false.
Proof.
  intros A. induction A as [|c n H A IH]; cbn [pascal_loop]; [now left|].
  rewrite alnum_ascii, numeric_ascii by exact H.
  destruct (alnum c) eqn:Al; cbn [negb andb]; [|exact IH].
  destruct (digit_char c) eqn:D.
  - right. eexists _, _. split; [reflexivity|]. unfold lower, digit_char in *. lia.
  - right. cbn [starts_word orb]. eexists _, _. split; [reflexivity|].
    unfold to_ascii_uppercase, ascii_lower, lower. destruct ((97 <=? c) && (c <=? 122)) eqn:X; lia.
Qed.
Lemma pascal_first U n : ascii_text n ->
  to_pascal_case U n = [] \/ exists c r, to_pascal_case U n = c :: r /\ lower c = false.
Proof.
  intros A. destruct (trim_right_ascii U n A) as (_ & _ & _ & T). exact (pascal_loop_first U 32 _ T).
Qed.
