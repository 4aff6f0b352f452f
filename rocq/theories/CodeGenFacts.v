(** * Lemmas about the dictionary parser *)
From Coq Require Import String List NArith Bool Lia ZifyBool ZifyNat ZifyN Sorting.Sorted.
From Verif Require Import Prelude Accessors CodeGen CodeGenSpec.
Import ListNotations.
Local Open Scope N_scope.
Local Open Scope list_scope.

Lemma text_eqb_eq a b : text_eqb a b = true <-> a = b.
Proof.
  revert b. induction a as [|x a IH]; destruct b as [|y b]; cbn; try (split; congruence).
  rewrite andb_true_iff, IH, N.eqb_eq. split; [intros [-> ->]; reflexivity|intros E; inversion E; auto].
Qed.
Lemma text_eqb_refl a : text_eqb a a = true.
Proof. apply text_eqb_eq. reflexivity. Qed.
Lemma text_eqb_neq a b : text_eqb a b = false <-> a <> b.
Proof.
  destruct (text_eqb a b) eqn:E.
  - apply text_eqb_eq in E. split; [discriminate|intros H; now elim H].
  - split; [intros _ ->; now rewrite text_eqb_refl in E|reflexivity].
Qed.

(** ** lines *)
Lemma lines_from_app acc l t :
  ~ In 10 l -> lines_from acc (l ++ 10 :: t) = strip_cr (rev l ++ acc) :: lines_from [] t.
Proof.
  revert acc. induction l as [|c l IH]; intros acc H; cbn.
  - reflexivity.
  - destruct (c =? 10) eqn:E. { apply N.eqb_eq in E. subst. elim H. now left. }
    rewrite IH by (intros C; apply H; now right). rewrite <- app_assoc. reflexivity.
Qed.
Lemma lines_from_last acc l :
  ~ In 10 l -> lines_from acc l = match rev l ++ acc with [] => [] | _ => [rev (rev l ++ acc)] end.
Proof.
  revert acc. induction l as [|c l IH]; intros acc H; cbn.
  - destruct acc; reflexivity.
  - destruct (c =? 10) eqn:E. { apply N.eqb_eq in E. subst. elim H. now left. }
    rewrite IH by (intros C; apply H; now right). rewrite <- app_assoc. reflexivity.
Qed.
Lemma text_lines_app l t : ~ In 10 l -> text_lines (l ++ 10 :: t) = strip_cr (rev l) :: text_lines t.
Proof. intros H. unfold text_lines. now rewrite lines_from_app, app_nil_r. Qed.
Lemma strip_cr_cr l : strip_cr (rev (l ++ [13])) = l.
Proof. rewrite rev_app_distr. cbn. now rewrite rev_involutive. Qed.
Lemma strip_cr_other l : (forall l', l <> l' ++ [13]) -> strip_cr (rev l) = l.
Proof.
  intros H. unfold strip_cr. destruct (rev l) as [|c r] eqn:E.
  - now rewrite <- (rev_involutive l), E.
  - assert (El : l = rev r ++ [c]) by (rewrite <- (rev_involutive l), E; reflexivity).
    assert (c <> 13) by (intros ->; now apply (H (rev r))).
    destruct c as [|p]; [now rewrite <- E, rev_involutive|].
    repeat (destruct p as [p|p|]; try (rewrite <- E; now rewrite rev_involutive)). now elim H0.
Qed.
Lemma ends_cr l : {l' | l = l' ++ [13]} + {forall l', l <> l' ++ [13]}.
Proof.
  destruct (rev l) as [|c r] eqn:E.
  - right. intros l' ->. rewrite rev_app_distr in E. discriminate.
  - destruct (N.eq_dec c 13) as [->|N].
    + left. exists (rev r). rewrite <- (rev_involutive l), E. reflexivity.
    + right. intros l' ->. rewrite rev_app_distr in E. inversion E. congruence.
Qed.
Lemma lf_split (t : text) : {p | t = fst p ++ 10 :: snd p /\ ~ In 10 (fst p)} + {~ In 10 t}.
Proof.
  induction t as [|c t IH]; [right; tauto|].
  destruct (N.eq_dec c 10) as [->|N].
  - left. exists ([], t). cbn. tauto.
  - destruct IH as [[[a b] [E H]]|H].
    + left. exists (c :: a, b). cbn in *. rewrite E. split; [reflexivity|]. intros [C|C]; [congruence|tauto].
    + right. intros [C|C]; [congruence|tauto].
Qed.
Lemma lines_are_model t : lines_are t (text_lines t).
Proof.
  remember (List.length t) as n. assert (Hn : (List.length t <= n)%nat) by lia. clear Heqn.
  revert t Hn. induction n as [|n IH]; intros t Hn.
  - destruct t; [constructor|cbn in Hn; lia].
  - destruct (lf_split t) as [[[l r] [-> H]]|H]; cbn in *.
    + rewrite app_length in Hn. cbn in Hn. rewrite text_lines_app by assumption.
      destruct (ends_cr l) as [[l' ->]|N].
      * rewrite strip_cr_cr. rewrite <- app_assoc. cbn. apply la_crlf; [|apply IH; lia].
        intros C. apply H. apply in_or_app. now left.
      * rewrite strip_cr_other by assumption. apply la_lf; [assumption..|apply IH; lia].
    + unfold text_lines. rewrite lines_from_last, app_nil_r, rev_involutive by assumption.
      destruct t as [|c t]; [constructor|]. destruct (rev (c :: t)) eqn:E.
      * apply (f_equal (@List.length N)) in E. rewrite rev_length in E. discriminate.
      * apply la_last; [discriminate|assumption].
Qed.
Lemma lines_are_unique t ls : lines_are t ls -> text_lines t = ls.
Proof.
  induction 1 as [|l N H|l rest ls H N _ IH|l rest ls H _ IH].
  - reflexivity.
  - unfold text_lines. rewrite lines_from_last, app_nil_r, rev_involutive by assumption.
    destruct (rev l) eqn:E; [|reflexivity]. elim N. now rewrite <- (rev_involutive l), E.
  - rewrite text_lines_app, strip_cr_other by assumption. now rewrite IH.
  - change (l ++ 13 :: 10 :: rest) with (l ++ [13] ++ 10 :: rest). rewrite app_assoc, text_lines_app.
    + now rewrite strip_cr_cr, IH.
    + intros C. apply in_app_or in C as [C|[C|[]]]; [tauto|discriminate].
Qed.
Lemma lines_no_lf t ls : lines_are t ls -> Forall (fun l => ~ In 10 l) ls.
Proof. induction 1; constructor; auto. Qed.

(** ** fields *)
Lemma is_ws_white c : is_ws c = true <-> white c.
Proof.
  unfold is_ws, white. cbn [In]. split.
  - intros H. lia.
  - intros H. lia.
Qed.
Lemma is_ws_not c : is_ws c = false <-> ~ white c.
Proof. rewrite <- is_ws_white. destruct (is_ws c); split; congruence. Qed.
Lemma split_ws_word acc sep w : word w -> split_ws acc sep w = [rev acc ++ w].
Proof.
  revert acc sep. induction w as [|c w IH]; intros acc sep H; cbn.
  - now rewrite app_nil_r.
  - inversion H; subst. apply is_ws_not in H2. rewrite H2, IH by assumption. cbn. now rewrite <- app_assoc.
Qed.
Lemma split_ws_app acc w sep rest :
  word w -> blank sep -> (forall c r, rest = c :: r -> ~ white c) ->
  split_ws acc false (w ++ sep ++ rest) = (rev acc ++ w) :: split_ws [] false rest.
Proof.
  revert acc. induction w as [|c w IH]; intros acc Hw [N Hs] Hr; cbn.
  - destruct sep as [|s sep]; [easy|]. inversion Hs as [|? ? W Hs']; subst. apply is_ws_white in W.
    cbn. rewrite W, app_nil_r. f_equal. clear - Hs' Hr.
    induction sep as [|s sep IH]; cbn.
    + destruct rest as [|c r]; [reflexivity|]. cbn.
      assert (W : is_ws c = false) by (apply is_ws_not; eapply Hr; reflexivity). now rewrite W.
    + inversion Hs'; subst. apply is_ws_white in H1. rewrite H1. auto.
  - inversion Hw; subst. apply is_ws_not in H1. rewrite H1, IH by (split || assumption; assumption).
    cbn. now rewrite <- app_assoc.
Qed.
Lemma fields_split line ws : fields line ws -> split_items line = ws.
Proof.
  unfold split_items. induction 1 as [w H|w sep rest ws Hw Hs Hr _ IH].
  - now rewrite split_ws_word.
  - rewrite split_ws_app by assumption. now rewrite IH.
Qed.
Lemma word_span (t : text) :
  {w & {r | t = w ++ r /\ word w /\ (forall c r', r = c :: r' -> white c)}}.
Proof.
  induction t as [|c t (w & r & -> & Hw & Hr)].
  - exists [], []. repeat split; [constructor|discriminate].
  - destruct (is_ws c) eqn:W.
    + exists [], (c :: w ++ r). split; [reflexivity|]. split; [constructor|].
      intros c0 r' E. inversion E; subst. now apply is_ws_white.
    + exists (c :: w), r. split; [reflexivity|]. split; [|assumption]. constructor; [now apply is_ws_not|assumption].
Qed.
Lemma blank_span (t : text) :
  {w & {r | t = w ++ r /\ Forall white w /\ (forall c r', r = c :: r' -> ~ white c)}}.
Proof.
  induction t as [|c t (w & r & -> & Hw & Hr)].
  - exists [], []. repeat split; [constructor|discriminate].
  - destruct (is_ws c) eqn:W.
    + exists (c :: w), r. split; [reflexivity|]. split; [|assumption]. constructor; [now apply is_ws_white|assumption].
    + exists [], (c :: w ++ r). split; [reflexivity|]. split; [constructor|].
      intros c0 r' E. inversion E; subst. now apply is_ws_not.
Qed.
Lemma fields_total line : exists ws, fields line ws.
Proof.
  remember (List.length line) as n. assert (Hn : (List.length line <= n)%nat) by lia. clear Heqn.
  revert line Hn. induction n as [|n IH]; intros line Hn.
  - destruct line; [|cbn in Hn; lia]. exists [[]]. constructor. constructor.
  - destruct (word_span line) as (w & r & -> & Hw & Hr).
    destruct (blank_span r) as (s & r' & -> & Hs & Hr').
    destruct s as [|c s].
    + destruct r' as [|c r'].
      * cbn. rewrite app_nil_r. exists [w]. now constructor.
      * elim (Hr' c r' eq_refl). now apply (Hr c r').
    + rewrite !app_length in Hn. cbn in Hn. destruct (IH r') as [ws Hws]; [lia|].
      exists (w :: ws). constructor; [assumption|split; [discriminate|assumption]|assumption|assumption].
Qed.
Lemma fields_model line ws : fields line ws <-> split_items line = ws.
Proof.
  split; [apply fields_split|]. intros <-. destruct (fields_total line) as [ws H].
  pose proof (fields_split _ _ H) as ->. assumption.
Qed.

(** ** pieces *)
Lemma pieces_split_from acc w ws :
  ~ In 44 acc -> pieces w ws ->
  split_comma_from acc w = match ws with [] => [] | x :: ws' => (rev acc ++ x) :: ws' end.
Proof.
  intros _ H. revert acc. induction H as [w H|w rest ws H _ IH]; intros acc.
  - revert acc. induction w as [|c w IH]; intros acc; cbn; [now rewrite app_nil_r|].
    destruct (c =? 44) eqn:E. { apply N.eqb_eq in E. subst. elim H. now left. }
    rewrite IH by (intros C; apply H; now right). cbn. now rewrite <- app_assoc.
  - revert acc. induction w as [|c w IHw]; intros acc; cbn.
    + rewrite app_nil_r, IH. destruct ws; reflexivity.
    + destruct (c =? 44) eqn:E. { apply N.eqb_eq in E. subst. elim H. now left. }
      rewrite IHw by (intros C; apply H; now right). cbn. now rewrite <- app_assoc.
Qed.
Lemma pieces_split w ws : pieces w ws -> split_comma w = ws.
Proof.
  intros H. unfold split_comma. rewrite (pieces_split_from [] w ws) by (auto || exact H).
  inversion H; reflexivity.
Qed.
Lemma pieces_total w : exists ws, pieces w ws.
Proof.
  induction w as [|c w [ws H]].
  - exists [[]]. constructor. tauto.
  - destruct (N.eq_dec c 44) as [->|N].
    + exists ([] :: ws). apply (ps_more [] w ws); [tauto|assumption].
    + inversion H; subst.
      * exists [c :: w]. constructor. cbn. intros [C|C]; [congruence|tauto].
      * exists ((c :: w0) :: ws0). apply (ps_more (c :: w0)); [|assumption].
        cbn. intros [C|C]; [congruence|tauto].
Qed.
Lemma pieces_model w ws : pieces w ws <-> split_comma w = ws.
Proof.
  split; [apply pieces_split|]. intros <-. destruct (pieces_total w) as [ws H].
  pose proof (pieces_split _ _ H) as ->. assumption.
Qed.

(** ** numbers *)
Lemma is_digit_digit c : is_digit c = true <-> digit c.
Proof. unfold is_digit, digit. lia. Qed.
Lemma digits_value_snoc ds d : digits_value (ds ++ [d]) = 10 * digits_value ds + (d - 48).
Proof. unfold digits_value. now rewrite fold_left_app. Qed.
Lemma decimal_model ds n :
  decimal ds n <-> ds <> [] /\ forallb is_digit ds = true /\ digits_value ds = n.
Proof.
  split.
  - induction 1 as [d H|ds n d _ (N & D & V) H].
    + apply is_digit_digit in H. cbn. rewrite H. repeat split. discriminate.
    + apply is_digit_digit in H. rewrite forallb_app, digits_value_snoc, D, V. cbn. rewrite H.
      repeat split. destruct ds; discriminate.
  - revert n. induction ds as [|d ds IH] using rev_ind; intros n (N & D & V); [easy|].
    rewrite forallb_app in D. cbn in D. rewrite andb_true_r, andb_true_iff in D. destruct D as [D Hd].
    apply is_digit_digit in Hd. rewrite digits_value_snoc in V. subst n.
    destruct ds as [|d0 ds]; [now constructor|]. constructor; [|assumption]. apply IH.
    repeat split; [discriminate|assumption].
Qed.
Lemma parse_digits_some max ds n : parse_digits max ds = Some n <-> decimal ds n /\ n <= max.
Proof.
  rewrite decimal_model. unfold parse_digits. destruct ds as [|d ds].
  - split; [discriminate|intros [[N _] _]; easy].
  - generalize (digits_value (d :: ds)). intros v. destruct (forallb is_digit (d :: ds)).
    + destruct (v <=? max) eqn:E; split.
      * intros H. inversion H; subst. repeat split; [discriminate|lia].
      * intros [(_ & _ & ->) _]. reflexivity.
      * discriminate.
      * intros [(_ & _ & ->) L]. lia.
    + split; [discriminate|intros [(_ & C & _) _]; discriminate].
Qed.
Lemma not_decimal_plus ds n : ~ decimal (43 :: ds) n.
Proof. rewrite decimal_model. intros (_ & C & _). discriminate. Qed.
Lemma parse_uint_some max s n : parse_uint max s = Some n <-> number s n /\ n <= max.
Proof.
  unfold number. destruct (N.eq_dec (hd 0 s) 43) as [E|E].
  - destruct s as [|c ds]; [discriminate|]. cbn in E. subst c. cbn [parse_uint].
    rewrite parse_digits_some. split.
    + intros [H L]. split; [|assumption]. right. eauto.
    + intros [[H|(ds' & E & H)] L]; [now apply not_decimal_plus in H|]. inversion E; subst. auto.
  - assert (Ep : parse_uint max s = parse_digits max s).
    { destruct s as [|c ds]; [reflexivity|]. cbn in E. cbn [parse_uint].
      destruct c as [|p]; [reflexivity|].
      repeat (destruct p as [p|p|]; try reflexivity). now elim E. }
    rewrite Ep, parse_digits_some. split.
    + intros [H L]. auto.
    + intros [[H|(ds' & -> & H)] L]; [auto|]. now elim E.
Qed.
Lemma parse_uint_none max s : parse_uint max s = None <-> (forall n, number s n -> max < n).
Proof.
  split.
  - intros E n H. destruct (N.le_gt_cases n max) as [L|G]; [|assumption].
    assert (C : parse_uint max s = Some n) by (apply parse_uint_some; auto). congruence.
  - intros H. destruct (parse_uint max s) as [n|] eqn:E; [|reflexivity].
    apply parse_uint_some in E as [E L]. apply H in E. lia.
Qed.
Lemma parse_uint_digits max ds : Forall (fun c => c <> 43) ds -> parse_uint max ds = parse_digits max ds.
Proof.
  intros H. destruct ds as [|c ds]; [reflexivity|]. inversion H; subst. cbn [parse_uint].
  destruct c as [|p]; [reflexivity|]. repeat (destruct p as [p|p|]; try reflexivity). now elim H2.
Qed.

(** ** trailing comments *)
Lemma without_comment_model s r : without_comment s r <-> cut_trailing_comment s = r.
Proof.
  split.
  - destruct 1 as [s H|before after Hb Ha].
    + induction s as [|c s IH]; [reflexivity|]. cbn. destruct (c =? 35) eqn:E.
      * apply N.eqb_eq in E. subst. rewrite (H [] s eq_refl). reflexivity.
      * cbn. f_equal. apply IH. intros b a ->. apply (H (c :: b) a eq_refl).
    + induction before as [|c b IH]; cbn.
      * destruct after; [easy|reflexivity].
      * destruct (c =? 35) eqn:E. { apply N.eqb_eq in E. subst. elim Hb. now left. }
        cbn. f_equal. apply IH. intros C. apply Hb. now right.
  - intros <-. induction s as [|c s IH].
    + apply wc_none. intros [|? ?] ? E; discriminate.
    + cbn. destruct (c =? 35) eqn:E.
      * apply N.eqb_eq in E. subst. destruct s as [|c s]; cbn.
        -- apply wc_none. intros [|b [|? ?]] a E; inversion E; reflexivity.
        -- apply (wc_some [] (c :: s)); [tauto|discriminate].
      * cbn. assert (c <> 35) by lia. revert IH. generalize (cut_trailing_comment s). intros r IH.
        destruct IH as [s Hs|b a Hb Ha].
        -- apply wc_none. intros [|x b] a Ea; inversion Ea; subst; [easy|]. now apply (Hs b a).
        -- apply (wc_some (c :: b) a); [|assumption]. intros [C|C]; [congruence|tauto].
Qed.

(** ** options and types *)
Lemma read_option_fold opts o :
  op_has_tag (fold_left read_option opts o) = (op_has_tag o || existsb (text_eqb (lit "has_tag")) opts) /\
  op_concat (fold_left read_option opts o) = (op_concat o || existsb (text_eqb (lit "concat")) opts).
Proof.
  revert o. induction opts as [|p opts IH]; intros o; cbn [fold_left existsb].
  - now rewrite !orb_false_r.
  - destruct (IH (read_option o p)) as [-> ->]. unfold read_option.
    change (text_of_string ?s) with (lit s).
    destruct (text_eqb p (lit "encrypt=1")) eqn:E1; [apply text_eqb_eq in E1; subst; auto|].
    destruct (text_eqb p (lit "encrypt=2")) eqn:E2; [apply text_eqb_eq in E2; subst; auto|].
    destruct (text_eqb p (lit "has_tag")) eqn:E3.
    { apply text_eqb_eq in E3; subst. cbn [op_has_tag op_concat].
      change (text_eqb (lit "has_tag") (lit "has_tag")) with true.
      change (text_eqb (lit "concat") (lit "has_tag")) with false.
      now rewrite orb_true_r. }
    destruct (text_eqb p (lit "concat")) eqn:E4.
    { apply text_eqb_eq in E4; subst. cbn [op_has_tag op_concat].
      change (text_eqb (lit "has_tag") (lit "concat")) with false.
      change (text_eqb (lit "concat") (lit "concat")) with true.
      now rewrite orb_true_r. }
    assert (H3 : text_eqb (lit "has_tag") p = false).
    { apply text_eqb_neq. intros C. apply text_eqb_neq in E3. congruence. }
    assert (H4 : text_eqb (lit "concat") p = false).
    { apply text_eqb_neq. intros C. apply text_eqb_neq in E4. congruence. }
    rewrite H3, H4. auto.
Qed.
Lemma existsb_text x l : existsb (text_eqb x) l = true <-> In x l.
Proof.
  rewrite existsb_exists. split.
  - intros (y & H & E). apply text_eqb_eq in E. now subst.
  - intros H. exists x. split; [assumption|apply text_eqb_refl].
Qed.
Lemma read_encryption_last opts p o :
  op_encryption (fold_left read_option (opts ++ [p]) o) =
  if text_eqb p (lit "encrypt=1") then Some EncUserPassword
  else if text_eqb p (lit "encrypt=2") then Some EncTunnelPassword
  else op_encryption (fold_left read_option opts o).
Proof.
  rewrite fold_left_app. cbn [fold_left]. generalize (fold_left read_option opts o). intros o'. unfold read_option.
  change (text_of_string ?s) with (lit s).
  destruct (text_eqb p (lit "encrypt=1")); [reflexivity|].
  destruct (text_eqb p (lit "encrypt=2")); [reflexivity|].
  destruct (text_eqb p (lit "has_tag")); [reflexivity|].
  destruct (text_eqb p (lit "concat")); reflexivity.
Qed.
Lemma encryption_model opts e :
  encryption opts e <-> op_encryption (fold_left read_option opts (Options None false false)) = e.
Proof.
  split.
  - destruct 1 as [opts H1 H2|a b H1 H2|a b H1 H2].
    + induction opts as [|p opts IH] using rev_ind; [reflexivity|]. rewrite read_encryption_last.
      rewrite (proj2 (text_eqb_neq p _)) by (intros ->; apply H1, in_or_app; right; now left).
      rewrite (proj2 (text_eqb_neq p _)) by (intros ->; apply H2, in_or_app; right; now left).
      apply IH; intros C; [apply H1|apply H2]; apply in_or_app; now left.
    + induction b as [|p b IH] using rev_ind; [now rewrite read_encryption_last, text_eqb_refl|].
      change (a ++ lit "encrypt=1" :: b ++ [p]) with (a ++ (lit "encrypt=1" :: b) ++ [p]).
      rewrite app_assoc, read_encryption_last.
      rewrite (proj2 (text_eqb_neq p _)) by (intros ->; apply H1, in_or_app; right; now left).
      rewrite (proj2 (text_eqb_neq p _)) by (intros ->; apply H2, in_or_app; right; now left).
      apply IH; intros C; [apply H1|apply H2]; apply in_or_app; now left.
    + induction b as [|p b IH] using rev_ind; [now rewrite read_encryption_last, text_eqb_refl|].
      change (a ++ lit "encrypt=2" :: b ++ [p]) with (a ++ (lit "encrypt=2" :: b) ++ [p]).
      rewrite app_assoc, read_encryption_last.
      rewrite (proj2 (text_eqb_neq p _)) by (intros ->; apply H1, in_or_app; right; now left).
      rewrite (proj2 (text_eqb_neq p _)) by (intros ->; apply H2, in_or_app; right; now left).
      apply IH; intros C; [apply H1|apply H2]; apply in_or_app; now left.
  - intros <-. induction opts as [|p opts IH] using rev_ind.
    + cbn. constructor; tauto.
    + rewrite read_encryption_last. destruct (text_eqb p (lit "encrypt=1")) eqn:E1.
      { apply text_eqb_eq in E1. subst. constructor; tauto. }
      destruct (text_eqb p (lit "encrypt=2")) eqn:E2.
      { apply text_eqb_eq in E2. subst. constructor; tauto. }
      apply text_eqb_neq in E1, E2.
      inversion IH as [o H1 H2 Eo Ee|a b H1 H2 Eo Ee|a b H1 H2 Eo Ee].
      * constructor; intros C; apply in_app_or in C as [C|[C|[]]]; congruence || tauto.
      * rewrite <- app_assoc. cbn. constructor; intros C; apply in_app_or in C as [C|[C|[]]]; congruence || tauto.
      * rewrite <- app_assoc. cbn. constructor; intros C; apply in_app_or in C as [C|[C|[]]]; congruence || tauto.
Qed.

Lemma value_type_from_str_some s t : value_type_from_str s = Some t <-> In (s, t) plain_types.
Proof.
  split.
  - unfold value_type_from_str. change (text_of_string ?s) with (lit s).
    repeat match goal with
           | |- context [if text_eqb s (lit ?n) then _ else _] =>
               let E := fresh "E" in destruct (text_eqb s (lit n)) eqn:E;
               [apply text_eqb_eq in E; subst s; intros H; inversion H; subst t; clear; cbn; tauto|]
           end.
    discriminate.
  - unfold plain_types. cbn [In]. intros H.
    repeat (destruct H as [H|H]; [inversion H; subst; reflexivity|]). destruct H.
Qed.
Lemma value_type_from_str_none s : value_type_from_str s = None <-> forall t, ~ In (s, t) plain_types.
Proof.
  split.
  - intros H t C. apply value_type_from_str_some in C. congruence.
  - intros H. destruct (value_type_from_str s) as [t|] eqn:E; [|reflexivity].
    apply value_type_from_str_some in E. now apply H in E.
Qed.
Lemma strip_prefix_some p s r : strip_prefix p s = Some r <-> s = p ++ r.
Proof.
  revert s. induction p as [|x p IH]; intros s; cbn.
  - split; [intros H; now inversion H|intros ->; reflexivity].
  - destruct s as [|y s]; [split; discriminate|]. destruct (x =? y) eqn:E.
    + apply N.eqb_eq in E. subst. rewrite IH. split; [intros ->; reflexivity|intros H; now inversion H].
    + split; [discriminate|]. intros H. inversion H. lia.
Qed.
Lemma regex_digit_any od c : regex_digit od c = true <-> any_digit od c.
Proof.
  unfold regex_digit, any_digit. rewrite orb_true_iff, is_digit_digit, andb_true_iff. intuition lia.
Qed.
Lemma capture_some od s ds : fixed_octets_capture od s = Some ds <-> bracketed od s ds.
Proof.
  unfold fixed_octets_capture, bracketed. change (text_of_string "octets[") with (lit "octets[").
  destruct (strip_prefix (lit "octets[") s) as [r|] eqn:E.
  - apply strip_prefix_some in E. subst s.
    assert (Hr : forall c rs, rev r = c :: rs -> r = rev rs ++ [c]).
    { intros c rs H. rewrite <- (rev_involutive r), H. reflexivity. }
    split.
    + destruct (rev r) as [|c rs]; [discriminate|]. specialize (Hr _ _ eq_refl). subst r.
      destruct (N.eq_dec c 93) as [->|N].
      * destruct (negb (is_nil rs) && forallb (regex_digit od) rs) eqn:B; [|discriminate].
        intros H. inversion H; subst ds. apply andb_true_iff in B as [B1 B2].
        split; [reflexivity|]. split.
        -- destruct rs; [discriminate|]. cbn. destruct (rev rs); discriminate.
        -- apply Forall_rev, Forall_forall. intros x Hx. rewrite forallb_forall in B2.
           now apply regex_digit_any, B2.
      * intros H. exfalso. destruct c as [|p]; [discriminate|].
        repeat (destruct p as [p|p|]; try discriminate). now elim N.
    + intros (Es & N & F). apply app_inv_head in Es. subst r. rewrite rev_app_distr. cbn.
      rewrite rev_involutive.
      assert (B : negb (is_nil (rev ds)) && forallb (regex_digit od) (rev ds) = true); [|now rewrite B].
      apply andb_true_iff. split.
      * destruct (rev ds) eqn:R; [|reflexivity]. elim N. now rewrite <- (rev_involutive ds), R.
      * apply forallb_forall. intros x Hx. apply in_rev in Hx. apply regex_digit_any.
        rewrite Forall_forall in F. auto.
  - split; [discriminate|]. intros (-> & _).
    assert (C : strip_prefix (lit "octets[") (lit "octets[" ++ ds ++ lit "]") = Some (ds ++ lit "]"))
      by now apply strip_prefix_some. congruence.
Qed.
Lemma capture_none od s : fixed_octets_capture od s = None <-> forall ds, ~ bracketed od s ds.
Proof.
  split.
  - intros H ds C. apply capture_some in C. congruence.
  - intros H. destruct (fixed_octets_capture od s) as [ds|] eqn:E; [|reflexivity].
    apply capture_some in E. now apply H in E.
Qed.
Lemma any_digit_not_plus od ds : Forall (any_digit od) ds -> Forall (fun c => c <> 43) ds.
Proof. apply Forall_impl. unfold any_digit, digit. intros c H. lia. Qed.
Lemma bracketed_plain od s ds : bracketed od s ds -> value_type_from_str s = None.
Proof.
  intros (-> & N & _). apply value_type_from_str_none. intros t.
  assert (L : exists c l, ds ++ lit "]" = c :: l /\ In 93 (c :: l)).
  { destruct ds as [|c l]; [easy|]. exists c, (l ++ lit "]"). split; [reflexivity|].
    right. apply in_or_app. right. now left. }
  destruct L as (c & l & -> & _). cbn. intros H.
  repeat (destruct H as [H|H]; [inversion H|]). destruct H.
Qed.
Lemma type_meaning_model od opts s r :
  type_meaning od opts s r <->
  read_type od (fold_left read_option opts (Options None false false)) s = r.
Proof.
  unfold read_type. split.
  - destruct 1 as [s E ->|s E ->|s E ->|s t H N|s ds n B D L|s ds B D|s H B].
    + apply encryption_model in E. cbn. now rewrite E.
    + apply encryption_model in E. cbn. now rewrite E.
    + apply encryption_model in E. cbn. now rewrite E.
    + rewrite (proj2 (value_type_from_str_some s t) H).
      destruct t; try reflexivity. exfalso. apply N. clear - H. cbn in H.
      repeat (destruct H as [H|H]; [inversion H; reflexivity|]). destruct H.
    + rewrite (bracketed_plain _ _ _ B), (proj2 (capture_some _ _ _) B).
      rewrite parse_uint_digits by (eapply any_digit_not_plus; apply B).
      assert (P : parse_digits (2 ^ 64 - 1) ds = Some n) by (apply parse_digits_some; split; [assumption|lia]).
      now rewrite P.
    + rewrite (bracketed_plain _ _ _ B), (proj2 (capture_some _ _ _) B).
      rewrite parse_uint_digits by (eapply any_digit_not_plus; apply B).
      destruct (parse_digits (2 ^ 64 - 1) ds) as [n|] eqn:P; [|reflexivity].
      apply parse_digits_some in P as [P L]. apply D in P. lia.
    + now rewrite (proj2 (value_type_from_str_none s) H), (proj2 (capture_none od s) B).
  - intros <-. destruct (value_type_from_str s) as [t|] eqn:E.
    + apply value_type_from_str_some in E. destruct (list_eq_dec N.eq_dec s (lit "string")) as [->|N].
      * assert (t = VTString).
        { apply value_type_from_str_some in E. cbn in E. now inversion E. } subst t.
        destruct (op_encryption _) as [[]|] eqn:Ee.
        -- apply tm_user; [now apply encryption_model|reflexivity].
        -- apply tm_tunnel; [now apply encryption_model|reflexivity].
        -- apply tm_string; [now apply encryption_model|reflexivity].
      * assert (t <> VTString).
        { intros ->. apply N. clear - E. cbn in E.
          repeat (destruct E as [E|E]; [inversion E; reflexivity|]). destruct E. }
        destruct t; try (now elim H); now apply tm_plain.
    + destruct (fixed_octets_capture od s) as [ds|] eqn:C.
      * apply capture_some in C. rewrite parse_uint_digits by (eapply any_digit_not_plus; apply C).
        destruct (parse_digits (2 ^ 64 - 1) ds) as [n|] eqn:P.
        -- apply parse_digits_some in P as [P L]. apply tm_octets with (ds := ds); [assumption..|lia].
        -- apply tm_octets_bad with (ds := ds); [assumption|]. intros n D.
           destruct (N.lt_ge_cases n (2 ^ 64)) as [L|G]; [|assumption].
           assert (X : parse_digits (2 ^ 64 - 1) ds = Some n) by (apply parse_digits_some; split; [assumption|lia]).
           congruence.
      * apply tm_unknown; [now apply value_type_from_str_none|now apply capture_none].
Qed.
Lemma option_list_model k n c t more opts :
  option_list (k :: n :: c :: t :: more) opts ->
  read_options (k :: n :: c :: t :: more) = fold_left read_option opts (Options None false false).
Proof.
  destruct more as [|o more]; cbn.
  - now intros ->.
  - intros H. apply pieces_model in H. now rewrite H.
Qed.
Lemma option_list_total k n c t more : exists opts, option_list (k :: n :: c :: t :: more) opts.
Proof. destruct more as [|o more]; cbn; [eauto|apply pieces_total]. Qed.

(** ** a line *)
Definition act (m : meaning) (st : parsed) : res dict_error parsed :=
  match m with
  | Nothing => Ok st
  | AnAttribute a => Ok (fst st ++ [a], snd st)
  | AValue attr v => Ok (fst st, value_map_add (snd st) attr v)
  | AnError e => Err e
  | Aborts => Panic
  end.
Lemma line_is_filtered_skipped line : ~ In 10 line -> line_is_filtered line = true <-> skipped line.
Proof.
  intros H. unfold skipped. destruct line as [|c rest]; cbn; [tauto|].
  rewrite andb_true_iff, N.eqb_eq. split.
  - intros [-> _]. right. eauto.
  - intros [C|[r E]]; [discriminate|]. inversion E; subst. split; [reflexivity|].
    apply forallb_forall. intros x Hx. apply negb_true_iff, N.eqb_neq. intros ->. apply H. now right.
Qed.
Lemma skipped_fields line k rest :
  fields line (k :: rest) -> k = lit "ATTRIBUTE" \/ k = lit "VALUE" -> ~ skipped line.
Proof.
  intros F Hk [->|[r ->]]; apply fields_model in F.
  - cbn in F. inversion F; subst. destruct Hk; discriminate.
  - unfold split_items in F. cbn in F.
    assert (X : forall acc t, exists w ws, split_ws acc false t = w :: ws /\ exists u, w = rev acc ++ u).
    { clear. intros acc t. revert acc. induction t as [|c t IH]; intros acc; cbn.
      - eexists _, _. split; [reflexivity|]. exists []. now rewrite app_nil_r.
      - destruct (is_ws c).
        + eexists _, _. split; [reflexivity|]. exists []. now rewrite app_nil_r.
        + destruct (IH (c :: acc)) as (w & ws & E & u & ->). eexists _, _. split; [exact E|].
          exists (c :: u). cbn. now rewrite <- app_assoc. }
    destruct (X [35] r) as (w & ws & E & u & ->). rewrite E in F. inversion F; subst.
    destruct Hk as [C|C]; cbn in C; discriminate.
Qed.
Lemma parse_line_means od line m st :
  ~ In 10 line -> means od line m -> parse_line od st line = act m st.
Proof.
  intros HL HM. destruct st as [attrs values]. unfold parse_line.
  change (text_of_string ?s) with (lit s).
  assert (NS : ~ skipped line -> line_is_filtered line = false).
  { intros N. destruct (line_is_filtered line) eqn:E; [|reflexivity].
    apply line_is_filtered_skipped in E; tauto. }
  destruct HM as [H|items H F L|kind i1 i2 i3 more H F K1 K2|name code type more opts e F O T
                 |name code type more opts F O T|name code type more opts vt fixed typ concat tag F O T Nm Lt Fc Ft
                 |name code type more opts vt fixed F O T Nm|attr name val more s n F W Nm Lt|attr name val more s F W Nm].
  - now rewrite (proj2 (line_is_filtered_skipped line HL) H).
  - rewrite (NS H). apply fields_model in F. rewrite F.
    destruct items as [|? [|? [|? [|? ?]]]]; try reflexivity. cbn in L. lia.
  - rewrite (NS H). apply fields_model in F. rewrite F.
    rewrite (proj2 (text_eqb_neq kind _) K1), (proj2 (text_eqb_neq kind _) K2). reflexivity.
  - rewrite (NS (skipped_fields _ _ _ F (or_introl eq_refl))). apply fields_model in F. rewrite F.
    rewrite text_eqb_refl, (option_list_model _ _ _ _ _ _ O). apply type_meaning_model in T. now rewrite T.
  - rewrite (NS (skipped_fields _ _ _ F (or_introl eq_refl))). apply fields_model in F. rewrite F.
    rewrite text_eqb_refl, (option_list_model _ _ _ _ _ _ O). apply type_meaning_model in T. now rewrite T.
  - rewrite (NS (skipped_fields _ _ _ F (or_introl eq_refl))). apply fields_model in F. rewrite F.
    rewrite text_eqb_refl, (option_list_model _ _ _ _ _ _ O). apply type_meaning_model in T. rewrite T.
    cbn [bind]. rewrite (proj2 (parse_uint_some 255 code typ) (conj Nm Lt)).
    cbn [fst snd act].
    destruct (read_option_fold opts (Options None false false)) as [-> ->].
    cbn [op_concat op_has_tag orb].
    unfold flag in Fc, Ft. rewrite <- existsb_text in Fc, Ft.
    replace (existsb (text_eqb (lit "concat")) opts) with concat
      by (destruct concat, (existsb (text_eqb (lit "concat")) opts); intuition congruence).
    replace (existsb (text_eqb (lit "has_tag")) opts) with tag
      by (destruct tag, (existsb (text_eqb (lit "has_tag")) opts); intuition congruence).
    reflexivity.
  - rewrite (NS (skipped_fields _ _ _ F (or_introl eq_refl))). apply fields_model in F. rewrite F.
    rewrite text_eqb_refl, (option_list_model _ _ _ _ _ _ O). apply type_meaning_model in T. rewrite T.
    cbn [bind]. now rewrite (proj2 (parse_uint_none 255 code) Nm).
  - rewrite (NS (skipped_fields _ _ _ F (or_intror eq_refl))). apply fields_model in F. rewrite F.
    change (text_eqb (lit "VALUE") (lit "ATTRIBUTE")) with false. rewrite text_eqb_refl.
    apply without_comment_model in W. rewrite W.
    now rewrite (proj2 (parse_uint_some 65535 s n) (conj Nm Lt)).
  - rewrite (NS (skipped_fields _ _ _ F (or_intror eq_refl))). apply fields_model in F. rewrite F.
    change (text_eqb (lit "VALUE") (lit "ATTRIBUTE")) with false. rewrite text_eqb_refl.
    apply without_comment_model in W. rewrite W.
    now rewrite (proj2 (parse_uint_none 65535 s) Nm).
Qed.
Lemma means_total od line : exists m, means od line m.
Proof.
  assert (D : skipped line \/ ~ skipped line).
  { destruct line as [|c r]; [left; now left|]. destruct (N.eq_dec c 35) as [->|N].
    - left. right. eauto.
    - right. intros [C|[r' C]]; [discriminate|congruence]. }
  destruct D as [D|D]; [eexists; now apply me_skipped|].
  destruct (fields_total line) as [items F].
  destruct items as [|k [|i1 [|i2 [|i3 more]]]];
    try (eexists; eapply me_few; [assumption|exact F|cbn; lia]).
  destruct (list_eq_dec N.eq_dec k (lit "ATTRIBUTE")) as [->|K1].
  - destruct (option_list_total (lit "ATTRIBUTE") i1 i2 i3 more) as [opts O].
    destruct (read_type od (fold_left read_option opts (Options None false false)) i3) as [[vt fx]|e| |] eqn:T;
      apply type_meaning_model in T.
    + destruct (parse_uint 255 i2) as [n|] eqn:P.
      * apply parse_uint_some in P as [P L]. eexists.
        apply (me_attribute od line i1 i2 i3 more opts vt fx n
                 (existsb (text_eqb (lit "concat")) opts) (existsb (text_eqb (lit "has_tag")) opts));
          try assumption; apply existsb_text.
      * pose proof (proj1 (parse_uint_none _ _) P). eexists. eapply me_code_aborts; eassumption.
    + eexists. eapply me_type; eassumption.
    + eexists. eapply me_type_aborts; eassumption.
    + inversion T.
  - destruct (list_eq_dec N.eq_dec k (lit "VALUE")) as [->|K2].
    + assert (W : without_comment i3 (cut_trailing_comment i3)) by now apply without_comment_model.
      destruct (parse_uint 65535 (cut_trailing_comment i3)) as [n|] eqn:P.
      * apply parse_uint_some in P as [P L]. eexists. eapply me_value; eassumption.
      * pose proof (proj1 (parse_uint_none _ _) P). eexists. eapply me_value_aborts; eassumption.
    + eexists. eapply me_kind; eassumption.
Qed.
Lemma means_unique od line m m' : ~ In 10 line -> means od line m -> means od line m' -> m = m'.
Proof.
  intros H M M'. pose proof (parse_line_means od line m ([], []) H M) as E.
  rewrite (parse_line_means od line m' ([], []) H M') in E.
  destruct m, m'; cbn in E; try discriminate; try (inversion E; reflexivity); reflexivity.
Qed.

(** ** the table of values *)
Lemma text_ltb_lt a b : text_ltb a b = true <-> text_lt a b.
Proof.
  revert b. induction a as [|x a IH]; destruct b as [|y b]; cbn.
  - split; [discriminate|inversion 1].
  - split; [constructor|reflexivity].
  - split; [discriminate|inversion 1].
  - rewrite orb_true_iff, andb_true_iff, IH. split.
    + intros [L|[E L]]; [apply tl_less; lia|]. apply N.eqb_eq in E. subst. now apply tl_same.
    + inversion 1; subst; [left; lia|right]. split; [apply N.eqb_refl|assumption].
Qed.
Lemma text_lt_irrefl a : ~ text_lt a a.
Proof. induction a as [|x a IH]; inversion 1; subst; [lia|tauto]. Qed.
Lemma text_lt_trans a b c : text_lt a b -> text_lt b c -> text_lt a c.
Proof.
  intros H. revert c. induction H as [y b|x a y b L|x a b H IH]; intros c Hc.
  - inversion Hc; constructor.
  - inversion Hc; subst; [apply tl_less; lia|now apply tl_less].
  - inversion Hc; subst; [now apply tl_less|]. apply tl_same. auto.
Qed.
Lemma text_trichotomy a b : text_eqb a b = false -> text_ltb a b = false -> text_lt b a.
Proof.
  revert b. induction a as [|x a IH]; destruct b as [|y b]; cbn; try discriminate.
  - constructor.
  - intros E L. apply orb_false_iff in L as [L1 L2]. destruct (x =? y) eqn:Exy.
    + apply N.eqb_eq in Exy. subst. cbn in *. apply tl_same. auto.
    + apply tl_less. lia.
Qed.

Definition sorted_map (m : value_map) : Prop := StronglySorted text_lt (map fst m).
Lemma sorted_head a vs (m : value_map) b ws : sorted_map ((a, vs) :: m) -> In (b, ws) m -> text_lt a b.
Proof.
  unfold sorted_map. cbn. intros H I. apply StronglySorted_inv in H as [_ H].
  rewrite Forall_forall in H. apply H. apply in_map_iff. now exists (b, ws).
Qed.
Lemma sorted_unique m a vs ws : sorted_map m -> In (a, vs) m -> In (a, ws) m -> vs = ws.
Proof.
  induction m as [|[b us] m IH]; intros S H1 H2; [destruct H1|].
  destruct H1 as [E1|H1], H2 as [E2|H2].
  - congruence.
  - inversion E1; subst. elim (text_lt_irrefl a). eapply sorted_head; eassumption.
  - inversion E2; subst. elim (text_lt_irrefl a). eapply sorted_head; eassumption.
  - apply IH; [|assumption..]. unfold sorted_map in *. cbn in S. now apply StronglySorted_inv in S as [S _].
Qed.
Lemma value_map_add_keys m a v b : In b (map fst (value_map_add m a v)) <-> b = a \/ In b (map fst m).
Proof.
  induction m as [|[c vs] m IH]; cbn [value_map_add].
  - cbn. intuition.
  - destruct (text_eqb a c) eqn:E.
    + apply text_eqb_eq in E. subst. cbn. intuition.
    + destruct (text_ltb a c); cbn [map In fst] in *; [intuition|]. rewrite IH. intuition.
Qed.
Lemma value_map_add_sorted m a v : sorted_map m -> sorted_map (value_map_add m a v).
Proof.
  induction m as [|[c vs] m IH]; intros S; cbn [value_map_add].
  - repeat constructor.
  - destruct (text_eqb a c) eqn:E; [exact S|]. destruct (text_ltb a c) eqn:L.
    + unfold sorted_map in *. cbn in *. constructor; [assumption|].
      apply text_ltb_lt in L. constructor; [assumption|].
      apply StronglySorted_inv in S as [_ S]. eapply Forall_impl; [|exact S].
      intros d Hd. eapply text_lt_trans; eassumption.
    + unfold sorted_map in *. cbn [map fst] in *. apply StronglySorted_inv in S as [S F].
      constructor; [now apply IH|]. apply Forall_forall. intros d Hd. apply value_map_add_keys in Hd as [->|Hd].
      * now apply text_trichotomy.
      * rewrite Forall_forall in F. auto.
Qed.
Lemma value_map_add_in m a v b ws :
  sorted_map m ->
  In (b, ws) (value_map_add m a v) <->
  (b <> a /\ In (b, ws) m) \/
  (b = a /\ exists old, ws = old ++ [v] /\ (In (a, old) m \/ (old = [] /\ forall o, ~ In (a, o) m))).
Proof.
  induction m as [|[c vs] m IH]; intros S; cbn [value_map_add].
  - cbn. split.
    + intros [E|[]]. inversion E; subst. right. split; [reflexivity|]. exists []. split; [reflexivity|]. auto.
    + intros [[_ []]|[-> (old & -> & [[]|[-> _]])]]. now left.
  - assert (S' : sorted_map m) by (unfold sorted_map in *; cbn in S; now apply StronglySorted_inv in S as [S _]).
    specialize (IH S').
    destruct (text_eqb a c) eqn:E.
    + apply text_eqb_eq in E. subst c. split.
      * intros [X|X].
        -- inversion X; subst. right. split; [reflexivity|]. exists vs. split; [reflexivity|]. left. now left.
        -- left. split; [|now right]. intros ->. elim (text_lt_irrefl a). eapply sorted_head; eassumption.
      * intros [[N [X|X]]|[-> (old & -> & [X|[-> X]])]].
        -- inversion X; congruence.
        -- now right.
        -- assert (old = vs) by (eapply sorted_unique; [exact S|exact X|now left]). subst. now left.
        -- elim (X vs). now left.
    + apply text_eqb_neq in E. destruct (text_ltb a c) eqn:L.
      * apply text_ltb_lt in L.
        assert (NA : forall o, ~ In (a, o) ((c, vs) :: m)).
        { intros o [X|X]; [congruence|]. elim (text_lt_irrefl a). eapply text_lt_trans; [exact L|].
          eapply sorted_head; eassumption. }
        split.
        -- intros [X|X].
           ++ inversion X; subst. right. split; [reflexivity|]. exists []. auto.
           ++ left. split; [|assumption]. intros ->. now apply NA in X.
        -- intros [[N X]|[-> (old & -> & [X|[-> _]])]]; [now right|now apply NA in X|now left].
      * split.
        -- intros [X|X].
           ++ inversion X; subst. left. split; [congruence|now left].
           ++ apply IH in X as [[N X]|[-> (old & -> & X)]].
              ** left. split; [assumption|now right].
              ** right. split; [reflexivity|]. exists old. split; [reflexivity|].
                 destruct X as [X|[-> X]]; [left; now right|right]. split; [reflexivity|].
                 intros o [Y|Y]; [congruence|now apply X in Y].
        -- intros [[N [X|X]]|[-> (old & -> & X)]].
           ++ now left.
           ++ right. apply IH. now left.
           ++ right. apply IH. right. split; [reflexivity|]. exists old. split; [reflexivity|].
              destruct X as [[X|X]|[-> X]]; [congruence|now left|right]. split; [reflexivity|].
              intros o Y. apply (X o). now right.
Qed.
Lemma sorted_same m m' :
  sorted_map m -> sorted_map m' -> (forall e, In e m <-> In e m') -> m = m'.
Proof.
  revert m'. induction m as [|[a vs] m IH]; intros m' S S' H.
  - destruct m' as [|e m']; [reflexivity|]. elim (proj2 (H e)). now left.
  - destruct m' as [|[b ws] m']; [elim (proj1 (H (a, vs))); now left|].
    assert (E : (a, vs) = (b, ws)).
    { destruct (proj1 (H (a, vs)) (or_introl eq_refl)) as [X|X]; [now symmetry|].
      destruct (proj2 (H (b, ws)) (or_introl eq_refl)) as [Y|Y]; [assumption|].
      elim (text_lt_irrefl a). eapply text_lt_trans; eapply sorted_head; [exact S|exact Y|exact S'|exact X]. }
    inversion E; subst b ws. f_equal. apply IH.
    + unfold sorted_map in *. cbn in S. now apply StronglySorted_inv in S as [S _].
    + unfold sorted_map in *. cbn in S'. now apply StronglySorted_inv in S' as [S' _].
    + intros e. split; intros X.
      * destruct (proj1 (H e) (or_intror X)) as [Y|Y]; [|assumption]. subst e.
        elim (text_lt_irrefl a). eapply sorted_head; [exact S|exact X].
      * destruct (proj2 (H e) (or_intror X)) as [Y|Y]; [|assumption]. subst e.
        elim (text_lt_irrefl a). eapply sorted_head; [exact S'|exact X].
Qed.

Definition vals (attr : text) (ms : list meaning) : list radius_value :=
  flat_map (fun m => match m with AValue a v => if text_eqb attr a then [v] else [] | _ => [] end) ms.
Lemma values_of_model attr ms vs : values_of attr ms vs <-> vals attr ms = vs.
Proof.
  split.
  - induction 1 as [|v ms vs _ IH|m ms vs N _ IH]; cbn.
    + reflexivity.
    + fold (vals attr ms). now rewrite text_eqb_refl, IH.
    + fold (vals attr ms). destruct m; try exact IH. destruct (text_eqb attr attr0) eqn:E; [|exact IH].
      apply text_eqb_eq in E. subst. now elim (N v).
  - intros <-. induction ms as [|m ms IH]; cbn; [constructor|]. fold (vals attr ms).
    destruct m; try (apply vo_skip; [discriminate|exact IH]).
    destruct (text_eqb attr attr0) eqn:E.
    + apply text_eqb_eq in E. subst. now apply vo_take.
    + apply vo_skip; [|exact IH]. intros v' C. inversion C. subst. now rewrite text_eqb_refl in E.
Qed.
Lemma vals_app attr ms ms' : vals attr (ms ++ ms') = vals attr ms ++ vals attr ms'.
Proof. apply flat_map_app. Qed.
Lemma table_of_unique ms t t' : table_of ms t -> table_of ms t' -> t = t'.
Proof.
  intros [S H] [S' H']. apply sorted_same; [assumption..|].
  intros [a vs]. rewrite H, H'. reflexivity.
Qed.
Lemma table_of_nil : table_of [] [].
Proof.
  split; [constructor|]. intros a vs. cbn. split; [easy|]. intros [H N]. inversion H. now subst.
Qed.
Lemma table_of_skip ms t m : (forall a v, m <> AValue a v) -> table_of ms t -> table_of (ms ++ [m]) t.
Proof.
  intros N [S H]. split; [assumption|]. intros a vs. rewrite H, !values_of_model, vals_app. cbn.
  destruct m; try (now rewrite app_nil_r). now elim (N attr v).
Qed.
Lemma table_of_add ms t a v : table_of ms t -> table_of (ms ++ [AValue a v]) (value_map_add t a v).
Proof.
  intros [S H]. split; [now apply value_map_add_sorted|]. intros b vs.
  rewrite value_map_add_in by exact S. rewrite values_of_model, vals_app. cbn. split.
  - intros [[N X]|[-> (old & -> & X)]].
    + apply H in X as [X Nv]. apply values_of_model in X. apply text_eqb_neq in N. rewrite N, app_nil_r. auto.
    + rewrite text_eqb_refl. split; [|destruct old; discriminate]. cbn. f_equal.
      destruct X as [X|[-> X]].
      * apply H in X as [X _]. now apply values_of_model in X.
      * destruct (vals a ms) as [|w ws] eqn:E; [reflexivity|]. elim (X (w :: ws)). apply H.
        split; [now apply values_of_model|discriminate].
  - destruct (text_eqb b a) eqn:E.
    + apply text_eqb_eq in E. subst b. cbn. intros [<- _]. right. split; [reflexivity|].
      exists (vals a ms). split; [reflexivity|]. destruct (vals a ms) as [|w ws] eqn:Ev.
      * right. split; [reflexivity|]. intros o C. apply H in C as [C N]. apply values_of_model in C. congruence.
      * left. apply H. split; [now apply values_of_model|discriminate].
    + rewrite app_nil_r. intros [E' N]. left. split; [now apply text_eqb_neq|]. apply H.
      split; [now apply values_of_model|assumption].
Qed.

(** ** a file *)
Fixpoint acts (ms : list meaning) (st : parsed) : res dict_error parsed :=
  match ms with [] => Ok st | m :: ms' => do st' <- act m st; acts ms' st' end.
Lemma parse_lines_acts od lines ms st :
  Forall (fun l => ~ In 10 l) lines -> Forall2 (means od) lines ms ->
  parse_lines od st lines = acts ms st.
Proof.
  intros H M. revert st. induction M as [|l m lines ms Hm M IH]; intros st; [reflexivity|].
  inversion H; subst. cbn. rewrite (parse_line_means od l m st) by assumption.
  destruct (act m st); cbn; auto.
Qed.
Lemma parse_dict_acts od t lines ms :
  lines_are t lines -> Forall2 (means od) lines ms -> parse_dict_file od t = acts ms ([], []).
Proof.
  intros L M. unfold parse_dict_file. rewrite (lines_are_unique _ _ L).
  apply parse_lines_acts; [eapply lines_no_lf; eassumption|assumption].
Qed.
Lemma acts_fine before ms st :
  Forall fine ms -> table_of before (snd st) -> fst st = attributes_of before ->
  exists st', acts ms st = Ok st' /\ fst st' = attributes_of (before ++ ms) /\ table_of (before ++ ms) (snd st').
Proof.
  intros F. revert before st. induction F as [|m ms Hm F IH]; intros before st T A; cbn.
  - exists st. rewrite app_nil_r. auto.
  - assert (X : exists st', act m st = Ok st' /\ fst st' = attributes_of (before ++ [m])
                            /\ table_of (before ++ [m]) (snd st')).
    { unfold attributes_of in *. rewrite flat_map_app, <- A. destruct m; cbn in *; try destruct Hm.
      - exists st. rewrite app_nil_r. split; [reflexivity|]. split; [reflexivity|].
        apply table_of_skip; [discriminate|assumption].
      - eexists. split; [reflexivity|]. split; [reflexivity|]. apply table_of_skip; [discriminate|assumption].
      - eexists. split; [reflexivity|]. cbn. rewrite app_nil_r. split; [reflexivity|]. now apply table_of_add. }
    destruct X as (st' & -> & A' & T'). cbn. destruct (IH (before ++ [m]) st' T' A') as (st2 & E & A2 & T2).
    rewrite <- app_assoc in A2, T2. eauto.
Qed.
Lemma acts_app ms ms' st : acts (ms ++ ms') st = do st' <- acts ms st; acts ms' st'.
Proof.
  revert st. induction ms as [|m ms IH]; intros st; [reflexivity|]. cbn.
  destruct (act m st); cbn; auto.
Qed.
Lemma first_bad ms : Forall fine ms \/ exists b m a, ms = b ++ m :: a /\ Forall fine b /\ ~ fine m.
Proof.
  induction ms as [|m ms [F|(b & m' & a & -> & F & N)]].
  - left. constructor.
  - destruct m; try (left; constructor; [exact I|assumption]);
      right; eexists [], _, ms; split; try reflexivity; (split; [constructor|cbn; tauto]).
  - destruct m; try (right; eexists (_ :: b), m', a; split; [reflexivity|]; split; [constructor; [exact I|assumption]|assumption]);
      right; eexists [], _, (b ++ m' :: a); split; try reflexivity; (split; [constructor|cbn; tauto]).
Qed.
