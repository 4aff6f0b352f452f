(** * The text of socket addresses is unambiguous (helper lemmas for C43) *)
From Coq Require Import String Ascii List NArith ZArith Bool Arith Strings.Byte Lia ZifyBool ZifyNat ZifyN.
From Coq Require DecimalString DecimalN HexadecimalString HexadecimalN.
From Verif Require Import Prelude PreludeFacts Avp Addr.
Import ListNotations.
Local Open Scope N_scope.
Local Open Scope list_scope.

(** strings as lists of characters *)
Definition chars (s : string) : list ascii := list_ascii_of_string s.
Lemma chars_app a b : chars (a ++ b)%string = chars a ++ chars b.
Proof. induction a as [|c a IH]; [reflexivity|]. cbn. unfold chars in IH. rewrite IH. reflexivity. Qed.
Lemma chars_inj a b : chars a = chars b -> a = b.
Proof.
  intros H. rewrite <- (string_of_list_ascii_of_string a), <- (string_of_list_ascii_of_string b).
  unfold chars in H. rewrite H. reflexivity.
Qed.

Local Open Scope char_scope.
Definition digit (c : ascii) : Prop := In c ["0"; "1"; "2"; "3"; "4"; "5"; "6"; "7"; "8"; "9"].
Definition hexdigit (c : ascii) : Prop := digit c \/ In c ["a"; "b"; "c"; "d"; "e"; "f"].

Lemma chars_uint u : Forall digit (chars (DecimalString.NilEmpty.string_of_uint u)).
Proof. induction u; cbn; [constructor|..]; (constructor; [unfold digit; cbn [In]; tauto|exact IHu]). Qed.
Lemma chars_hexuint u : Forall hexdigit (chars (HexadecimalString.NilEmpty.string_of_uint u)).
Proof.
  induction u; cbn; [constructor|..]; (constructor; [unfold hexdigit, digit; cbn [In]; tauto|exact IHu]).
Qed.
Lemma dec_digits n : Forall digit (chars (dec n)).
Proof.
  unfold dec, DecimalString.NilZero.string_of_uint. destruct (N.to_uint n); try apply chars_uint.
  repeat constructor.
Qed.
Lemma dec_nonempty n : chars (dec n) <> [].
Proof. unfold dec, DecimalString.NilZero.string_of_uint. destruct (N.to_uint n); discriminate. Qed.
Lemma hex_digits n : Forall hexdigit (chars (hex n)).
Proof.
  unfold hex, HexadecimalString.NilZero.string_of_uint. destruct (N.to_hex_uint n); try apply chars_hexuint.
  repeat constructor.
Qed.
Lemma hex_nonempty n : chars (hex n) <> [].
Proof. unfold hex, HexadecimalString.NilZero.string_of_uint. destruct (N.to_hex_uint n); discriminate. Qed.
Lemma hex_inj n m : hex n = hex m -> n = m.
Proof.
  unfold hex. intros H.
  assert (Hu : N.to_hex_uint n = N.to_hex_uint m).
  { assert (Hs : forall k, HexadecimalString.NilZero.uint_of_string
        (HexadecimalString.NilZero.string_of_uint (N.to_hex_uint k)) = Some (N.to_hex_uint k)).
    { intros k. rewrite HexadecimalString.NilZero.usu; [reflexivity|]. destruct k; [discriminate|].
      simpl. intros H0. pose proof (HexadecimalPos.Unsigned.to_uint_nonnil p). contradiction. }
    pose proof (Hs n) as H1. rewrite H, Hs in H1. congruence. }
  rewrite <- (HexadecimalN.Unsigned.of_to n), <- (HexadecimalN.Unsigned.of_to m), Hu. reflexivity.
Qed.

Definition free (c : ascii) (l : list ascii) : Prop := ~ In c l.
Lemma free_app c a b : free c (a ++ b) <-> free c a /\ free c b.
Proof. unfold free. rewrite in_app_iff. tauto. Qed.
Lemma free_cons c x l : free c (x :: l) <-> x <> c /\ free c l.
Proof. unfold free. cbn [In]. tauto. Qed.
Lemma digits_free c l : Forall digit l -> ~ digit c -> free c l.
Proof. intros F N I. rewrite Forall_forall in F. exact (N (F _ I)). Qed.
Lemma hexdigits_free c l : Forall hexdigit l -> ~ hexdigit c -> free c l.
Proof. intros F N I. rewrite Forall_forall in F. exact (N (F _ I)). Qed.
Ltac not_digit := unfold hexdigit, digit; cbn [In]; intuition discriminate.

Lemma split_unique c a b a' b' : free c a -> free c a' ->
  a ++ c :: b = a' ++ c :: b' -> a = a' /\ b = b'.
Proof.
  revert a'. induction a as [|x a IH]; intros [|x' a'] F F' E; cbn [app] in E.
  - injection E as E. auto.
  - injection E as E _. exfalso. apply F'. left. congruence.
  - injection E as E _. exfalso. apply F. left. congruence.
  - injection E as -> E. apply free_cons in F as [_ F]. apply free_cons in F' as [_ F'].
    destruct (IH _ F F' E) as [-> ->]. auto.
Qed.
Lemma split_none c a b a' : free c a' -> a ++ c :: b = a' -> False.
Proof. intros F <-. apply F, in_app_iff. right. left. reflexivity. Qed.

(** *** IPv4 *)
Lemma ipv4_chars a b c d : chars (ipv4_display (Ipv4 a b c d))
  = chars (dec (b2n a)) ++ "." :: chars (dec (b2n b)) ++ "." :: chars (dec (b2n c)) ++ "." :: chars (dec (b2n d)).
Proof.
  unfold ipv4_display. cbn [ipv4_octets map String.concat]. rewrite !chars_app. reflexivity.
Qed.
Lemma dec_free c n : ~ digit c -> free c (chars (dec n)).
Proof. apply digits_free, dec_digits. Qed.
Lemma hex_free c n : ~ hexdigit c -> free c (chars (hex n)).
Proof. apply hexdigits_free, hex_digits. Qed.
Lemma ipv4_free c ip : ~ digit c -> c <> "." -> free c (chars (ipv4_display ip)).
Proof.
  intros D N. destruct ip. rewrite ipv4_chars. repeat (rewrite free_app || rewrite free_cons).
  repeat (split; [first [apply dec_free, D|congruence]|]). apply dec_free, D.
Qed.
Lemma chars_dec_inj n m : chars (dec n) = chars (dec m) -> n = m.
Proof. intros H. apply dec_inj, chars_inj, H. Qed.
Lemma ipv4_inj x y : chars (ipv4_display x) = chars (ipv4_display y) -> x = y.
Proof.
  destruct x as [a b c d], y as [a' b' c' d']. rewrite !ipv4_chars. intros E.
  assert (ND : ~ digit ".") by not_digit.
  apply split_unique in E as [Ea E]; try apply dec_free, ND.
  apply split_unique in E as [Eb E]; try apply dec_free, ND.
  apply split_unique in E as [Ec Ed]; try apply dec_free, ND.
  apply chars_dec_inj, b2n_inj in Ea. apply chars_dec_inj, b2n_inj in Eb.
  apply chars_dec_inj, b2n_inj in Ec. apply chars_dec_inj, b2n_inj in Ed. congruence.
Qed.

(** *** tokens separated by colons *)
Fixpoint tokjoin (l : list (list ascii)) : list ascii :=
  match l with
  | [] => []
  | [t] => t
  | t :: l' => t ++ ":" :: tokjoin l'
  end.
Lemma tokjoin_cons t u l : tokjoin (t :: u :: l) = t ++ ":" :: tokjoin (u :: l).
Proof. reflexivity. Qed.
Lemma tokjoin_inj l : forall l', l <> [] -> l' <> [] -> Forall (free ":") l -> Forall (free ":") l' ->
  tokjoin l = tokjoin l' -> l = l'.
Proof.
  induction l as [|t l IH]; intros [|t' l'] N N' F F' E; try congruence.
  inversion F; inversion F'; subst. destruct l as [|u l], l' as [|u' l'].
  - cbn in E. congruence.
  - rewrite tokjoin_cons in E. cbn [tokjoin] in E. exfalso. symmetry in E. eapply split_none; [|exact E]. assumption.
  - rewrite tokjoin_cons in E. cbn [tokjoin] in E. exfalso. eapply split_none; [|exact E]. assumption.
  - rewrite !tokjoin_cons in E. apply split_unique in E as [-> E]; try assumption.
    f_equal. apply IH; auto; discriminate.
Qed.
Lemma tokjoin_app a b : a <> [] -> b <> [] -> tokjoin (a ++ b) = tokjoin a ++ ":" :: tokjoin b.
Proof.
  intros A B. induction a as [|t a IH]; [congruence|]. destruct a as [|u a].
  - cbn [app]. destruct b; [congruence|]. reflexivity.
  - specialize (IH ltac:(discriminate)). cbn [app] in *. rewrite !tokjoin_cons.
    rewrite tokjoin_cons in IH || idtac. rewrite IH, <- app_assoc. reflexivity.
Qed.

Definition toks (segs : list N) : list (list ascii) :=
  match segs with [] => [[]] | _ => map (fun n => chars (hex n)) segs end.
Lemma toks_nonempty segs : toks segs <> [].
Proof. destruct segs; discriminate. Qed.
Lemma toks_free segs : Forall (free ":") (toks segs).
Proof.
  destruct segs as [|s segs]; [repeat constructor; intros []|]. unfold toks.
  apply Forall_map, Forall_forall. intros n _. apply hex_free. not_digit.
Qed.
Lemma chars_fmt segs : chars (fmt_subslice segs) = tokjoin (toks segs).
Proof.
  unfold fmt_subslice. destruct segs as [|s segs]; [reflexivity|]. unfold toks.
  revert s. induction segs as [|u segs IH]; intros s; [reflexivity|].
  cbn [map String.concat]. rewrite !chars_app. cbn [map] in IH. specialize (IH u).
  cbn [String.concat] in IH. cbn [tokjoin] in *. rewrite IH. reflexivity.
Qed.
Lemma toks_inj a b : toks a = toks b -> a = b.
Proof.
  assert (H : forall x y, map (fun n => chars (hex n)) x = map (fun n => chars (hex n)) y -> x = y).
  { induction x as [|n x IH]; intros [|m y] E; cbn [map] in E; try discriminate; [reflexivity|].
    injection E as E1 E2. apply chars_inj, hex_inj in E1. apply IH in E2. congruence. }
  destruct a as [|x a], b as [|y b]; intros E; try reflexivity.
  - cbn [toks map] in E. injection E as E _. symmetry in E. destruct (hex_nonempty _ E).
  - cbn [toks map] in E. injection E as E _. destruct (hex_nonempty _ E).
  - apply H, E.
Qed.
Lemma toks_solid s segs : Forall (fun t => t <> []) (toks (s :: segs)).
Proof. unfold toks. apply Forall_map, Forall_forall. intros n _. apply hex_nonempty. Qed.

(** lists with a distinguished first empty token *)
Lemma compressed_inj a b a' b' : toks a ++ [] :: toks b = toks a' ++ [] :: toks b' -> a = a' /\ b = b'.
Proof.
  assert (X : forall (l l' : list (list ascii)) r r', Forall (fun t => t <> []) l -> Forall (fun t => t <> []) l' ->
    l ++ [] :: r = l' ++ [] :: r' -> l = l' /\ r = r').
  { induction l as [|t l IH]; intros [|t' l'] r r' F F' E; cbn [app] in E.
    - injection E as E. auto.
    - injection E as E _. inversion F'. congruence.
    - injection E as E _. inversion F. congruence.
    - injection E as -> E. inversion F. inversion F'. subst. destruct (IH _ _ _ H2 H6 E) as [-> ->]. auto. }
  intros E. destruct a as [|x a], a' as [|x' a'].
  - split; [reflexivity|]. cbn [toks app] in E. injection E as E. apply toks_inj, E.
  - cbn [toks app map] in E. injection E as E _. symmetry in E. destruct (hex_nonempty _ E).
  - cbn [toks app map] in E. injection E as E _. destruct (hex_nonempty _ E).
  - apply X in E; try apply toks_solid. destruct E as [E1 E2]. apply toks_inj in E1, E2. auto.
Qed.

(** *** the run of zeroes *)
Definition span_ok (pre : list N) (sp : nat * nat) : Prop :=
  exists x y, pre = x ++ repeat 0 (snd sp) ++ y /\ (snd sp = 0%nat \/ length x = fst sp).
Lemma repeat_snoc {A} (x : A) n : repeat x n ++ [x] = repeat x (S n).
Proof. induction n as [|n IH]; [reflexivity|]. cbn [repeat app]. rewrite IH. reflexivity. Qed.
Lemma longest_zeroes_ok segs : forall pre i cur lng,
  length pre = i ->
  (snd cur = 0%nat \/ exists x, pre = x ++ repeat 0 (snd cur) /\ length x = fst cur) ->
  span_ok pre lng ->
  span_ok (pre ++ segs) (longest_zeroes i segs cur lng).
Proof.
  induction segs as [|s segs IH]; intros pre i cur lng Li Hc Hl; cbn [longest_zeroes].
  - rewrite app_nil_r. exact Hl.
  - replace (pre ++ s :: segs) with ((pre ++ [s]) ++ segs) by (rewrite <- app_assoc; reflexivity).
    assert (Hl' : span_ok (pre ++ [s]) lng).
    { destruct Hl as (x & y & E & H). exists x, (y ++ [s]). split; [|exact H].
      rewrite E, <- !app_assoc. reflexivity. }
    assert (Len : length (pre ++ [s]) = S i) by (rewrite app_length; cbn; lia).
    destruct (s =? 0)%N eqn:Z.
    + apply N.eqb_eq in Z. subst s.
      set (cur' := (if Nat.eqb (snd cur) 0 then i else fst cur, S (snd cur))).
      assert (Hc' : exists x, pre ++ [0] = x ++ repeat 0 (snd cur') /\ length x = fst cur').
      { unfold cur'. cbn [fst snd]. destruct Hc as [Hc|(x & E & L)].
        - rewrite Hc. exists pre. cbn [Nat.eqb repeat]. auto.
        - destruct (Nat.eqb (snd cur) 0) eqn:Q.
          + apply Nat.eqb_eq in Q. rewrite Q in *. exists pre. auto.
          + exists x. split; [|exact L]. rewrite E at 1. rewrite <- app_assoc, repeat_snoc. reflexivity. }
      apply IH; [exact Len|right; exact Hc'|].
      destruct (Nat.ltb (snd lng) (snd cur')); [|exact Hl'].
      destruct Hc' as (x & E & L). exists x, []. rewrite app_nil_r. auto.
    + apply IH; [exact Len|left; reflexivity|exact Hl'].
Qed.
Lemma longest_zeroes_split segs start n : longest_zeroes 0 segs (0, 0)%nat (0, 0)%nat = (start, n) ->
  n <> 0%nat -> segs = firstn start segs ++ repeat 0 n ++ skipn (start + n) segs.
Proof.
  intros E N. pose proof (longest_zeroes_ok segs [] 0 (0, 0)%nat (0, 0)%nat eq_refl) as H.
  cbn [app snd fst] in H. rewrite E in H. destruct H as (x & y & S & [L|L]).
  - left. reflexivity.
  - exists [], []. split; [reflexivity|left; reflexivity].
  - cbn [snd] in L. congruence.
  - cbn [snd fst] in *.
    assert (F : firstn start segs = x).
    { rewrite S, <- L, firstn_app, Nat.sub_diag, firstn_all. cbn [firstn]. apply app_nil_r. }
    assert (K : skipn (start + n) segs = y).
    { rewrite S, app_assoc, skipn_app.
      assert (Q : length (x ++ repeat 0 n) = (start + n)%nat) by (rewrite app_length, repeat_length; lia).
      rewrite Q, Nat.sub_diag, <- Q, skipn_all. reflexivity. }
    rewrite F, K. exact S.
Qed.

(** *** IPv6 *)
Lemma segments_inj x y : ipv6_segments x = ipv6_segments y -> x = y.
Proof.
  destruct x, y. unfold ipv6_segments. cbn [ipv6_octets segments_of]. intros E.
  assert (P : forall a b c d, 256 * b2n a + b2n b = 256 * b2n c + b2n d -> a = c /\ b = d).
  { intros a b c d H. pose proof (b2n_lt a). pose proof (b2n_lt b). pose proof (b2n_lt c). pose proof (b2n_lt d).
    split; apply b2n_inj; lia. }
  injection E as E0 E1 E2 E3 E4 E5 E6 E7.
  apply P in E0 as [-> ->]. apply P in E1 as [-> ->]. apply P in E2 as [-> ->]. apply P in E3 as [-> ->].
  apply P in E4 as [-> ->]. apply P in E5 as [-> ->]. apply P in E6 as [-> ->]. apply P in E7 as [-> ->].
  reflexivity.
Qed.
Lemma segments_length ip : length (ipv6_segments ip) = 8%nat.
Proof. destruct ip. reflexivity. Qed.
Lemma mapped_inj x y v : to_ipv4_mapped x = Some v -> to_ipv4_mapped y = Some v -> x = y.
Proof.
  assert (H : forall x, to_ipv4_mapped x = Some v -> x =
    match v with Ipv4 a b c d => Ipv6 x00 x00 x00 x00 x00 x00 x00 x00 x00 x00 xff xff a b c d end).
  { intros [o0 o1 o2 o3 o4 o5 o6 o7 o8 o9 o10 o11 a b c d] E. unfold to_ipv4_mapped in E.
    destruct o0; try discriminate. destruct o1; try discriminate. destruct o2; try discriminate.
    destruct o3; try discriminate. destruct o4; try discriminate. destruct o5; try discriminate.
    destruct o6; try discriminate. destruct o7; try discriminate. destruct o8; try discriminate.
    destruct o9; try discriminate. destruct o10; try discriminate. destruct o11; try discriminate.
    injection E as <-. reflexivity. }
  intros A B. rewrite (H x A), (H y B). reflexivity.
Qed.

(** the tokens of the text of an address that is not IPv4-mapped *)
Lemma ipv6_tokens ip : to_ipv4_mapped ip = None ->
  (exists a n b, ipv6_segments ip = a ++ repeat 0 n ++ b
     /\ chars (ipv6_display ip) = tokjoin (toks a ++ [] :: toks b))
  \/ chars (ipv6_display ip) = tokjoin (toks (ipv6_segments ip)).
Proof.
  intros M. unfold ipv6_display. rewrite M.
  destruct (longest_zeroes 0 (ipv6_segments ip) (0, 0)%nat (0, 0)%nat) as [start n] eqn:E.
  destruct (Nat.ltb 1 n) eqn:L.
  - left. apply Nat.ltb_lt in L. apply longest_zeroes_split in E; [|lia].
    do 3 eexists. split; [exact E|]. rewrite !chars_app, !chars_fmt.
    rewrite tokjoin_app by (try apply toks_nonempty; discriminate).
    f_equal. pose proof (toks_nonempty (skipn (start + n) (ipv6_segments ip))) as N.
    destruct (toks (skipn (start + n) (ipv6_segments ip))); [congruence|]. reflexivity.
  - right. apply chars_fmt.
Qed.
Lemma display_tokens_free ip : to_ipv4_mapped ip = None ->
  forall c, ~ hexdigit c -> c <> ":" -> free c (chars (ipv6_display ip)).
Proof.
  intros M c D N.
  assert (T : forall l, Forall (free c) l -> free c (tokjoin l)).
  { induction l as [|t l IH]; intros F; [intros []|]. inversion F; subst. destruct l as [|u l]; [assumption|].
    rewrite tokjoin_cons. apply free_app. split; [assumption|]. apply free_cons. split; [congruence|]. apply IH. assumption. }
  assert (K : forall segs, Forall (free c) (toks segs)).
  { intros [|s segs]; [repeat constructor; intros []|]. unfold toks. apply Forall_map, Forall_forall.
    intros n _. apply hex_free, D. }
  destruct (ipv6_tokens ip M) as [(a & n & b & _ & ->)|E]; [|rewrite E; apply T, K].
  apply T. apply Forall_app. split; [apply K|]. constructor; [intros []|apply K].
Qed.
Lemma mapped_chars ip v : to_ipv4_mapped ip = Some v ->
  chars (ipv6_display ip) = [":"; ":"; "f"; "f"; "f"; "f"; ":"] ++ chars (ipv4_display v).
Proof. intros M. unfold ipv6_display. rewrite M, chars_app. reflexivity. Qed.
Lemma ipv4_has_dot v : In "." (chars (ipv4_display v)).
Proof. destruct v. rewrite ipv4_chars. apply in_app_iff. right. left. reflexivity. Qed.
Lemma ipv6_free c ip : ~ hexdigit c -> c <> ":" -> c <> "." -> free c (chars (ipv6_display ip)).
Proof.
  intros D N1 N2. destruct (to_ipv4_mapped ip) as [v|] eqn:M.
  - rewrite (mapped_chars _ _ M). apply free_app. split; [|apply ipv4_free; auto; intros X; apply D; left; exact X].
    intros I. cbn [In] in I. repeat destruct I as [I|I]; try congruence; apply D; right; subst; cbn [In]; tauto.
  - apply display_tokens_free; auto.
Qed.

Lemma ipv6_inj x y : chars (ipv6_display x) = chars (ipv6_display y) -> x = y.
Proof.
  intros E. destruct (to_ipv4_mapped x) as [v|] eqn:Mx, (to_ipv4_mapped y) as [w|] eqn:My.
  - rewrite (mapped_chars _ _ Mx), (mapped_chars _ _ My) in E. apply app_inv_head, ipv4_inj in E. subst w.
    eapply mapped_inj; eauto.
  - exfalso. apply (display_tokens_free _ My "."); [not_digit|discriminate|].
    rewrite <- E, (mapped_chars _ _ Mx). apply in_app_iff. right. apply ipv4_has_dot.
  - exfalso. apply (display_tokens_free _ Mx "."); [not_digit|discriminate|].
    rewrite E, (mapped_chars _ _ My). apply in_app_iff. right. apply ipv4_has_dot.
  - apply segments_inj.
    assert (FC : forall a b, Forall (free ":") (toks a ++ [] :: toks b)).
    { intros a b. apply Forall_app. split; [apply toks_free|]. constructor; [intros []|apply toks_free]. }
    assert (NC : forall a b, toks a ++ [] :: toks b <> []) by (intros a b; destruct (toks a); discriminate).
    assert (SO : forall ip, ~ In [] (toks (ipv6_segments ip))).
    { intros ip I. pose proof (segments_length ip) as L. destruct (ipv6_segments ip) as [|s l]; [discriminate|].
      pose proof (toks_solid s l) as F. rewrite Forall_forall in F. exact (F _ I eq_refl). }
    destruct (ipv6_tokens x Mx) as [(a & n & b & Sx & Ex)|Ex], (ipv6_tokens y My) as [(a' & n' & b' & Sy & Ey)|Ey];
      rewrite Ex, Ey in E; apply tokjoin_inj in E; auto using toks_nonempty, toks_free.
    + apply compressed_inj in E as [<- <-].
      pose proof (segments_length x) as Lx. pose proof (segments_length y) as Ly.
      rewrite Sx, !app_length, repeat_length in Lx. rewrite Sy, !app_length, repeat_length in Ly.
      rewrite Sx, Sy. replace n' with n by lia. reflexivity.
    + exfalso. apply (SO y). rewrite <- E. apply in_app_iff. right. left. reflexivity.
    + exfalso. apply (SO x). rewrite E. apply in_app_iff. right. left. reflexivity.
    + apply toks_inj, E.
Qed.
