(** * The UTF-8 validator accepts exactly the encodings of sequences of scalar values *)
From Coq Require Import String List NArith ZArith Bool Strings.Byte Lia ZifyBool ZifyNat ZifyN.
From Verif Require Import Prelude PreludeFacts Utf8 AvpSpec.
Import ListNotations.
Local Open Scope N_scope.

Ltac byte_arith :=
  unfold is_cont, utf8_second3, utf8_second4, in_range, utf8_width in *;
  rewrite ?b2n_n2b_small in * by lia.

Lemma utf8_run_char idx c rest : scalar c ->
  utf8_run idx (utf8_char c ++ rest) = utf8_run (idx + len (utf8_char c)) rest.
Proof.
  intros S. unfold scalar in S. unfold utf8_char.
  destruct (c <? 0x80) eqn:E1; [|destruct (c <? 0x800) eqn:E2; [|destruct (c <? 0x10000) eqn:E3]].
  - cbn [app utf8_run]. assert (W : utf8_width (n2b c) = 1).
    { unfold utf8_width, in_range. rewrite b2n_n2b_small by lia.
      replace ((0 <=? c) && (c <=? 0x7F)) with true by lia. reflexivity. }
    rewrite W. reflexivity.
  - cbn [app utf8_run]. assert (W : utf8_width (n2b (0xC0 + c / 64)) = 2).
    { unfold utf8_width, in_range. rewrite b2n_n2b_small by lia.
      repeat match goal with |- context [if ?b then _ else _] => destruct b eqn:? end; lia. }
    rewrite W. cbn [N.eqb Pos.eqb].
    assert (C : is_cont (n2b (0x80 + c mod 64)) = true).
    { unfold is_cont, in_range. rewrite b2n_n2b_small by lia. lia. }
    rewrite C. reflexivity.
  - cbn [app utf8_run]. assert (W : utf8_width (n2b (0xE0 + c / 4096)) = 3).
    { unfold utf8_width, in_range. rewrite b2n_n2b_small by lia.
      repeat match goal with |- context [if ?b then _ else _] => destruct b eqn:? end; lia. }
    rewrite W. cbn [N.eqb Pos.eqb].
    assert (C : is_cont (n2b (0x80 + c mod 64)) = true).
    { unfold is_cont, in_range. rewrite b2n_n2b_small by lia. lia. }
    assert (C2 : utf8_second3 (n2b (0xE0 + c / 4096)) (n2b (0x80 + c / 64 mod 64)) = true).
    { unfold utf8_second3, is_cont, in_range. rewrite !b2n_n2b_small by lia.
      repeat match goal with |- context [if ?b then _ else _] => destruct b eqn:? end; lia. }
    rewrite C2, C. reflexivity.
  - cbn [app utf8_run]. assert (W : utf8_width (n2b (0xF0 + c / 262144)) = 4).
    { unfold utf8_width, in_range. rewrite b2n_n2b_small by lia.
      repeat match goal with |- context [if ?b then _ else _] => destruct b eqn:? end; lia. }
    rewrite W. cbn [N.eqb Pos.eqb].
    assert (C : forall x, is_cont (n2b (0x80 + x mod 64)) = true).
    { intros x. unfold is_cont, in_range. rewrite b2n_n2b_small by lia. lia. }
    assert (C2 : utf8_second4 (n2b (0xF0 + c / 262144)) (n2b (0x80 + c / 4096 mod 64)) = true).
    { unfold utf8_second4, is_cont, in_range. rewrite !b2n_n2b_small by lia.
      repeat match goal with |- context [if ?b then _ else _] => destruct b eqn:? end; lia. }
    rewrite C2, !C. reflexivity.
Qed.

Lemma utf8_run_text cs : Forall scalar cs -> forall idx, utf8_run idx (utf8_text cs) = None.
Proof.
  induction 1 as [|c cs S _ IH]; intros idx; auto.
  unfold utf8_text. simpl. rewrite utf8_run_char by exact S. apply IH.
Qed.

Lemma width_cases b : utf8_width b = 1 /\ b2n b < 0x80
  \/ utf8_width b = 2 /\ 0xC2 <= b2n b <= 0xDF \/ utf8_width b = 3 /\ 0xE0 <= b2n b <= 0xEF
  \/ utf8_width b = 4 /\ 0xF0 <= b2n b <= 0xF4 \/ utf8_width b = 0.
Proof.
  unfold utf8_width, in_range.
  repeat match goal with |- context [if ?b then _ else _] => destruct b eqn:? end; lia.
Qed.

Lemma is_cont_iff b : is_cont b = true -> 0x80 <= b2n b <= 0xBF.
Proof. unfold is_cont, in_range. lia. Qed.

Lemma utf8_run_valid n : forall bs idx, (length bs <= n)%nat -> utf8_run idx bs = None -> is_str bs.
Proof.
  induction n as [|n IH]; intros bs idx L H.
  { destruct bs; [|simpl in L; lia]. exists []. split; [constructor|reflexivity]. }
  destruct bs as [|b0 r0]; [exists []; split; [constructor|reflexivity]|].
  assert (K : forall c bs' rest idx', bs' = utf8_char c ++ rest -> scalar c ->
    (length rest <= n)%nat -> utf8_run idx' rest = None -> is_str bs').
  { intros c bs' rest idx' -> S Lr Hr. destruct (IH rest idx' Lr Hr) as (cs & F & ->).
    exists (c :: cs). split; [constructor; assumption|reflexivity]. }
  cbn [utf8_run] in H. simpl in L.
  destruct (width_cases b0) as [[W R]|[[W R]|[[W R]|[[W R]|W]]]]; rewrite W in H;
    cbn [N.eqb Pos.eqb] in H; try discriminate.
  - eapply (K (b2n b0)); [|left; lia| |exact H]; [|lia].
    unfold utf8_char. replace (b2n b0 <? 0x80) with true by lia. rewrite n2b_b2n. reflexivity.
  - destruct r0 as [|b1 r1]; [discriminate|]. destruct (is_cont b1) eqn:C1; [|discriminate].
    apply is_cont_iff in C1. simpl in L.
    eapply (K ((b2n b0 - 0xC0) * 64 + (b2n b1 - 0x80))); [|left; lia| |exact H]; [|lia].
    unfold utf8_char.
    set (c := (b2n b0 - 0xC0) * 64 + (b2n b1 - 0x80)).
    replace (c <? 0x80) with false by lia. replace (c <? 0x800) with true by lia.
    cbn [app]. f_equal; [|f_equal]; apply b2n_inj; rewrite b2n_n2b_small; lia.
  - destruct r0 as [|b1 r1]; [discriminate|]. destruct (utf8_second3 b0 b1) eqn:C1; [|discriminate].
    destruct r1 as [|b2 r2]; [discriminate|]. destruct (is_cont b2) eqn:C2; [|discriminate].
    apply is_cont_iff in C2. simpl in L.
    assert (C1' : 0x80 <= b2n b1 <= 0xBF /\ (b2n b0 = 0xE0 -> 0xA0 <= b2n b1)
                  /\ (b2n b0 = 0xED -> b2n b1 <= 0x9F)).
    { unfold utf8_second3, is_cont, in_range in C1.
      destruct (b2n b0 =? 0xE0) eqn:?; [lia|]. destruct (b2n b0 =? 0xED) eqn:?; lia. }
    clear C1. destruct C1' as (C1 & C1a & C1b).
    set (c := (b2n b0 - 0xE0) * 4096 + (b2n b1 - 0x80) * 64 + (b2n b2 - 0x80)).
    assert (Sc : scalar c /\ 0x800 <= c < 0x10000).
    { unfold scalar, c. destruct (N.eq_dec (b2n b0) 0xE0), (N.eq_dec (b2n b0) 0xED); lia. }
    destruct Sc as [Sc Sr].
    eapply (K c); [|exact Sc| |exact H]; [|lia]. unfold utf8_char.
    replace (c <? 0x80) with false by lia. replace (c <? 0x800) with false by lia.
    replace (c <? 0x10000) with true by lia.
    cbn [app]. f_equal; [|f_equal; [|f_equal]]; apply b2n_inj; rewrite b2n_n2b_small; unfold c; lia.
  - destruct r0 as [|b1 r1]; [discriminate|]. destruct (utf8_second4 b0 b1) eqn:C1; [|discriminate].
    destruct r1 as [|b2 r2]; [discriminate|]. destruct (is_cont b2) eqn:C2; [|discriminate].
    destruct r2 as [|b3 r3]; [discriminate|]. destruct (is_cont b3) eqn:C3; [|discriminate].
    apply is_cont_iff in C2. apply is_cont_iff in C3. simpl in L.
    assert (C1' : 0x80 <= b2n b1 <= 0xBF /\ (b2n b0 = 0xF0 -> 0x90 <= b2n b1)
                  /\ (b2n b0 = 0xF4 -> b2n b1 <= 0x8F)).
    { unfold utf8_second4, is_cont, in_range in C1.
      destruct (b2n b0 =? 0xF0) eqn:?; [lia|]. destruct (b2n b0 =? 0xF4) eqn:?; lia. }
    clear C1. destruct C1' as (C1 & C1a & C1b).
    set (c := (b2n b0 - 0xF0) * 262144 + (b2n b1 - 0x80) * 4096 + (b2n b2 - 0x80) * 64 + (b2n b3 - 0x80)).
    assert (Sr : 0x10000 <= c < 0x110000).
    { unfold c. destruct (N.eq_dec (b2n b0) 0xF0), (N.eq_dec (b2n b0) 0xF4); lia. }
    eapply (K c); [|right; lia| |exact H]; [|lia]. unfold utf8_char.
    replace (c <? 0x80) with false by lia. replace (c <? 0x800) with false by lia.
    replace (c <? 0x10000) with false by lia.
    cbn [app]. f_equal; [|f_equal; [|f_equal; [|f_equal]]]; apply b2n_inj; rewrite b2n_n2b_small; unfold c; lia.
Qed.

Lemma from_utf8_iff bs s : from_utf8 bs = Ok s <-> s = bs /\ is_str bs.
Proof.
  unfold from_utf8. destruct (utf8_run 0 bs) as [e|] eqn:E; split.
  - discriminate.
  - intros [_ (cs & F & ->)]. rewrite utf8_run_text in E by exact F. discriminate.
  - intros H. injection H as <-. split; [reflexivity|]. eapply utf8_run_valid; [apply Nat.le_refl|exact E].
  - intros [-> _]. reflexivity.
Qed.

Lemma from_utf8_total bs : (is_str bs /\ from_utf8 bs = Ok bs)
  \/ (~ is_str bs /\ exists e, from_utf8 bs = Err e).
Proof.
  destruct (from_utf8 bs) as [s|e| |] eqn:E.
  - apply from_utf8_iff in E as [-> S]. auto.
  - right. split; [|eauto]. intros S. assert (X : from_utf8 bs = Ok bs) by (apply from_utf8_iff; auto).
    congruence.
  - unfold from_utf8 in E. destruct (utf8_run 0 bs); discriminate.
  - unfold from_utf8 in E. destruct (utf8_run 0 bs); discriminate.
Qed.

(** where the reported error points: the longest valid prefix *)
Lemma utf8_run_idx n : forall bs idx e, (length bs <= n)%nat -> utf8_run idx bs = Some e ->
  exists cs rest, Forall scalar cs /\ bs = utf8_text cs ++ rest
    /\ valid_up_to e = idx + len (utf8_text cs).
Proof.
  induction n as [|n IH]; intros bs idx e L H.
  { destruct bs; [discriminate|simpl in L; lia]. }
  destruct bs as [|b0 r0]; [discriminate|].
  assert (Stop : forall l, e = Utf8Error idx l -> exists cs rest, Forall scalar cs
            /\ b0 :: r0 = utf8_text cs ++ rest /\ valid_up_to e = idx + len (utf8_text cs)).
  { intros l ->. exists [], (b0 :: r0). repeat split; [constructor|]. cbn. unfold len. simpl. lia. }
  assert (K : forall k pre rest, b0 :: r0 = pre ++ rest -> len pre = k -> pre <> [] -> is_str pre ->
            utf8_run (idx + k) rest = Some e -> exists cs rest, Forall scalar cs
            /\ b0 :: r0 = utf8_text cs ++ rest /\ valid_up_to e = idx + len (utf8_text cs)).
  { intros k pre rest E Lp Np (cs0 & F0 & ->) Hr. rewrite E.
    assert (Lr : (length rest <= n)%nat).
    { apply (f_equal (@length byte)) in E. rewrite app_length in E. simpl in E, L.
      destruct (utf8_text cs0); [congruence|]. simpl in E. lia. }
    destruct (IH rest _ e Lr Hr) as (cs & rest' & F & -> & V).
    exists (cs0 ++ cs), rest'. split; [apply Forall_app; auto|].
    unfold utf8_text in *. rewrite flat_map_app. split; [rewrite app_assoc; reflexivity|].
    rewrite len_app, V. lia. }
  assert (Str : forall pre, utf8_run 0 pre = None -> is_str pre).
  { intros pre. apply (utf8_run_valid (length pre)). lia. }
  cbn [utf8_run] in H.
  destruct (width_cases b0) as [[W R]|[[W R]|[[W R]|[[W R]|W]]]]; rewrite W in H;
    cbn [N.eqb Pos.eqb] in H; try (injection H as <-; eapply Stop; reflexivity).
  - apply (K 1 [b0] r0); auto; [discriminate|]. apply Str. cbn [utf8_run]. rewrite W. reflexivity.
  - destruct r0 as [|b1 r1]; [injection H as <-; eapply Stop; reflexivity|].
    destruct (is_cont b1) eqn:C1; [|injection H as <-; eapply Stop; reflexivity].
    apply (K 2 [b0; b1] r1); auto; [discriminate|]. apply Str. cbn [utf8_run]. rewrite W, C1. reflexivity.
  - destruct r0 as [|b1 r1]; [injection H as <-; eapply Stop; reflexivity|].
    destruct (utf8_second3 b0 b1) eqn:C1; [|injection H as <-; eapply Stop; reflexivity].
    destruct r1 as [|b2 r2]; [injection H as <-; eapply Stop; reflexivity|].
    destruct (is_cont b2) eqn:C2; [|injection H as <-; eapply Stop; reflexivity].
    apply (K 3 [b0; b1; b2] r2); auto; [discriminate|]. apply Str. cbn [utf8_run].
    rewrite W, C1, C2. reflexivity.
  - destruct r0 as [|b1 r1]; [injection H as <-; eapply Stop; reflexivity|].
    destruct (utf8_second4 b0 b1) eqn:C1; [|injection H as <-; eapply Stop; reflexivity].
    destruct r1 as [|b2 r2]; [injection H as <-; eapply Stop; reflexivity|].
    destruct (is_cont b2) eqn:C2; [|injection H as <-; eapply Stop; reflexivity].
    destruct r2 as [|b3 r3]; [injection H as <-; eapply Stop; reflexivity|].
    destruct (is_cont b3) eqn:C3; [|injection H as <-; eapply Stop; reflexivity].
    apply (K 4 [b0; b1; b2; b3] r3); auto; [discriminate|]. apply Str. cbn [utf8_run].
    rewrite W, C1, C2, C3. reflexivity.
Qed.
