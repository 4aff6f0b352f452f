(** * Reading the generated text: the items of a module *)
From Coq Require Import String Ascii List NArith Bool Strings.Byte Lia ZifyBool ZifyNat ZifyN.
From Verif Require Import Prelude PreludeFacts AvpSpec Accessors CodeGen CodeGenSpec CodeGenFacts Inflect InflectFacts SourceSpec PropSource GenText Rust GenLex CodeAccessors GenTree GenStep.
Import ListNotations.
Local Open Scope string_scope.
Local Open Scope N_scope.
Local Open Scope list_scope.

(** ** A text in the file *)
Definition in_file (t : text) : string := string_of_bytes (utf8_text t).
Lemma in_file_app a b : in_file (a ++ b) = (in_file a ++ in_file b)%string.
Proof.
  unfold in_file, utf8_text. rewrite flat_map_app. generalize (flat_map utf8_char a) as x. generalize (flat_map utf8_char b) as y.
  intros y x. unfold string_of_bytes, string_of_list_byte. rewrite map_app.
  induction x as [|c x IH]; [reflexivity|]. cbn. now rewrite IH.
Qed.
Definition in_file_char (c : N) : ascii := ascii_of_byte (n2b c).
Lemma in_file_cons c t : c < 128 -> in_file (c :: t) = String (in_file_char c) (in_file t).
Proof.
  intro H. unfold in_file, utf8_text. cbn [flat_map]. unfold utf8_char at 1. replace (c <? 128) with true by lia. reflexivity.
Qed.
Lemma code_in_file c : c < 128 -> code_of (in_file_char c) = c.
Proof.
  intro H. unfold code_of, in_file_char. rewrite <- (b2n_n2b_small c) at 2 by lia. unfold b2n.
  now destruct (n2b c).
Qed.
Lemma char_in_file c : code_of c < 128 -> in_file_char (code_of c) = c.
Proof.
  intro H. unfold in_file_char, code_of. unfold n2b. rewrite N.mod_small by (unfold code_of in H; lia).
  destruct c as [[] [] [] [] [] [] [] []]; first [reflexivity|exfalso; vm_compute in H; discriminate H].
Qed.
Definition plain (s : string) : bool := all_chars (fun c => code_of c <? 128) s.
Lemma in_file_lit s : plain s = true -> in_file (lit_text s) = s.
Proof.
  induction s as [|c s IH]; intro H; [reflexivity|]. cbn in H. apply andb_prop in H as [H1 H2].
  change (lit_text (String c s)) with (code_of c :: lit_text s). rewrite in_file_cons by lia. rewrite char_in_file by lia. now rewrite IH.
Qed.
Lemma dec_plain n : plain (dec n) = true.
Proof. eapply chars_impl; [|apply dec_digits]. intros c. unfold is_digit. lia. Qed.
Lemma in_file_dec n : in_file (dec_text n) = dec n.
Proof. apply in_file_lit, dec_plain. Qed.
Lemma in_file_chars (P : N -> Prop) (q : ascii -> bool) t : (forall c, P c -> c < 128 /\ forall a, code_of a = c -> q a = true) ->
  Forall P t -> all_chars q (in_file t) = true.
Proof.
  intros I F. induction F as [|c t H F IH]; [reflexivity|]. destruct (I c H) as [L Q]. rewrite in_file_cons by assumption.
  cbn [all_chars]. now rewrite (Q _ (code_in_file c L)), IH.
Qed.

(** ** A template in the file *)
Definition plain_template (ps : list piece) : bool := forallb (fun p => match p with T s => plain s | _ => true end) ps.
Definition the_env (f : filling) : env :=
  Env (in_file (f_method f)) (in_file (f_type_id f)) (f_type_value f) (f_fixed_length f) (in_file (f_value_type f)).
Lemma format_in_file f ps : plain_template ps = true -> in_file (format f ps) = rendered (the_env f) ps.
Proof.
  induction ps as [|p ps IH]; intro H; [reflexivity|]. cbn in H. apply andb_prop in H as [H1 H2].
  cbn [format flat_map rendered]. rewrite in_file_app. fold (format f ps). rewrite (IH H2). f_equal.
  destruct p; cbn [fill value_of the_env v_method v_type_id v_type_value v_fixed_length v_value_type]; try reflexivity.
  - now apply in_file_lit.
  - apply in_file_dec.
  - apply in_file_dec.
Qed.
Lemma templates_plain k : plain_template (common_template ++ template_of k) = true.
Proof. destruct k; vm_compute; reflexivity. Qed.

(** ** Names *)
(** the name has letters or digits, and the first of them is a letter *)
Definition lettered (n : text) : Prop := spelled n /\ ~ first_is_digit n.
Lemma word_of_text t : Forall (fun c => alnum c = true \/ c = 95) t -> all_chars is_word (in_file t) = true.
Proof.
  apply in_file_chars. intros c H. split.
  - destruct H as [H| ->]; [unfold alnum, lower, upper, digit_char in H; lia|lia].
  - intros a <-. unfold is_word, is_digit, is_upper. destruct H as [H|H]; [unfold alnum, lower, upper, digit_char in H; lia|lia].
Qed.
Lemma capital_of_text c t : upper c = true -> capitalised (in_file (c :: t)) = true.
Proof.
  intro H. assert (L : c < 128) by (unfold upper in H; lia). rewrite in_file_cons by assumption. cbn. unfold is_upper. rewrite (code_in_file c L).
  exact H.
Qed.
Lemma capitalised_begins s : capitalised s = true -> begins s = true.
Proof. destruct s as [|c s]; [discriminate|]. cbn. unfold is_upper, is_digit. lia. Qed.

Section Names.
Context (U : unicode).
Lemma lettered_screaming n : lettered n -> exists c r, to_screaming_snake_case U n = c :: r /\ upper c = true
  /\ Forall (fun c => alnum c = true \/ c = 95) (c :: r).
Proof.
  intros (Sp & D). pose proof (spelled_good n Sp) as (A & Sq). destruct (snake_chars U n A) as (_ & F).
  destruct (C70_letters U n A) as (_ & E2 & _).
  destruct (screaming_first U n A) as [(E & _)|(c & r & E & Dg & Up)].
  - rewrite E in E2. cbn in E2. congruence.
  - exists c, r. split; [exact E|]. rewrite E in F. split.
    + apply Up. destruct (digit_char c) eqn:X; [|reflexivity]. exfalso. apply D. now apply Dg.
    + eapply Forall_impl; [|exact F]. now intros ? (? & _).
Qed.
Lemma lettered_pascal n : lettered n -> exists c r, to_pascal_case U n = c :: r /\ upper c = true
  /\ Forall (fun c => alnum c = true) (c :: r).
Proof.
  intros L. destruct (lettered_screaming n L) as (d & r' & E & Ud & _). destruct L as (Sp & D).
  pose proof (spelled_good n Sp) as (A & Sq). destruct (C70_letters U n A) as (_ & E2 & E3).
  destruct (pascal_facts U n A) as (_ & F). destruct (pascal_first U n A) as [P|(c & r & P & Lc)]; rewrite P in *.
  - cbn in E3. congruence.
  - exists c, r. split; [reflexivity|]. split; [|exact F]. inversion F as [|? ? Ac _]; subst.
    destruct (digit_char c) eqn:X; [exfalso|unfold alnum in Ac; rewrite Lc, X in Ac; now rewrite orb_false_r in Ac].
    rewrite E in E2. rewrite <- E2 in E3. rewrite (squash_cons c), (squash_cons d) in E3.
    unfold squash in E3. cbn [flat_map] in E3. unfold upper, lower, digit_char in *.
    repeat match type of E3 with context [if ?b then _ else _] => destruct b eqn:? end; try lia; cbn in E3; injection E3; lia.
Qed.
End Names.

Definition yields (t : text) (c : nat) (is : list aitem) : Prop := exists ts, lexes (in_file t) ts /\ reads c ts is.
Lemma yields_app a b c d is js : yields a c is -> yields b d js -> yields (a ++ b) (c + d) (is ++ js).
Proof.
  intros (ts & L & R) (us & L' & R'). exists (ts ++ us). rewrite in_file_app. split; [now apply lexes_app|now apply reads_app].
Qed.
Lemma yields_flat_map {A} (f : A -> text) (g : A -> list aitem) (P : A -> Prop) l :
  (forall x, P x -> exists c, yields (f x) c (g x)) -> Forall P l -> exists c, yields (flat_map f l) c (flat_map g l).
Proof.
  intros H F. induction F as [|x l Px F [c IH]]; cbn [flat_map].
  - exists 0%nat, []. split; [exact lexes_nil|exact reads_nil].
  - destruct (H x Px) as [d D]. exists (d + c)%nat. now apply yields_app.
Qed.
(** a template that stands for items *)
Lemma yields_template alone f ps c is : plain_template ps = true -> complete alone ps = true -> words alone (the_env f) ->
  reads c (map (the_token (the_env f)) (template_tokens alone ps)) is -> yields (format f ps) c is.
Proof.
  intros Pl C W R. exists (map (the_token (the_env f)) (template_tokens alone ps)). split; [|exact R].
  rewrite format_in_file by assumption. now apply template_lexes.
Qed.

(** ** An attribute *)
Section Attribute.
Context (U : unicode).
Definition snake_name (n : text) : string := in_file (to_snake_case U n).
Definition type_name (n : text) : string := in_file (to_pascal_case U n).
Definition number_name (n : text) : string := in_file (to_screaming_snake_case U n ++ lit_text "_TYPE").
Definition attribute_aitems (g : gen_attribute) : list aitem :=
  ([], IConst (number_name (ga_name g)) (named "AVPType") (ENum (ga_typ g)))
  :: map (fun f => ([], IFn f)) (raw_fns (ga_kind g) (snake_name (ga_name g)) (number_name (ga_name g)) (type_name (ga_name g))).

Lemma number_name_word n : lettered n -> all_chars is_word (number_name n) = true /\ capitalised (number_name n) = true.
Proof.
  intro L. destruct (lettered_screaming U n L) as (c & r & E & Up & F). unfold number_name. rewrite E. split.
  - apply word_of_text. apply Forall_app. split; [exact F|]. cbn. repeat (constructor; [(now left) || (now right)|]). constructor.
  - cbn [app]. now apply capital_of_text.
Qed.
Lemma type_name_word n : lettered n -> all_chars is_word (type_name n) = true /\ capitalised (type_name n) = true.
Proof.
  intro L. destruct (lettered_pascal U n L) as (c & r & E & Up & F). unfold type_name. rewrite E. split.
  - apply word_of_text. eapply Forall_impl; [|exact F]. now left.
  - now apply capital_of_text.
Qed.
Lemma snake_name_word n : ascii_text n -> all_chars is_word (snake_name n) = true.
Proof. intro A. apply word_of_text. now apply snake_chars. Qed.
(** the tokens of a template are those of its items, one after the other *)
Lemma template_split k : template_tokens false (common_template ++ template_of k) = concat (item_tokens (common_template ++ template_of k)).
Proof. destruct k; vm_compute; reflexivity. Qed.
Lemma template_items k : exists rest,
  item_tokens (common_template ++ template_of k)
  = [Plain (TId "pub"); Plain (TId "const"); Word "" TypeId; Plain (TP ":"); Plain (TId "AVPType"); Plain (TP "="); Num TypeValue; Plain (TP ";")] :: rest
  /\ Forall (fun l => exists ts, l = Plain (TId "pub") :: Plain (TId "fn") :: ts) rest
  /\ length rest = (1 + (if has_lookup k then 2 else 0) + (if has_all k then 1 else 0))%nat.
Proof.
  destruct k; eexists; (split; [vm_compute; reflexivity|]); (split; [|reflexivity]); repeat (constructor; [eexists; reflexivity|]); constructor.
Qed.
Lemma functions_read e l fs : Forall2 (fun ts f => parses_fn (map (the_token e) (tl (tl ts))) f) l fs ->
  Forall (fun l => exists ts, l = Plain (TId "pub") :: Plain (TId "fn") :: ts) l ->
  reads (length l) (map (the_token e) (concat l)) (map (fun f => ([], IFn f)) fs).
Proof.
  induction 1 as [|ts f l fs P F2 IH]; intro F; [exact reads_nil|]. inversion F as [|? ? [us ->] F']; subst.
  cbn [length concat map]. rewrite map_app. apply (reads_app 1 _ _ _ [_]); [|now apply IH]. now apply reads_fn.
Qed.
Lemma attribute_yields g : lettered (ga_name g) -> exists c,
  yields (attribute_text U (ga_name g) (ga_typ g) (ga_kind g)) c (attribute_aitems g).
Proof.
  destruct g as [n typ k]. cbn [ga_name ga_typ ga_kind]. intro L.
  destruct (number_name_word n L) as [N1 N2]. destruct (type_name_word n L) as [T1 T2].
  pose proof (snake_name_word n (proj1 (proj1 L))) as S1.
  unfold attribute_text. set (f := filling_for U n typ k).
  assert (Ev : the_env f = Env (snake_name n) (number_name n) typ (the_fixed k) (type_name n)) by reflexivity.
  destruct (template_items k) as (rest & E & F & Ln).
  exists (1 + length rest)%nat. apply yields_template with (alone := false).
  - apply templates_plain.
  - apply templates_complete.
  - rewrite Ev. constructor; cbn; auto; [discriminate|..]; split; auto using capitalised_begins.
  - rewrite Ev. rewrite template_split.
    pose proof (delete_parses k (snake_name n) (number_name n) typ (type_name n) N2) as P1.
    pose proof (add_parses k (snake_name n) (number_name n) typ (type_name n) N2 T2) as P2.
    pose proof (lookup_parses k (snake_name n) (number_name n) typ (type_name n) N2 T2) as P3.
    pose proof (lookup_all_parses k (snake_name n) (number_name n) typ (type_name n) N2 T2) as P4.
    unfold fn_tokens in *. rewrite E in *. cbn [nth concat] in *. set (e := Env _ _ _ _ _) in *.
    rewrite map_app. unfold attribute_aitems. cbn [ga_name ga_typ ga_kind].
    apply (reads_app 1 _ _ _ [_]).
    { apply (reads_const (number_name n) [TId "AVPType"] (named "AVPType") typ). intros; apply named_ty; reflexivity. }
    apply functions_read; [|exact F]. unfold raw_fns.
    destruct k; cbn [has_lookup has_all app Nat.add] in *;
      repeat (destruct rest as [|? rest]; try discriminate Ln); cbn [nth] in *; repeat constructor; auto.
Qed.
End Attribute.
