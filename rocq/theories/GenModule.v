(** * Reading the generated text: a whole module *)
From Coq Require Import String Ascii List NArith Bool Strings.Byte Lia ZifyBool ZifyNat ZifyN.
From Verif Require Import Prelude PreludeFacts AvpSpec Accessors CodeGen CodeGenSpec CodeGenFacts Inflect InflectFacts SourceSpec GenTextFacts PropSource GenText Rust GenLex CodeAccessors GenTree GenStep GenItems.
Import ListNotations.
Local Open Scope string_scope.
Local Open Scope N_scope.
Local Open Scope list_scope.

(** ** Values *)
Definition type_pieces : list piece := [T "
pub type "; ValueType; T " = u32;
"].
Definition constant_pieces (elsewhere : bool) : list piece :=
  [T "pub const "; TypeId; T ": "] ++ (if elsewhere then [Method; T "::"] else []) ++ [ValueType; T " = "; TypeValue; T ";
"].
Lemma identifier_words r : rust_identifier (tok r) ->
  in_file (lit_text r) = r /\ all_chars is_word r = true /\ begins r = true /\ r <> "dyn" /\ r <> "impl".
Proof.
  intros (K & c & t & E & C & F).
  assert (W : Forall (fun c => alnum c = true \/ c = 95) (tok r)).
  { rewrite E. constructor; [|exact F]. unfold alnum. destruct C as [->|[->|[-> _]]]; [left..|now right].
    - reflexivity.
    - now rewrite orb_true_r. }
  assert (Pl : plain r = true).
  { unfold plain. clear - W. induction r as [|a r IH]; [reflexivity|]. change (tok (String a r)) with (code_of a :: tok r) in W.
    inversion W as [|? ? A W']; subst. cbn [all_chars]. rewrite IH by assumption. rewrite andb_true_r.
    destruct A as [A|A]; [unfold alnum, lower, upper, digit_char in A; lia|lia]. }
  assert (I : in_file (lit_text r) = r) by now apply in_file_lit.
  split; [exact I|]. split; [|split].
  - rewrite <- I. now apply word_of_text.
  - destruct r as [|a r]; [discriminate E|]. change (tok (String a r)) with (code_of a :: tok r) in E. injection E as Ec _.
    cbn. unfold is_digit. rewrite Ec. destruct C as [C|[C|[-> _]]]; [unfold lower in C; lia|unfold upper in C; lia|reflexivity].
  - split; intros ->; apply K; vm_compute; tauto.
Qed.
Section Values.
Context (U : unicode).
Notation type_name := (type_name U).
Definition constant_name (attr value : text) : string :=
  in_file (to_screaming_snake_case U (to_pascal_case U attr) ++ lit_text "_" ++ to_screaming_snake_case U value).
Definition constant_ty (attr : text) (rfc : option string) : ty :=
  match rfc with Some r => TyName [r; type_name attr] [] | None => named (type_name attr) end.
Definition entry_aitems (names : list (text * string)) (e : text * list radius_value) : list aitem :=
  (match rfc_of names (fst e) with None => [([], IType (type_name (fst e)) (named "u32"))] | Some _ => [] end)
  ++ map (fun v => ([], IConst (constant_name (fst e) (rv_name v)) (constant_ty (fst e) (rfc_of names (fst e))) (ENum (rv_value v)))) (snd e).

Lemma pascal_lettered n : lettered n -> lettered (to_pascal_case U n).
Proof.
  intro L. destruct (lettered_pascal U n L) as (c & r & E & Up & F). rewrite E. split; [split|].
  - eapply Forall_impl; [|exact F]. exact alnum_lt.
  - exists c. split; [now left|]. now inversion F.
  - intros (b & d & a & X & D & Fb). inversion F as [|? ? Ac _]; subst. destruct b as [|x b]; cbn in X; injection X as <- _.
    + unfold upper, digit_char in *. lia.
    + inversion Fb. congruence.
Qed.
Lemma constant_name_word a v : lettered a -> ascii_text v ->
  all_chars is_word (constant_name a v) = true /\ capitalised (constant_name a v) = true.
Proof.
  intros L A. destruct (lettered_screaming U _ (pascal_lettered a L)) as (c & r & E & Up & F). unfold constant_name. rewrite E.
  split; [|now apply capital_of_text]. apply word_of_text. apply Forall_app. split; [exact F|].
  constructor; [now right|]. destruct (snake_chars U v A) as (_ & F'). eapply Forall_impl; [|exact F']. now intros ? (? & _).
Qed.
Lemma reads_type y : capitalised y = true ->
  reads 1 [TId "pub"; TId "type"; TId y; TP "="; TId "u32"; TP ";"] [([], IType y (named "u32"))].
Proof.
  intros H n rest. change (1 + (100 + n))%nat with (S (S (99 + n))). cbn [app]. rewrite step_type.
  change (S (99 + n)) with (100 + n)%nat.
  replace (p_ty (100 + n) (TId "u32" :: TP ";" :: rest)) with (Some (named "u32", TP ";" :: rest)) by (vm_compute; reflexivity).
  reflexivity.
Qed.
Lemma type_yields n : lettered n ->
  yields (([10] : text) ++ lit_text "pub type " ++ to_pascal_case U n ++ lit_text " = u32;" ++ [10]) 1 [([], IType (type_name n) (named "u32"))].
Proof.
  intro L. destruct (type_name_word U n L) as [T1 T2].
  set (f := Filling (lit_text "a") (lit_text "A") 0 0 (to_pascal_case U n)).
  replace (([10] : text) ++ lit_text "pub type " ++ to_pascal_case U n ++ lit_text " = u32;" ++ [10]) with (format f type_pieces) by reflexivity.
  apply yields_template with (alone := false); [vm_compute; reflexivity|vm_compute; reflexivity| |].
  - unfold the_env, f. cbn [f_method f_type_id f_type_value f_fixed_length f_value_type]. constructor; cbn [v_method v_type_id v_value_type].
    + vm_compute; reflexivity.
    + discriminate.
    + split; vm_compute; reflexivity.
    + split; [exact T1|now apply capitalised_begins].
  - now apply reads_type.
Qed.
Lemma constant_yields a rfc v : lettered a -> ascii_text (rv_name v) ->
  (forall r, rfc = Some r -> rust_identifier (tok r)) ->
  yields (GenText.constant_text U (to_pascal_case U a) rfc v) 1
    [([], IConst (constant_name a (rv_name v)) (constant_ty a rfc) (ENum (rv_value v)))].
Proof.
  intros L A I. destruct (type_name_word U a L) as [T1 T2]. destruct (constant_name_word a (rv_name v) L A) as [C1 C2].
  set (name := to_screaming_snake_case U (to_pascal_case U a) ++ lit_text "_" ++ to_screaming_snake_case U (rv_name v)).
  destruct rfc as [r|]; cbn [constant_ty].
  - destruct (identifier_words r (I r eq_refl)) as (R1 & R2 & R3 & R4 & R5).
    set (f := Filling (lit_text r) name (rv_value v) 0 (to_pascal_case U a)).
    replace (GenText.constant_text U (to_pascal_case U a) (Some r) v) with (format f (constant_pieces true)).
    2: { unfold GenText.constant_text, format, constant_pieces. cbn [flat_map fill app f f_method f_type_id f_type_value f_value_type]. unfold name.
         rewrite <- !app_assoc. reflexivity. }
    apply yields_template with (alone := true); [vm_compute; reflexivity|vm_compute; reflexivity| |].
    + unfold the_env, f. cbn [f_method f_type_id f_type_value f_fixed_length f_value_type]. constructor; cbn [v_method v_type_id v_value_type].
      * now rewrite R1.
      * now rewrite R1.
      * split; [exact C1|now apply capitalised_begins].
      * split; [exact T1|now apply capitalised_begins].
    + unfold the_env, f. cbn [f_method f_type_id f_type_value f_fixed_length f_value_type]. rewrite R1.
      refine (reads_const _ [TId r; TP "::"; TId (type_name a)] (TyName [r; type_name a] []) _ _).
      intros n rest. cbn [app]. change (100 + n)%nat with (S (S (98 + n))). rewrite path_ty by assumption. now rewrite named_ty.
  - set (f := Filling (lit_text "a") name (rv_value v) 0 (to_pascal_case U a)).
    replace (GenText.constant_text U (to_pascal_case U a) None v) with (format f (constant_pieces false)).
    2: { unfold GenText.constant_text, format, constant_pieces. cbn [flat_map fill app f f_method f_type_id f_type_value f_value_type]. unfold name.
         rewrite <- !app_assoc. reflexivity. }
    apply yields_template with (alone := false); [vm_compute; reflexivity|vm_compute; reflexivity| |].
    + unfold the_env, f. cbn [f_method f_type_id f_type_value f_fixed_length f_value_type]. constructor; cbn [v_method v_type_id v_value_type].
      * vm_compute; reflexivity.
      * discriminate.
      * split; [exact C1|now apply capitalised_begins].
      * split; [exact T1|now apply capitalised_begins].
    + refine (reads_const _ [TId (type_name a)] (named (type_name a)) _ _).
      intros n rest. now apply named_ty.
Qed.
Lemma entry_yields names e :
  Forall (fun n => rust_identifier (tok (snd n))) names ->
  (rfc_of names (fst e) = None \/ snd e <> [] -> lettered (fst e)) ->
  Forall (fun v => ascii_text (rv_name v)) (snd e) ->
  exists c, yields (values_text U (fst e) (snd e) (rfc_of names (fst e))) c (entry_aitems names e).
Proof.
  intros P G F. unfold values_text, entry_aitems.
  assert (Pr : forall r, rfc_of names (fst e) = Some r -> rust_identifier (tok r)).
  { intros r H. unfold rfc_of in H. destruct (find _ names) as [x|] eqn:X; [|discriminate H]. injection H as <-.
    apply find_some in X. rewrite Forall_forall in P. now apply P. }
  assert (Lf : yields [10] 0 []) by (exists []; split; [intro; reflexivity|exact reads_nil]).
  assert (Cs : exists c, yields (flat_map (GenText.constant_text U (to_pascal_case U (fst e)) (rfc_of names (fst e))) (snd e)) c
    (map (fun v => ([], IConst (constant_name (fst e) (rv_name v)) (constant_ty (fst e) (rfc_of names (fst e))) (ENum (rv_value v)))) (snd e))).
  { destruct (snd e) as [|v0 vs] eqn:V.
    - exists 0%nat, []. split; [exact lexes_nil|exact reads_nil].
    - rewrite <- V in *. assert (L : lettered (fst e)) by (apply G; right; congruence).
      destruct (yields_flat_map (GenText.constant_text U (to_pascal_case U (fst e)) (rfc_of names (fst e)))
        (fun v => [([], IConst (constant_name (fst e) (rv_name v)) (constant_ty (fst e) (rfc_of names (fst e))) (ENum (rv_value v)))])
        (fun v => ascii_text (rv_name v)) (snd e)) as [c C].
      + intros v A. exists 1%nat. now apply constant_yields.
      + exact F.
      + exists c.
        replace (map (fun v => ([], IConst (constant_name (fst e) (rv_name v)) (constant_ty (fst e) (rfc_of names (fst e))) (ENum (rv_value v)))) (snd e))
          with (flat_map (fun v => [(@nil (list token), IConst (constant_name (fst e) (rv_name v)) (constant_ty (fst e) (rfc_of names (fst e))) (ENum (rv_value v)))]) (snd e)).
        * exact C.
        * clear. induction (snd e) as [|v l IH]; [reflexivity|]. cbn. now rewrite IH. }
  destruct Cs as [c C]. destruct (rfc_of names (fst e)) as [r|].
  - exists (c + 0)%nat. cbn [app]. rewrite <- (app_nil_r (map _ (snd e))). now apply yields_app.
  - exists (1 + (c + 0))%nat. apply (yields_app _ _ 1).
    + apply type_yields. apply G. now left.
    + rewrite <- (app_nil_r (map _ (snd e))). now apply yields_app.
Qed.
End Values.

(** ** The header *)
Definition not_lf (c : ascii) : bool := negb (code_of c =? 10).
Lemma code_of_octet v : v < 256 -> code_of (in_file_char v) = v.
Proof.
  intro H. unfold code_of, in_file_char. rewrite <- (b2n_n2b_small v) at 2 by lia. unfold b2n. now destruct (n2b v).
Qed.
Lemma char_not_lf c : scalar c -> c <> 10 -> all_chars not_lf (in_file [c]) = true.
Proof.
  intros S N. assert (H : c < 0x110000) by (unfold scalar in S; lia). unfold in_file, utf8_text. cbn [flat_map]. rewrite app_nil_r. unfold utf8_char.
  assert (O : forall v, v < 256 -> v <> 10 -> not_lf (ascii_of_byte (n2b v)) = true).
  { intros v V V'. unfold not_lf. change (ascii_of_byte (n2b v)) with (in_file_char v). rewrite code_of_octet by assumption. lia. }
  pose proof (N.mod_lt c 64 ltac:(lia)). pose proof (N.mod_lt (c / 64) 64 ltac:(lia)). pose proof (N.mod_lt (c / 4096) 64 ltac:(lia)).
  assert (c / 262144 < 5) by (apply N.div_lt_upper_bound; lia).
  destruct (c <? 128) eqn:E1; [cbn; rewrite O by lia; reflexivity|].
  destruct (c <? 2048) eqn:E2; [assert (c / 64 < 32) by (apply N.div_lt_upper_bound; lia); cbn [string_of_bytes string_of_list_byte string_of_list_ascii map all_chars]; rewrite !O by lia; reflexivity|].
  destruct (c <? 65536) eqn:E3; [assert (c / 4096 < 16) by (apply N.div_lt_upper_bound; lia)|];
    cbn [string_of_bytes string_of_list_byte string_of_list_ascii map all_chars]; unfold string_of_bytes, string_of_list_byte; cbn [string_of_list_ascii map all_chars]; rewrite !O by lia; reflexivity.
Qed.
Lemma line_not_lf l : Forall scalar l -> ~ In 10 l -> all_chars not_lf (in_file l) = true.
Proof.
  induction l as [|c l IH]; intros F N; [reflexivity|]. inversion F as [|? ? Sc F']; subst. change (c :: l) with ([c] ++ l).
  rewrite in_file_app, all_chars_app, char_not_lf, IH; auto; intro; apply N; [now right|now left].
Qed.
Definition lf : string := String (ascii_of_N 10) "".
Lemma comment_begins m s : m = LBase \/ m = LLine -> lex_from m (in_file (lit_text "//! ") ++ s) = lex_from LLine s.
Proof. rewrite in_file_lit by reflexivity. intros [-> | ->]; reflexivity. Qed.
Lemma comment_lines ls rest : Forall (fun l => all_chars not_lf (in_file l) = true) ls -> forall m, m = LLine \/ (m = LBase /\ ls <> []) ->
  lex_from m (in_file (join_lines (map (fun l => lit_text "//! " ++ l) ls)) ++ rest) = lex_from LLine rest.
Proof.
  intro F. induction F as [|l ls H F IH]; intros m M; [destruct M as [-> | [_ N]]; [reflexivity|now destruct N]|].
  assert (M' : m = LBase \/ m = LLine) by tauto.
  destruct ls as [|l' ls].
  - cbn [map join_lines]. rewrite in_file_app, string_app_assoc, comment_begins by exact M'. now apply lex_line.
  - change (join_lines (map (fun l => lit_text "//! " ++ l) (l :: l' :: ls)))
      with ((lit_text "//! " ++ l) ++ (lit_text lf ++ join_lines (map (fun l => lit_text "//! " ++ l) (l' :: ls)))).
    rewrite (in_file_app (lit_text "//! " ++ l)), in_file_app, !string_app_assoc, comment_begins by exact M'.
    rewrite lex_line by exact H. rewrite in_file_app, string_app_assoc, in_file_lit by reflexivity.
    change (lex_from LLine (lf ++ ?x)) with (lex_from LBase x). apply IH. right. split; [reflexivity|discriminate].
Qed.

(** the tokens of one [use] item *)
Definition a_use (ts : list token) : Prop := forall rest, skip_to ";" (ts ++ rest) = rest.
Lemma reads_use ts : a_use ts -> reads 1 (TId "use" :: ts) [].
Proof. intros A n rest. cbn [app before]. change (1 + (100 + n))%nat with (S (S (99 + n)))%nat. rewrite step_use, A. change (S (99 + n)) with (100 + n)%nat. now destruct (p_items (100 + n) false rest) as [[? ?]|]. Qed.
Lemma reads_uses us : Forall a_use us -> reads (length us) (flat_map (cons (TId "use")) us) [].
Proof.
  intro F. induction F as [|u us A F IH]; [exact reads_nil|]. cbn [flat_map]. change (TId "use" :: u ++ flat_map (cons (TId "use")) us) with ((TId "use" :: u) ++ flat_map (cons (TId "use")) us).
  change (length (u :: us)) with (1 + length us)%nat. change (@nil aitem) with (@nil aitem ++ []). apply reads_app; [now apply reads_use|exact IH].
Qed.
Definition tail_tokens (m : smode) (s : string) : list stoken := match read_all m s with Some (ts, _) => ts | None => [] end.

Definition header_begin : string := "// Code generated by machine generator; DO NOT EDIT.

//! Utility for ".
Definition header_middle : string := " packet.
//!
//! This module handles the packet according to the following definition:
//! ```text
//! ".
Definition header_end : string := "
//! ```

use std::net::{Ipv4Addr, Ipv6Addr};

use chrono::{DateTime, Utc};

use crate::core::avp::{AVP, AVPType, AVPError};
use crate::core::packet::Packet;
use crate::core::tag::Tag;

".
Definition no_env : env := Env "" "" 0 0 "".
Definition header_tokens : list token := Eval vm_compute in map (the_token no_env) (tail_tokens (Mode LLine) header_end).
Definition header_uses : list (list token) := Eval vm_compute in
  (fix go (fuel : nat) (ts : list token) := match fuel, ts with
     | S n, TId _ :: ts => let r := skip_to ";" ts in firstn (length ts - length r) ts :: go n r
     | _, _ => [] end) 20%nat header_tokens.
Lemma header_tokens_uses : header_tokens = flat_map (cons (TId "use")) header_uses.
Proof. reflexivity. Qed.
Lemma header_uses_skip : Forall a_use header_uses.
Proof. repeat constructor. Qed.
Lemma header_fixed_lexes rfc ls : all_chars not_lf (in_file (lit_text rfc)) = true -> Forall (fun l => all_chars not_lf (in_file l) = true) ls ->
  lexes (in_file (lit_text header_begin ++ lit_text rfc ++ lit_text header_middle ++ join_lines (map (fun l => lit_text "//! " ++ l) ls) ++ lit_text header_end)) header_tokens.
Proof.
  intros R F rest. rewrite !in_file_app, !string_app_assoc. rewrite !in_file_lit by reflexivity.
  assert (B : forall r, lex_from LBase (header_begin ++ r) = lex_from LLine r).
  { intro r. apply (fun E => proj1 (read_all_sound no_env header_begin (Mode LBase) [] (Mode LLine) r I E)). vm_compute. reflexivity. }
  assert (M : forall r, lex_from LLine (header_middle ++ r) = lex_from LLine r).
  { intro r. apply (fun E => proj1 (read_all_sound no_env header_middle (Mode LLine) [] (Mode LLine) r I E)). vm_compute. reflexivity. }
  assert (E : forall r, lex_from LLine (header_end ++ r) = header_tokens ++ lex_from LBase r).
  { intro r. apply (fun E => proj1 (read_all_sound no_env header_end (Mode LLine) (tail_tokens (Mode LLine) header_end) (Mode LBase) r I E)). vm_compute. reflexivity. }
  rewrite B, lex_line by exact R. rewrite M, comment_lines by auto. apply E.
Qed.
Lemma use_yields r : rust_identifier (tok r) -> yields (lit_text "use crate::core::" ++ lit_text r ++ lit_text ";" ++ [10]) 1 [].
Proof.
  intro I. destruct (identifier_words r I) as (E & W & B & _).
  pose (e := Env r "x" 0 0 "x").
  assert (We : words true e) by (constructor; cbn; auto).
  pose (ps := [T "use crate::core::"; Method; T ";"; T lf]).
  exists (map (the_token e) (template_tokens true ps)). split.
  - change [10] with (lit_text lf). rewrite !in_file_app, E, !in_file_lit by reflexivity.
    replace ("use crate::core::" ++ r ++ ";" ++ lf)%string with (rendered e ps) by (cbn; now rewrite ?string_app_nil).
    apply template_lexes; [exact We|reflexivity].
  - change (map (the_token e) (template_tokens true ps)) with (TId "use" :: [TId "crate"; TP "::"; TId "core"; TP "::"; TId r; TP ";"]).
    apply reads_use. intro rest. reflexivity.
Qed.
Lemma header_yields earlier rfc ls : rust_identifier (tok rfc) -> Forall (fun r => rust_identifier (tok r)) earlier ->
  Forall (fun l => Forall scalar l /\ ~ In 10 l) ls -> exists c, yields (header_text earlier rfc ls) c [].
Proof.
  intros Ir Ie Fl. destruct (identifier_words rfc Ir) as (E & W & _).
  destruct (yields_flat_map (fun r => lit_text "use crate::core::" ++ lit_text r ++ lit_text ";" ++ [10]) (fun _ => [])
              (fun r => rust_identifier (tok r)) earlier) as [c Hc]; [intros r Hr; exists 1%nat; now apply use_yields|exact Ie|].
  exists (length header_uses + c)%nat.
  replace (header_text earlier rfc ls) with ((lit_text header_begin ++ lit_text rfc ++ lit_text header_middle ++ join_lines (map (fun l => lit_text "//! " ++ l) ls) ++ lit_text header_end) ++
    flat_map (fun r => lit_text "use crate::core::" ++ lit_text r ++ lit_text ";" ++ [10]) earlier) by (rewrite <- !app_assoc; reflexivity).
  replace (@nil aitem) with (@nil aitem ++ flat_map (fun _ : string => []) earlier) by (clear; now induction earlier).
  apply yields_app; [|exact Hc]. exists header_tokens. split; [|rewrite header_tokens_uses; apply reads_uses, header_uses_skip].
  apply header_fixed_lexes.
  - rewrite E. eapply chars_impl; [exact word_line|exact W].
  - eapply Forall_impl; [|exact Fl]. intros l [A B]. now apply line_not_lf.
Qed.

(** ** The whole file *)
Lemma lines_from_scalar t : forall l, Forall scalar l -> Forall scalar t -> Forall (Forall scalar) (lines_from l t).
Proof.
  induction t as [|c t IH]; intros l L F; cbn [lines_from].
  - destruct l; constructor; [apply Forall_rev; assumption|constructor].
  - inversion F as [|? ? Sc F']; subst. destruct (c =? 10).
    + constructor; [|apply IH; [constructor|exact F']]. unfold strip_cr. destruct l as [|x l]; [constructor|]. apply Forall_rev in L as R.
      inversion L as [|? ? _ L']; subst. apply Forall_rev in L'.
      repeat (match goal with |- Forall _ (match ?y with _ => _ end) => destruct y end; try assumption).
    + apply IH; [constructor; assumption|exact F'].
Qed.
Lemma lines_scalar t : Forall scalar t -> Forall (fun l => Forall scalar l /\ ~ In 10 l) (text_lines t).
Proof.
  intro F. pose proof (lines_no_lf t _ (lines_are_model t)) as N. pose proof (lines_from_scalar t [] (Forall_nil _) F) as S.
  rewrite Forall_forall in *. intros l H. split; [now apply S|now apply N].
Qed.
Section Module.
Context (U : unicode).
Definition module_aitems (gs : list gen_attribute) (names : list (text * string)) (values : list (text * list radius_value)) : list aitem :=
  flat_map (attribute_aitems U) gs ++ flat_map (entry_aitems U names) values.
(** the names can be turned into identifiers: they are ASCII and begin with a letter *)
Record proper (m : gen_module) : Prop := Proper {
  pr_attributes : Forall (fun g => lettered (ga_name g)) (gm_attributes m);
  pr_types : Forall lettered (gm_types m);
  pr_constants : Forall (fun c => lettered (gc_attr c) /\ ascii_text (gc_name c)) (gm_constants m) }.
Lemma module_yields earlier names rfc t attrs values code :
  Forall (fun r => rust_identifier (tok r)) earlier -> Forall (fun n => rust_identifier (tok (snd n))) names -> rust_identifier (tok rfc) ->
  Forall scalar t -> attributes_text U attrs values = Ok code -> exists gs, generate_attributes attrs values = Ok gs /\
  (proper (GenModule rfc gs (generate_types values names) (generate_constants values names)) ->
   exists c, yields (header_text earlier rfc (text_lines t) ++ code ++ all_values_text U values names) c (module_aitems gs names values)).
Proof.
  intros Pe Pn Pr St A. destruct (attributes_text_spec U _ _ _ A) as (gs & Gs & ->). exists gs. split; [exact Gs|].
  intros [Ua Ut Uc]. cbn [gm_attributes gm_types gm_constants] in *.
  destruct (header_yields earlier rfc (text_lines t) Pr Pe) as [c1 H1]; [now apply lines_scalar|].
  destruct (yields_flat_map (fun g => attribute_text U (ga_name g) (ga_typ g) (ga_kind g)) (attribute_aitems U) (fun g => lettered (ga_name g)) gs) as [c2 H2];
    [intros g; apply attribute_yields|exact Ua|].
  destruct (yields_flat_map (fun e => values_text U (fst e) (snd e) (rfc_of names (fst e))) (entry_aitems U names)
    (fun e => (rfc_of names (fst e) = None \/ snd e <> [] -> lettered (fst e)) /\ Forall (fun v => ascii_text (rv_name v)) (snd e)) values) as [c3 H3].
  - intros e [E1 E2]. now apply entry_yields.
  - apply Forall_forall. intros e I. rewrite Forall_forall in Ut, Uc. unfold generate_types, generate_constants in *.
    assert (Cs : forall v, In v (snd e) -> lettered (fst e) /\ ascii_text (rv_name v)).
    { intros v Hv. apply (Uc (GenConstant (fst e) (rv_name v) (rfc_of names (fst e)) (rv_value v))).
      apply in_flat_map. exists e. split; [exact I|]. apply in_map_iff. exists v. auto. }
    split.
    + intros [H|H].
      * apply Ut. apply in_map_iff. exists e. split; [reflexivity|]. apply filter_In. split; [exact I|]. now rewrite H.
      * destruct (snd e) as [|v vs]; [congruence|]. apply (Cs v). now left.
    + apply Forall_forall. intros v Hv. now apply Cs.
  - exists (c1 + (c2 + c3))%nat. apply (yields_app _ _ _ _ [] _ H1). now apply yields_app.
Qed.
End Module.

(** the items of a file; for the amount of fuel see Rust.v *)
Definition parsed (file : bytes) (is : list aitem) : Prop :=
  exists k, forall n, (k <= n)%nat -> p_items n false (lex_from LBase (string_of_bytes file)) = Some (is, []).
Lemma parsed_unique file a b : parsed file a -> parsed file b -> a = b.
Proof.
  intros [k A] [l B]. specialize (A (k + l)%nat ltac:(lia)). specialize (B (k + l)%nat ltac:(lia)). congruence.
Qed.
Lemma items_end n : p_items (S n) false [] = Some ([], []).
Proof. reflexivity. Qed.
Lemma yields_parsed t c is : yields t c is -> parsed (utf8_text t) is.
Proof.
  intros (ts & L & R). exists (c + 100)%nat. intros n Hn. replace n with (c + (100 + (n - c - 100)))%nat by lia.
  specialize (L ""). rewrite string_app_nil in L. unfold in_file in L. rewrite L.
  change (lex_from LBase "") with (@nil token). rewrite R.
  change (100 + (n - c - 100))%nat with (S (99 + (n - c - 100))). rewrite items_end. cbn [before]. now rewrite app_nil_r.
Qed.
