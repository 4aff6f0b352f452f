(** * Final theorems about the unit tests of the crate: C82

    The text of the [#[test]] functions of tag.rs, vsa.rs, avp.rs and packet.rs is read and run like any other program
    that uses the crate (RustLink.v). *)
From Coq Require Import String List NArith ZArith Bool Arith Strings.Byte Lia ZifyBool ZifyNat ZifyN.
From Verif Require Import Prelude PreludeFacts Packet Rust RustEval RustModule RustLink Sources SourceCore CodeRun CodeHash CodeApp CodeTests CodeVectors CodeVectorsMd5 CodeVectorsSsl.
Import ListNotations.
Local Open Scope string_scope.
Local Open Scope N_scope.
Local Open Scope list_scope.

(** the test modules of the crate: file and name of the module *)
Definition test_modules : list (list string * string) :=
  [(source_tag, "tests"); (source_vsa, "string_vsa_tests"); (source_vsa, "tagged_string_vsa_tests");
   (source_avp, "tests"); (source_packet, "tests")].
(** the test functions of the crate, 27 in all *)
Definition unit_tests : list (list string * string * string) :=
  flat_map (fun m => map (pair m) (marked_tests (module_text (snd m) (fst m)))) test_modules.
(** a test run on its own: the module of tests, the crate, and the accessors of rfc2865.rs.  OpenSSL does not fail. *)
Definition test_program (pr : profile) (f : feature) (rng : nat -> byte)
  (ans : list event -> string -> list value -> option value) (m : list string * string) : link :=
  Link (Cx pr (crate_program f) rng (fun _ => None) ans) (modules_from source_lines ["rfc2865"]) (tests_in (snd m) (fst m) f) [].
(** how the test ends, with so much fuel *)
Definition tried pr f rng ans (n : nat) (t : list string * string * string) : rout :=
  linked (test_program pr f rng ans (fst t)) n "" (snd t) [] (World 0 []).
(** it returns [()] or [Ok(())] *)
Definition success (o : rout) : Prop := exists ps w, o = RVal VUnit ps w \/ o = RVal (vok VUnit) ps w.
Definition passes pr f rng ans t : Prop := exists k, forall n, (k <= n)%nat -> success (tried pr f rng ans n t).
Definition fails pr f rng ans t : Prop := exists k, forall n, (k <= n)%nat -> tried pr f rng ans n t = RPanic.
Definition identifier_test : list string * string * string := (source_packet, "tests", "test_with_arbitrary_identifier").
Definition date_test : list string * string * string := (source_avp, "tests", "it_should_convert_date").

(** ** The tests that are not run step by step *)
Definition symbolic : list string :=
  ["test_with_arbitrary_identifier"; "it_should_convert_date"; "it_should_convert_tunnel_password"; "test_passwords";
   "it_should_convert_user_password"; "test_for_rfc2865_7_1"].
Definition is_success (o : rout) : bool :=
  match o with
  | RVal (VTuple []) _ _ => true
  | RVal (VCtor t c [VTuple []]) _ _ => String.eqb t "" && String.eqb c "Ok"
  | _ => false
  end.
Lemma is_success_ok o : is_success o = true -> success o.
Proof.
  intro H. destruct o as [v ps w| | | |]; try discriminate. exists ps, w.
  destruct v; try discriminate; unfold is_success in H.
  - destruct l; [now left|discriminate].
  - destruct l as [|[] [|? ?]]; try discriminate; destruct l; try discriminate.
    apply andb_prop in H. destruct H as [H1 H2]. apply String.eqb_eq in H1, H2. subst. now right.
Qed.
(** the tests run by evaluation and the rest *)
Definition tag_names : list string := ["test_is_zero"; "test_is_valid_value"].
Definition vsa_names : list string := ["it_should_get_len_successfully"; "it_should_get_message_successfully"].
Definition avp_names : list string :=
  ["it_should_convert_attribute_to_integer32"; "it_should_convert_attribute_to_integer16";
   "it_should_convert_attribute_to_tagged_integer32"; "it_should_convert_attribute_to_string";
   "it_should_convert_tagged_attribute_to_string"; "it_should_convert_attribute_to_byte"; "it_should_convert_ipv4";
   "it_should_convert_ipv6"; "should_convert_ipv4_prefix";
   "should_convert_ipv4_prefix_fail_because_of_invalid_prefix_length"; "should_convert_ipv6_prefix";
   "should_convert_ipv6_prefix_fail_because_of_invalid_prefix_length"].
Definition packet_names : list string := ["test_for_rfc2865_7_2"; "test_parse_invalid"; "test_packet_attribute_length_boundary"].
Definition settled : list (list string * string * string) := filter (fun t => negb (mem (snd t) symbolic)) unit_tests.
Definition unsettled : list (list string * string * string) := filter (fun t => mem (snd t) symbolic) unit_tests.
Lemma settled_are : settled
  = map (pair (source_tag, "tests")) tag_names ++ map (pair (source_vsa, "string_vsa_tests")) vsa_names
    ++ map (pair (source_vsa, "tagged_string_vsa_tests")) vsa_names ++ map (pair (source_avp, "tests")) avp_names
    ++ map (pair (source_packet, "tests")) packet_names.
Proof. vm_compute; reflexivity. Qed.
Section Evaluated.
Context (pr : profile) (f : feature) (rng : nat -> byte) (ans : list event -> string -> list value -> option value).
Definition evaluated (own : RustEval.program) (n : nat) (x : string) : bool :=
  is_success (linked (Link (Cx pr (crate_program f) rng (fun _ => None) ans) used_modules own []) (100 + n) "" x [] (World 0 [])).
End Evaluated.
Lemma tag_evaluated pr f rng ans n : forallb (evaluated pr f rng ans tag_tests n) tag_names = true.
Proof. destruct pr, f; vm_cast_no_check (eq_refl true). Qed.
Lemma string_vsa_evaluated pr f rng ans n : forallb (evaluated pr f rng ans string_vsa_tests n) vsa_names = true.
Proof. destruct pr, f; vm_cast_no_check (eq_refl true). Qed.
Lemma tagged_vsa_evaluated pr f rng ans n : forallb (evaluated pr f rng ans tagged_vsa_tests n) vsa_names = true.
Proof. destruct pr, f; vm_cast_no_check (eq_refl true). Qed.
Lemma avp_evaluated pr f rng ans n : forallb (evaluated pr f rng ans avp_tests n) avp_names = true.
Proof. destruct pr, f; vm_cast_no_check (eq_refl true). Qed.
Lemma packet_evaluated pr f rng ans n : forallb (evaluated pr f rng ans packet_tests n) packet_names = true.
Proof. destruct pr, f; vm_cast_no_check (eq_refl true). Qed.
Lemma evaluated_passes pr f rng ans own src m names x :
  own = tests_in m src f -> (forall n, forallb (evaluated pr f rng ans own n) names = true) -> In x names ->
  passes pr f rng ans (src, m, x).
Proof.
  intros O E I. exists 100%nat. intros n Hn. replace n with (100 + (n - 100))%nat by lia.
  apply is_success_ok. unfold tried, test_program. cbn [fst snd]. rewrite <- used_modules_ok, <- O.
  exact (proj1 (forallb_forall _ _) (E (n - 100)%nat) x I).
Qed.
Lemma in_pair {A B} (a : A) (l : list B) t : In t (map (pair a) l) -> exists x, t = (a, x) /\ In x l.
Proof. intro I. apply in_map_iff in I. destruct I as (x & <- & I). now exists x. Qed.
Lemma in_settled pr f rng ans t : In t settled -> passes pr f rng ans t.
Proof.
  intro I. rewrite settled_are in I. apply in_app_or in I. destruct I as [I|I].
  { apply in_pair in I. destruct I as (x & -> & I). exact (evaluated_passes pr f rng ans _ _ _ _ x (tag_tests_ok f) (tag_evaluated pr f rng ans) I). }
  apply in_app_or in I. destruct I as [I|I].
  { apply in_pair in I. destruct I as (x & -> & I). exact (evaluated_passes pr f rng ans _ _ _ _ x (string_vsa_tests_ok f) (string_vsa_evaluated pr f rng ans) I). }
  apply in_app_or in I. destruct I as [I|I].
  { apply in_pair in I. destruct I as (x & -> & I). exact (evaluated_passes pr f rng ans _ _ _ _ x (tagged_vsa_tests_ok f) (tagged_vsa_evaluated pr f rng ans) I). }
  apply in_app_or in I. destruct I as [I|I].
  { apply in_pair in I. destruct I as (x & -> & I). exact (evaluated_passes pr f rng ans _ _ _ _ x (avp_tests_ok f) (avp_evaluated pr f rng ans) I). }
  { apply in_pair in I. destruct I as (x & -> & I). exact (evaluated_passes pr f rng ans _ _ _ _ x (packet_tests_ok f) (packet_evaluated pr f rng ans) I). }
Qed.
Lemma unsettled_are : unsettled
  = [(source_avp, "tests", "it_should_convert_user_password"); date_test; (source_avp, "tests", "it_should_convert_tunnel_password");
     (source_packet, "tests", "test_for_rfc2865_7_1"); (source_packet, "tests", "test_passwords"); identifier_test].
Proof. vm_compute; reflexivity. Qed.
Lemma split_in {A} (p : A -> bool) l x : In x l -> In x (filter p l) \/ In x (filter (fun y => negb (p y)) l).
Proof. intro I. destruct (p x) eqn:E; [left|right]; apply filter_In; rewrite ?E; auto. Qed.
Lemma in_six {A} (x u a b v c d : A) : In x [u; a; b; v; c; d] -> x <> a -> x <> d -> x = u \/ x = b \/ x = v \/ x = c.
Proof. intros [H|[H|[H|[H|[H|[H|[]]]]]]] Ha Hd; auto; congruence. Qed.
Lemma tunnel_passes pr f rng ans : passes pr f rng ans (source_avp, "tests", "it_should_convert_tunnel_password").
Proof.
  exists 10%nat. intros n Hn. exists [], (World 12 []). right.
  unfold tried, test_program. cbn [fst snd]. rewrite <- used_modules_ok, <- avp_tests_ok.
  exact (run_test_tunnel pr rng (fun _ => None) ans f n 0 [] (fun _ _ => eq_refl) Hn).
Qed.
Lemma passwords_passes pr f rng ans : passes pr f rng ans (source_packet, "tests", "test_passwords").
Proof.
  exists 160%nat. intros n Hn. exists [], (World 51 []). left.
  unfold tried, test_program. cbn [fst snd]. rewrite <- used_modules_ok, <- packet_tests_ok.
  exact (run_test_passwords pr rng (fun _ => None) ans f n 0 [] (fun _ _ => eq_refl) Hn).
Qed.

Lemma user_password_passes pr f rng ans : passes pr f rng ans (source_avp, "tests", "it_should_convert_user_password").
Proof.
  exists 10%nat. intros n Hn. exists [], (World 0 []). left.
  unfold tried, test_program. cbn [fst snd]. rewrite <- used_modules_ok, <- avp_tests_ok.
  exact (run_test_user_password pr rng (fun _ => None) ans f n 0 [] (fun _ _ => eq_refl) Hn).
Qed.
Lemma rfc2865_7_1_passes pr f rng ans : passes pr f rng ans (source_packet, "tests", "test_for_rfc2865_7_1").
Proof.
  exists 201%nat. intros n Hn. exists [], (World 0 []). right.
  unfold tried, test_program. cbn [fst snd]. rewrite <- used_modules_ok, <- packet_tests_ok.
  destruct f; [exact (run_test_7_1_md5 pr rng ans n 0 [] Hn)|exact (run_test_7_1_ssl pr rng ans n 0 [] Hn)].
Qed.

Lemma identifier_unsettled : In identifier_test unsettled.
Proof. rewrite unsettled_are. do 5 right. left. reflexivity. Qed.

(** ** The theorems *)
(** Every unit test passes, whatever random octets are drawn and whatever the environment answers, in both profiles and
    with both features, but for the two that follow. *)
Theorem C82_tests_pass_partial : forall pr f rng ans t, In t unit_tests -> t <> identifier_test -> t <> date_test ->
  passes pr f rng ans t.
Proof.
  intros pr f rng ans t I N1 N2.
  destruct (split_in (fun t => mem (snd t) symbolic) unit_tests t I) as [Y|Y].
  - fold unsettled in Y. rewrite unsettled_are in Y.
    destruct (in_six _ _ _ _ _ _ _ Y N2 N1) as [E|[E|[E|E]]]; rewrite E;
      [apply user_password_passes|apply tunnel_passes|apply rfc2865_7_1_passes|apply passwords_passes].
  - exact (in_settled pr f rng ans t Y).
Qed.
(** [test_with_arbitrary_identifier] adds 1 to the random identifier, octet 16 of those drawn: where overflow is checked
    it fails if that octet is 255. *)
Theorem C82_identifier_test : forall f rng ans,
  (rng 16%nat <> xff -> passes Debug f rng ans identifier_test)
  /\ (rng 16%nat = xff -> fails Debug f rng ans identifier_test)
  /\ passes Release f rng ans identifier_test.
Proof.
  intros f rng ans.
  assert (R : forall pr n, (3 <= n)%nat -> tried pr f rng ans n identifier_test
    = match pr with Debug => if b2n (rng 16%nat) =? 255 then RPanic else RVal VUnit [] (World 33 []) | Release => RVal VUnit [] (World 33 []) end).
  { intros pr n Hn. unfold tried, test_program, identifier_test. cbn [fst snd]. rewrite <- used_modules_ok, <- packet_tests_ok.
    exact (run_test_identifier pr rng (fun _ => None) ans f n 0 [] Hn). }
  unfold passes, fails. generalize dependent identifier_test. intros t R. split; [|split].
  - intro N. exists 3%nat. intros n Hn. rewrite R by exact Hn. exists [], (World 33 []). left.
    replace (b2n (rng 16%nat) =? 255) with false; [reflexivity|]. symmetry. apply N.eqb_neq. intro E. apply N.
    apply b2n_inj. exact E.
  - intro E. exists 3%nat. intros n Hn. rewrite R by exact Hn. now rewrite E.
  - exists 3%nat. intros n Hn. rewrite R by exact Hn. exists [], (World 33 []). now left.
Qed.
(** [it_should_convert_date] reads the clock and passes until 2^32 seconds after the epoch, in 2106. *)
Theorem C82_date_test : forall pr f rng ans z, ans [] "Utc::now" [] = Some (VDate z) ->
  ((0 <= z < 2 ^ 32)%Z -> passes pr f rng ans date_test)
  /\ (~ (0 <= z < 2 ^ 32)%Z -> fails pr f rng ans date_test).
Proof.
  intros pr f rng ans z Ha. change (2 ^ 32)%Z with 4294967296%Z.
  assert (R : forall n, (4 <= n)%nat -> tried pr f rng ans n date_test
    = if ((0 <=? z) && (z <? 4294967296))%Z
      then RVal (vok VUnit) [] (World 0 [Event "Utc::now" [] (Some (VDate z))]) else RPanic).
  { intros n Hn. unfold tried, test_program, date_test. cbn [fst snd]. rewrite <- used_modules_ok, <- avp_tests_ok.
    exact (run_test_date pr rng (fun _ => None) ans f n z 0 [] Hn Ha). }
  unfold passes, fails. generalize dependent date_test. intros t R.
  split; intro B; exists 4%nat; intros n Hn; rewrite R by exact Hn.
  - replace ((0 <=? z) && (z <? 4294967296))%Z with true by lia. eexists [], _. right. reflexivity.
  - replace ((0 <=? z) && (z <? 4294967296))%Z with false by lia. reflexivity.
Qed.
(** The full property, that no test can fail for the octets that happen to be drawn, is false. *)
Theorem C82_deterministic_refuted : exists t, In t unit_tests /\ forall f ans,
  (exists rng, passes Debug f rng ans t) /\ (exists rng, fails Debug f rng ans t).
Proof.
  exists identifier_test. split.
  - apply (proj1 (proj1 (filter_In _ _ _) identifier_unsettled)).
  - intros f ans. split.
    + exists (fun _ => x00). now apply C82_identifier_test.
    + exists (fun _ => xff). now apply C82_identifier_test.
Qed.
(** the tests there are, by file and name *)
Example C82_unit_tests : List.length unit_tests = 27%nat
  /\ map (fun m => marked_tests (lex (fst m))) [(source_tag, ""); (source_avp, ""); (source_packet, "")]
     = map (fun m => marked_tests (module_text (snd m) (fst m))) [(source_tag, "tests"); (source_avp, "tests"); (source_packet, "tests")]
  /\ marked_tests (lex source_vsa) = marked_tests (module_text "string_vsa_tests" source_vsa) ++ marked_tests (module_text "tagged_string_vsa_tests" source_vsa)
  /\ flat_map (fun l => marked_tests (lex l)) [source_code; source_attributes; source_request] = [].
Proof. vm_compute. repeat split; reflexivity. Qed.
(** a test with a wrong expectation fails *)
Example C82_wrong_expectation :
  let wrong := ["mod tests {"; "#[test]"; "fn wrong() {"; "let vsa = StringVSA::new(4874, 65, ""bar(1000,5441)"");"; "assert_eq!(vsa.len(), 17);"; "}"; "}"] in
  forall pr f rng ans, fails pr f rng ans (wrong, "tests", "wrong").
Proof. intros wrong pr f rng ans. exists 20%nat. intros n Hn. replace n with (20 + (n - 20))%nat by lia. destruct pr, f; vm_compute; reflexivity. Qed.

(** * Assumptions *)
Print Assumptions C82_tests_pass_partial.
Print Assumptions C82_identifier_test.
Print Assumptions C82_date_test.
Print Assumptions C82_deterministic_refuted.
