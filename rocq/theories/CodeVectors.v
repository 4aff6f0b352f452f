(** * The text of the unit tests with user passwords, run: core/avp.rs:1034-1088 and core/packet.rs:466-525 *)
From Coq Require Import String List NArith ZArith Bool Arith Strings.Byte Strings.Ascii Lia ZifyBool ZifyNat ZifyN.
From Verif Require Import Prelude PreludeFacts Md5 Utf8 Utf8Facts Tag Code Avp AvpFacts Attributes Vsa Packet Addr Display Accessors Rfc Server Client
  Spec AvpSpec CodecFacts PropPacket PropAvp
  Rust RustEval RustModule RustLink CodeApp CodeExample CodeTests Sources SourceCore CodeRun CodeHash RustFacts CodeTactics CodeBase CodeAttributes CodePacket CodeNet CodeAccessors CodeModules PropModules.
Import ListNotations.
Local Open Scope string_scope.
Local Open Scope N_scope.
Local Open Scope list_scope.

(** computed once *)
Definition tag_tests : RustEval.program := Eval vm_compute in tests_in "tests" source_tag Md5Crate.
Definition string_vsa_tests : RustEval.program := Eval vm_compute in tests_in "string_vsa_tests" source_vsa Md5Crate.
Definition tagged_vsa_tests : RustEval.program := Eval vm_compute in tests_in "tagged_string_vsa_tests" source_vsa Md5Crate.
Lemma tag_tests_ok f : tag_tests = tests_in "tests" source_tag f. Proof. destruct f; vm_compute; reflexivity. Qed.
Lemma string_vsa_tests_ok f : string_vsa_tests = tests_in "string_vsa_tests" source_vsa f. Proof. destruct f; vm_compute; reflexivity. Qed.
Lemma tagged_vsa_tests_ok f : tagged_vsa_tests = tests_in "tagged_string_vsa_tests" source_vsa f. Proof. destruct f; vm_compute; reflexivity. Qed.

Section Vectors.
Context (pr : profile) (rng : nat -> byte) (he : bytes -> option string)
        (ans : list event -> string -> list value -> option value).
Notation C f := (Cx pr (crate_program f) rng he ans).
Notation T f := (Link (C f) used_modules packet_tests []).
Notation A f := (Link (C f) used_modules avp_tests []).
Ltac crate := intros; match goal with f : feature |- _ => destruct f end;
  (erewrite linked_crate by (eassumption || (vm_compute; reflexivity))).

Lemma linked_from_user_password f n pw secret ra w : hashes he f -> (1 <= n)%nat ->
  linked (A f) n "AVP" "from_user_password" [VInt Lit 1; VBytes pw; v_bytes secret; v_bytes ra] w
  = v_result v_avp_error v_avp (avp_from_user_password (n2b 1) pw secret ra) [VInt U8 1; VBytes pw; v_bytes secret; v_bytes ra] w.
Proof.
  intros H Hn. destruct f; (erewrite linked_crate by (vm_compute; reflexivity));
  (erewrite (run_args _ _ _ _ _ [vu8 (n2b 1); v_bytes pw; v_bytes secret; v_bytes ra]);
     [now apply from_user_password_any|vm_compute; reflexivity|reflexivity]).
Qed.
Lemma linked_encode_user_password f n a secret ra w : hashes he f -> (1 <= n)%nat ->
  linked (A f) n "AVP" "encode_user_password" [v_avp a; v_bytes secret; v_bytes ra] w
  = v_result v_avp_error v_bytes (avp_encode_user_password a secret ra) [v_avp a; v_bytes secret; v_bytes ra] w.
Proof. crate; now apply encode_user_password_any. Qed.

Definition user_case (pw : bytes) (l : N) : Prop :=
  from_utf8 pw = Ok pw /\ exists v,
    avp_from_user_password (n2b 1) pw (bytes_of_string "12345") (bytes_of_string "0123456789abcdef") = Ok (AVP (n2b 1) v)
    /\ len v = l
    /\ avp_encode_user_password (AVP (n2b 1) v) (bytes_of_string "12345") (bytes_of_string "0123456789abcdef") = Ok pw.
Lemma user_case_of pw l : from_utf8 pw = Ok pw -> len pw <= 128 -> ~ In x00 pw -> 16 * N.max 1 ((len pw + 15) / 16) = l -> user_case pw l.
Proof.
  intros U L N El. split; [exact U|].
  assert (S : bytes_of_string "12345" <> []) by discriminate. assert (R : len (bytes_of_string "0123456789abcdef") = 16) by reflexivity.
  destruct (from_user_password_cases (n2b 1) pw (bytes_of_string "12345") (bytes_of_string "0123456789abcdef"))
    as [(X & _)|[(_ & X & _)|[(_ & _ & X & _)|(_ & _ & _ & E)]]]; [lia|contradiction|contradiction|].
  destruct (C23_user_password_roundtrip_partial (n2b 1) pw (bytes_of_string "12345") (bytes_of_string "0123456789abcdef") L S R N) as (a & E' & D).
  rewrite E in E'. injection E' as <-.
  eexists; split; [exact E|]. split; [now rewrite enc_concat_len|exact D].
Qed.
Ltac known_user :=
  match goal with |- user_case ?p _ =>
    refine (user_case_of p _ _ _ _ _); [vm_compute; reflexivity|vm_compute; discriminate|vm_compute; intuition discriminate|vm_compute; reflexivity] end.
(** core/avp.rs:1034-1088 *)
Lemma run_test_user_password f n k tr : hashes he f -> (10 <= n)%nat ->
  linked (A f) n "" "it_should_convert_user_password" [] (World k tr) = RVal VUnit [] (World k tr).
Proof.
  intros Hh Hn.
  linked_start; app_steps;
  (match goal with |- context [for_loop ?b ?l (State ?vs _)] =>
    assert (B : forall pw x, user_case pw x ->
      b (VStruct "TestCase" [("plain_text", VStr pw); ("expected_encoded_len", VInt Usize x)]) (State vs (World k tr))
      = Norm VUnit (State vs (World k tr))) end;
   [ let pw := fresh "pw" in
     intros pw x [U (v & E1 & E2 & E3)];
     pose proof (fun m w => linked_from_user_password _ m pw (bytes_of_string "12345") (bytes_of_string "0123456789abcdef") w Hh) as G1;
     rewrite E1 in G1;
     pose proof (fun m w => linked_encode_user_password _ m (AVP (n2b 1) v) (bytes_of_string "12345") (bytes_of_string "0123456789abcdef") w Hh) as G2;
     rewrite E3 in G2;
     unfold v_result, v_avp, vu8, v_bytes in *; cbn [avp_typ avp_value] in *;
     unfold for_body; cbn [pmatch push_vars app map];
     app_steps; try reflexivity; try (exfalso; congruence); try (exfalso; lia);
     match goal with D : bytes_eqb ?a ?b = false |- _ => replace a with b in D by congruence; rewrite bytes_eqb_refl in D; discriminate D end
   | repeat (rewrite for_loop_cons; rewrite B by known_user; cbv beta iota delta [next_round]);
     rewrite for_loop_nil; app_steps; reflexivity ]).
Qed.

(** the request of RFC 2865, section 7.1 *)
Definition nemo : bytes := map n2b
  [1; 0; 0; 56; 15; 64; 63; 148; 115; 151; 128; 87; 189; 131; 213; 203; 152; 244; 34; 122; 1; 6; 110; 101; 109; 111; 2; 18;
   13; 190; 112; 141; 147; 212; 19; 206; 49; 150; 228; 63; 120; 42; 10; 238; 4; 6; 192; 168; 1; 16; 5; 6; 0; 0; 0; 3].
Definition nemo_packet : packet :=
  Eval vm_compute in match packet_decode nemo (bytes_of_string "xyzzy5461") with Ok p => p | _ => packet_new (fun _ => x00) AccessRequest [] end.
Lemma nemo_password : rfc2865_lookup_user_password nemo_packet = Some (Ok (bytes_of_string "arctangent")).
Proof. vm_compute; reflexivity. Qed.
End Vectors.
(** a call with known arguments *)
Ltac known_call :=
  match goal with |- ?l = _ => focus l ltac:(fun o =>
    lazymatch o with after_call (linked ?L ?m ?t ?x ?a ?w) ?k =>
      let r := eval vm_compute in (linked L m t x a w) in
      lazymatch r with RVal _ _ _ => idtac end;
      let E := fresh "E" in
      assert (E : linked L m t x a w = r) by (vm_cast_no_check (eq_refl r));
      rewrite E; clear E end) end.
