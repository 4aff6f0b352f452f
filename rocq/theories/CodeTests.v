(** * The unit tests of the crate that draw random octets or read the clock, run *)
From Coq Require Import String List NArith ZArith Bool Arith Strings.Byte Strings.Ascii Lia ZifyBool ZifyNat ZifyN.
From Verif Require Import Prelude PreludeFacts Md5 Utf8 Utf8Facts Tag Code Avp AvpFacts Attributes Vsa Packet Addr Display Accessors Rfc Server Client
  Spec PropAvp PropPacket PropEndToEnd Rust RustEval RustModule RustLink CodeApp CodeExample Sources SourceCore CodeRun CodeHash RustFacts CodeTactics CodeBase CodeAvp CodePassword CodeAttributes CodePacket CodeAccessors CodeModules.
Import ListNotations.
Local Open Scope string_scope.
Local Open Scope N_scope.
Local Open Scope list_scope.

(** ** Test modules *)
(** what follows [mod m \{] *)
Fixpoint after_mod (m : string) (ts : list token) : list token :=
  match ts with
  | t :: r => match r with
              | x :: o :: r' => if is_id "mod" t && is_id m x && is_p "{" o then r' else after_mod m r
              | _ => []
              end
  | [] => []
  end.
(** the text of the module [m] of a file *)
Definition module_text (m : string) (lines : list string) : list token :=
  match balanced "{" "}" O [] (after_mod m (lex lines)) with Some (body, _) => body | None => [] end.
(** the functions marked [#[test]] in a text *)
Definition starts_test (ts : list token) : option string :=
  match ts with
  | TP h :: TP o :: TId t :: TP c :: TId fn :: TId x :: _ =>
      if String.eqb h "#" && String.eqb o "[" && String.eqb t "test" && String.eqb c "]" && String.eqb fn "fn" then Some x else None
  | _ => None
  end.
Fixpoint marked_tests (ts : list token) : list string :=
  match ts with
  | _ :: r => match starts_test ts with Some x => [x] | None => [] end ++ marked_tests r
  | [] => []
  end.
(** the functions of the module [m] of a file, and the structs declared in them *)
Definition tests_in (m : string) (lines : list string) (f : feature) : RustEval.program :=
  match p_items 4000 false (module_text m lines) with
  | Some (is, []) => program_of (feature_name f) (is ++ local_structs (module_text m lines))
  | _ => Program [] [] [] [] []
  end.
(** computed once *)
Definition packet_tests : RustEval.program := Eval vm_compute in tests_in "tests" source_packet Md5Crate.
Definition avp_tests : RustEval.program := Eval vm_compute in tests_in "tests" source_avp Md5Crate.
Lemma packet_tests_ok f : packet_tests = tests_in "tests" source_packet f. Proof. destruct f; vm_compute; reflexivity. Qed.
Lemma avp_tests_ok f : avp_tests = tests_in "tests" source_avp f. Proof. destruct f; vm_compute; reflexivity. Qed.

(** ** The tests whose outcome depends on random octets or on the clock *)
Section Tests.
Context (pr : profile) (rng : nat -> byte) (he : bytes -> option string)
        (ans : list event -> string -> list value -> option value).
Notation C f := (Cx pr (crate_program f) rng he ans).
Notation T f := (Link (C f) used_modules packet_tests []).
Notation A f := (Link (C f) used_modules avp_tests []).
Ltac crate := intros; match goal with f : feature |- _ => destruct f end;
  (erewrite linked_crate by (eassumption || (vm_compute; reflexivity))).

Lemma linked_get_identifier f n p w : (1 <= n)%nat ->
  linked (T f) n "Packet" "get_identifier" [v_packet p] w = RVal (vu8 (packet_get_identifier p)) [v_packet p] w.
Proof. crate; now apply run_packet_get_identifier. Qed.
Lemma linked_set_identifier f n p b w : (1 <= n)%nat ->
  linked (T f) n "Packet" "set_identifier" [v_packet p; vu8 b] w = RVal VUnit [v_packet (packet_set_identifier p b); vu8 b] w.
Proof. crate; now apply run_packet_set_identifier. Qed.
Lemma linked_new_with_identifier f n c secret id w : (2 <= n)%nat ->
  linked (T f) n "Packet" "new_with_identifier" [v_code c; v_bytes secret; vu8 id] w
  = RVal (v_packet (packet_new_with_identifier (fun k => rng (k + w_random w)%nat) c secret id))
      [v_code c; v_bytes secret; vu8 id] (drawn 16 w).
Proof. crate; now apply run_packet_new_with_identifier. Qed.

(** core/packet.rs 706-716: the identifier is octet 16 of those drawn; 1 is added to it *)
Lemma run_test_identifier f n k tr : (3 <= n)%nat ->
  linked (T f) n "" "test_with_arbitrary_identifier" [] (World k tr)
  = match pr with
    | Debug => if b2n (rng (16 + k)) =? 255 then RPanic else RVal VUnit [] (World (33 + k) tr)
    | Release => RVal VUnit [] (World (33 + k) tr)
    end.
Proof.
  intro Hn.
  pose proof (fun m => linked_packet_new pr rng he ans packet_tests [] f m AccessRequest (bytes_of_string "12345") (World k tr) eq_refl) as G1.
  unfold drawn in G1; cbn [w_random w_trace] in G1.
  assert (I0 : packet_get_identifier (packet_new (fun i => rng (i + k)%nat) AccessRequest (bytes_of_string "12345")) = rng (16 + k)%nat) by reflexivity.
  revert G1 I0; generalize (packet_new (fun i => rng (i + k)%nat) AccessRequest (bytes_of_string "12345")) as p0; intros p0 G1 I0.
  pose proof (fun m w => linked_get_identifier f m p0 w) as G2; rewrite I0 in G2; clear I0.
  generalize dependent (rng (16 + k)%nat); intros id G2.
  set (id1 := n2b (b2n id + 1)).
  assert (L := b2n_lt id).
  assert (E1 : b2n id1 = (b2n id + 1) mod 256) by (unfold id1; apply b2n_n2b).
  pose proof (fun m w => linked_set_identifier f m p0 id1 w) as G3.
  pose proof (fun m w => linked_get_identifier f m (packet_set_identifier p0 id1) w) as G4.
  change (packet_get_identifier (packet_set_identifier p0 id1)) with id1 in G4.
  pose proof (fun m => linked_new_with_identifier f m AccessRequest (bytes_of_string "12345") id1 (World (17 + k) tr)) as G5.
  unfold drawn in G5; cbn [w_random w_trace] in G5.
  assert (I1 : packet_get_identifier (packet_new_with_identifier (fun i => rng (i + (17 + k))%nat) AccessRequest (bytes_of_string "12345") id1) = id1) by reflexivity.
  revert G5 I1; generalize (packet_new_with_identifier (fun i => rng (i + (17 + k))%nat) AccessRequest (bytes_of_string "12345") id1) as p1; intros p1 G5 I1.
  pose proof (fun m w => linked_get_identifier f m p1 w) as G6; rewrite I1 in G6; clear I1.
  revert G3 G4; generalize (packet_set_identifier p0 id1) as p2; intros p2 G3 G4.
  change (16 + (17 + k))%nat with (33 + k)%nat in G5.
  generalize dependent (33 + k)%nat; generalize dependent (17 + k)%nat; intros k1 G1 k2 G5.
  unfold vu8 in *. clearbody id1. rewrite E1 in *. 
  fields p0; fields p1; fields p2.
  change (v_code AccessRequest) with (VCtor "Code" "AccessRequest" []) in *. unfold v_bytes in *.
  destruct pr; (destruct (b2n id =? 255) eqn:Eid; [|rewrite N.mod_small in * by lia]); linked_start; app_steps; reflexivity.
Qed.

Lemma linked_from_date f n d w : (1 <= n)%nat ->
  linked (A f) n "AVP" "from_date" [VInt Lit 1; v_date d] w = RVal (v_avp (avp_from_date (n2b 1) d)) [VInt U8 1; v_date d] w.
Proof.
  crate; (erewrite (run_args _ _ _ _ _ [vu8 (n2b 1); v_date d]); [now apply run_from_date|vm_compute; reflexivity|reflexivity]).
Qed.
Lemma linked_encode_date f n a w : (3 <= n)%nat ->
  linked (A f) n "AVP" "encode_date" [v_avp a] w = v_result v_avp_error v_date (avp_encode_date a) [v_avp a] w.
Proof. crate; now apply encode_date_any. Qed.
(** core/avp.rs 1090-1096: the seconds of the clock are kept modulo 2^32 *)
Lemma run_test_date f n z k tr : (4 <= n)%nat -> ans tr "Utc::now" [] = Some (VDate z) ->
  linked (A f) n "" "it_should_convert_date" [] (World k tr)
  = if ((0 <=? z) && (z <? 4294967296))%Z
    then RVal (vok VUnit) [] (World k (Event "Utc::now" [] (Some (VDate z)) :: tr)) else RPanic.
Proof.
  intros Hn Ha.
  pose proof (fun m w => linked_from_date f m (DateTime z 0) w) as G1.
  pose proof (fun m w => linked_encode_date f m (avp_from_date (n2b 1) (DateTime z 0)) w) as G2.
  rewrite roundtrip_date in G2. cbn [dt_timestamp v_result] in G2.
  generalize dependent (avp_from_date (n2b 1) (DateTime z 0)); intros [t v] G1 G2.
  assert (E : (z mod 2 ^ 32 =? z)%Z = ((0 <=? z) && (z <? 4294967296))%Z).
  { change (2 ^ 32)%Z with 4294967296%Z. assert (B := Z.mod_pos_bound z 4294967296 eq_refl).
    destruct ((0 <=? z) && (z <? 4294967296))%Z eqn:L; [apply Z.eqb_eq, Z.mod_small; lia|apply Z.eqb_neq; lia]. }
  unfold v_avp, vu8, v_date, dt_timestamp in *; cbn [avp_typ avp_value] in *. rewrite <- E.
  generalize dependent (z mod 2 ^ 32)%Z; intros z' G2 E.
  linked_start; app_steps; reflexivity.
Qed.
Lemma linked_from_tunnel_password f n t pw secret ra k tr : hashes he f -> (2 <= n)%nat -> len ra = 16 ->
  linked (A f) n "AVP" "from_tunnel_password" [VInt Lit 1; vsome (v_tag t); VBytes pw; v_bytes secret; v_bytes ra] (World k tr)
  = v_result v_avp_error v_avp (avp_from_tunnel_password (rng k) (rng (S k)) (n2b 1) (Some t) pw secret ra)
      [VInt U8 1; vsome (v_tag t); VBytes pw; v_bytes secret; v_bytes ra] (World (2 + k) tr).
Proof.
  intros H Hn R.
  destruct f; (erewrite linked_crate by (vm_compute; reflexivity));
  (erewrite (run_args _ _ _ _ _ [vu8 (n2b 1); v_option v_tag (Some t); v_bytes pw; v_bytes secret; v_bytes ra]);
     [etransitivity; [now apply from_tunnel_password_any|]|vm_compute; reflexivity|reflexivity]).
  all: cbn [w_random]; rewrite R; reflexivity.
Qed.
Lemma linked_encode_tunnel_password f n a secret ra w : hashes he f -> (1 <= n)%nat ->
  linked (A f) n "AVP" "encode_tunnel_password" [v_avp a; v_bytes secret; v_bytes ra] w
  = v_result v_avp_error (v_pair v_bytes v_tag) (avp_encode_tunnel_password a secret ra) [v_avp a; v_bytes secret; v_bytes ra] w.
Proof. crate; now apply encode_tunnel_password_any. Qed.


Definition tunnel_case (pw : bytes) (l : N) : Prop :=
  from_utf8 pw = Ok pw /\ forall r0 r1, exists v,
    avp_from_tunnel_password r0 r1 (n2b 1) (Some (Tag (n2b 30))) pw (bytes_of_string "12345") (bytes_of_string "0123456789abcdef") = Ok (AVP (n2b 1) v)
    /\ len v = l
    /\ avp_encode_tunnel_password (AVP (n2b 1) v) (bytes_of_string "12345") (bytes_of_string "0123456789abcdef") = Ok (pw, Tag (n2b 30)).
Lemma tunnel_case_of pw : from_utf8 pw = Ok pw -> len pw <= 240 -> ~ In x00 pw -> tunnel_case pw (16 * N.max 1 ((len pw + 15) / 16) + 3).
Proof.
  intros U L N. split; [exact U|]. intros r0 r1.
  destruct (from_tunnel_password_cases r0 r1 (n2b 1) (Some (Tag (n2b 30))) pw (bytes_of_string "12345") (bytes_of_string "0123456789abcdef"))
    as [(X & _)|[(_ & X & _)|(_ & _ & E)]]; [now destruct X|discriminate|].
  cbv zeta in E. eexists; split; [exact E|]. split.
  - cbn [app]. rewrite !len_cons, enc_concat_len. lia.
  - destruct (tunnel_password_roundtrip _ _ _ _ _ _ _ _ E) as [[_ D]|[X _]]; [|lia].
    rewrite D, before_first_zero_notin by exact N. reflexivity.
Qed.
Ltac known_case :=
  match goal with |- tunnel_case ?p _ =>
    refine (tunnel_case_of p _ _ _); [vm_compute; reflexivity|vm_compute; discriminate|vm_compute; intuition discriminate] end.
Lemma run_test_tunnel f n k tr : hashes he f -> (10 <= n)%nat ->
  linked (A f) n "" "it_should_convert_tunnel_password" [] (World k tr)
  = RVal (vok VUnit) [] (World (12 + k) tr).
Proof.
  intros Hh Hn.
  linked_start; app_steps;
  (match goal with |- context [for_loop ?b ?l (State ?vs _)] =>
    assert (B : forall pw x y kk, tunnel_case pw (x + y) ->
      b (VStruct "TestCase" [("plain_text", VStr pw); ("expected_encoded_len", VInt Usize (x + y))]) (State vs (World kk tr))
      = Norm VUnit (State vs (World (2 + kk) tr))) end;
   [ let pw := fresh "pw" in let kk := fresh "kk" in let Hm := fresh "Hm" in
     intros pw x y kk [U TC]; generalize dependent (x + y); intros l TC; destruct (TC (rng kk) (rng (S kk))) as (v & E1 & E2 & E3);
     pose proof (fun m Hm => linked_from_tunnel_password _ m (Tag (n2b 30)) pw (bytes_of_string "12345") (bytes_of_string "0123456789abcdef") kk tr Hh Hm eq_refl) as G1;
     rewrite E1 in G1;
     pose proof (fun m w => linked_encode_tunnel_password _ m (AVP (n2b 1) v) (bytes_of_string "12345") (bytes_of_string "0123456789abcdef") w Hh) as G2;
     rewrite E3 in G2;
     unfold v_result, v_avp, v_tag, v_pair, vsome, vu8, v_bytes in *; cbn [avp_typ avp_value tag_value] in *;
     change (b2n (n2b 30)) with 30 in *;
     unfold for_body; cbn [pmatch push_vars app map];
     app_steps; try reflexivity; try (exfalso; congruence); try (exfalso; lia);
     match goal with D : bytes_eqb ?a ?b = false |- _ => replace a with b in D by congruence; rewrite bytes_eqb_refl in D; discriminate D end
   | repeat (rewrite for_loop_cons; rewrite B by known_case; cbv beta iota delta [next_round]);
     rewrite for_loop_nil; app_steps; reflexivity ]).
Qed.

(** core/packet.rs 622-643, for one password *)
Lemma password_case rn secret pw : secret <> [] -> len pw <= 128 -> ~ In x00 pw ->
  exists q bs, rfc2865_add_user_password (packet_new rn AccessRequest secret) pw = (q, Ok tt)
    /\ packet_encode pr q = Ok bs /\ len bs <= 150 /\ packet_decode bs secret = Ok q
    /\ rfc2865_lookup_user_password q = Some (Ok pw).
Proof.
  intros S L Z. set (auth := map rn (seq 0 16)).
  assert (LA : len auth = 16) by reflexivity.
  destruct (C22_user_password_hiding (n2b 2) pw secret auth L S LA)
    as (a & _ & _ & E & T & _ & _ & _ & _ & B).
  destruct (C23_user_password_roundtrip_partial (n2b 2) pw secret auth L S LA Z) as (a' & E' & D).
  rewrite E in E'. injection E' as <-. destruct a as [t v]. cbn [avp_typ avp_value] in *. subst t.
  set (q := Packet AccessRequest (rn 16%nat) auth secret [AVP (n2b 2) v]).
  assert (A : api_packet q).
  { apply (ap_step (packet_new rn AccessRequest secret)); [apply ap_new|].
    exact (as_add (packet_new rn AccessRequest secret) (AVP (n2b 2) v)). }
  assert (WS : wire_size q = 20 + (2 + len v + 0)) by reflexivity.
  assert (EN : exists data, packet_encode pr q = Ok data).
  { destruct (C06_encode_outcomes_partial pr q A) as [(X & _)|[(_ & X & _)|[(_ & _ & X & _)|(_ & _ & _ & X)]]].
    - lia.
    - exfalso. inversion X as [? ? Q|? ? Q]; subst; cbn in Q; [lia|]. inversion Q.
    - lia.
    - exfalso. destruct X as [X|[X|X]]; discriminate.
    - exact X. }
  destruct EN as (data & EN). exists q, data.
  destruct (C05_encode_size_exact _ _ _ A EN) as (_ & LD & _).
  destruct (C03_encode_decode pr q data A EN) as (au & DD & PA); [lia|].
  rewrite (PA (or_introl eq_refl)) in DD.
  split; [|split; [exact EN|split; [lia|split; [exact DD|]]]].
  - unfold rfc2865_add_user_password, try_add.
    change (packet_get_authenticator _) with auth. change (packet_get_secret _) with secret.
    unfold rfc2865_USER_PASSWORD_TYPE. rewrite E. reflexivity.
  - change (Some (avp_encode_user_password (AVP (n2b 2) v) secret auth) = Some (Ok pw)). rewrite D. reflexivity.
Qed.

Lemma linked_decode f n bs secret w : len bs <= 150 -> (153 <= n)%nat ->
  linked (T f) n "Packet" "decode" [v_bytes bs; v_bytes secret] w
  = v_result v_packet_error v_packet (packet_decode bs secret) [v_bytes bs; v_bytes secret] w.
Proof. intros L H. destruct f; (erewrite linked_crate by (vm_compute; reflexivity)); apply run_packet_decode; unfold len in *; lia. Qed.
Lemma run_test_passwords f n k tr : hashes he f -> (160 <= n)%nat ->
  linked (T f) n "" "test_passwords" [] (World k tr)
  = RVal VUnit [] (World (51 + k) tr).
Proof.
  intros Hh Hn.
  linked_start; app_steps;
  (match goal with |- context [for_loop ?b ?l (State ?vs _)] =>
    assert (B : forall pw kk, len pw <= 128 -> ~ In x00 pw ->
      b (VBytes pw) (State vs (World kk tr)) = Norm VUnit (State vs (World (17 + kk) tr))) end;
   [ let pw := fresh "pw" in let kk := fresh "kk" in
     intros pw kk L Z; destruct (password_case (fun i => rng (i + kk)%nat) (bytes_of_string "xyzzy5461") pw ltac:(discriminate) L Z) as (q & bs & E1 & E2 & LB & E3 & E4);
     match goal with |- context [linked (T ?f)] =>
     pose proof (fun m => linked_packet_new pr rng he ans packet_tests [] f m AccessRequest (bytes_of_string "xyzzy5461") (World kk tr) eq_refl) as G1;
     unfold drawn in G1; cbn [w_random w_trace] in G1;
     generalize dependent (packet_new (fun i => rng (i + kk)%nat) AccessRequest (bytes_of_string "xyzzy5461")); intros p0 E1 G1;
     pose proof (fun m w => linked_add_user_password pr rng he ans packet_tests [] f m p0 pw w eq_refl Hh) as G2;
     pose proof (fun m w => linked_encode pr rng he ans packet_tests [] f m q w eq_refl Hh) as G3;
     pose proof (fun m w => linked_decode f m bs (bytes_of_string "xyzzy5461") w LB) as G4;
     pose proof (fun m w => linked_lookup_user_password pr rng he ans packet_tests [] f m q w eq_refl Hh) as G5 end;
     rewrite E1 in G2; rewrite E2 in G3; rewrite E3 in G4; rewrite E4 in G5;
     unfold added, fallible, looked, bare, v_out, v_result, v_bytes, fst, snd in *; fields p0; fields q;
     change (v_code AccessRequest) with (VCtor "Code" "AccessRequest" []) in *;
     unfold for_body; cbn [pmatch push_vars app map];
     app_steps; try reflexivity;
     match goal with D : bytes_eqb _ _ = false |- _ => rewrite bytes_eqb_refl in D; discriminate D end
   | repeat (rewrite for_loop_cons; rewrite B by (vm_compute; intuition discriminate); cbv beta iota delta [next_round]);
     rewrite for_loop_nil; app_steps; reflexivity ]).
Qed.
End Tests.
