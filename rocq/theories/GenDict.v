(** * Running the functions of main.rs that write a whole module *)
From Coq Require Import String List NArith ZArith Bool Arith Strings.Byte Lia ZifyBool ZifyNat ZifyN.
From Verif Require Import Prelude PreludeFacts AvpSpec Accessors CodeGen Inflect GenText Rust RustEval CodeRun RustFacts CodeTactics Utf8Text SourceGen GenRun GenTemplates GenAttributes.
Import ListNotations.
Local Open Scope string_scope.
Local Open Scope N_scope.
Local Open Scope list_scope.

Lemma scalar_upper c : scalar c -> scalar (to_ascii_uppercase c).
Proof. unfold scalar, to_ascii_uppercase, ascii_lower. destruct ((97 <=? c) && (c <=? 122)) eqn:E; lia. Qed.
Lemma scalar_lower c : scalar c -> scalar (to_ascii_lowercase c).
Proof. unfold scalar, to_ascii_lowercase, ascii_upper. destruct ((65 <=? c) && (c <=? 90)) eqn:E; lia. Qed.
Lemma scalar_pascal_loop U s : Forall scalar s -> forall a b c, Forall scalar (pascal_loop U a b c s).
Proof.
  induction 1 as [|x s X _ IH]; intros a b c; [constructor|]. cbn [pascal_loop].
  repeat match goal with |- Forall _ (if ?t then _ else _) => destruct t end; try constructor; auto using scalar_upper, scalar_lower.
Qed.
Lemma scalar_drop_while f s : Forall scalar s -> Forall scalar (drop_while f s).
Proof. induction 1 as [|x s X F IH]; [constructor|]. cbn [drop_while]. destruct (f x); [exact IH|now constructor]. Qed.
Lemma scalar_pascal U s : Forall scalar s -> Forall scalar (to_pascal_case U s).
Proof. intro F. apply scalar_pascal_loop. apply Forall_rev, scalar_drop_while, Forall_rev, F. Qed.

(** the map from attribute names to the modules that define them *)
Definition names_map (names : list (text * string)) (l : list value) : Prop :=
  forall attr, Forall scalar attr -> map_get (utf8_text attr) l = option_map v_module (rfc_of names attr).
Definition v_module_opt (o : option string) : value := match o with Some r => vsome (v_module r) | None => vnone end.
Definition constant_chunk (U : unicode) (type_name : text) (rfc : option string) (v : radius_value) : option (list bytes) :=
  Some [utf8_text (GenText.constant_text U type_name rfc v)].
Definition value_chunks (U : unicode) (attr : text) (values : list radius_value) (rfc : option string) : list bytes :=
  (match rfc with
   | None => [utf8_text ([10] ++ lit_text "pub type " ++ to_pascal_case U attr ++ lit_text " = u32;" ++ [10])]
   | Some _ => []
   end)
  ++ flat_map (fun v => [utf8_text (GenText.constant_text U (to_pascal_case U attr) rfc v)]) values ++ [[x0a]].
Lemma value_chunks_text U attr values rfc : concat (value_chunks U attr values rfc) = utf8_text (values_text U attr values rfc).
Proof.
  unfold value_chunks, values_text. rewrite !concat_app, !utf8_text_app. f_equal; [destruct rfc; [reflexivity|]; cbn [concat]; now rewrite app_nil_r, !utf8_text_app|].
  f_equal. rewrite utf8_text_flat. induction values as [|v vs IH]; [reflexivity|]. cbn [flat_map concat app]. now rewrite IH.
Qed.
Lemma chunks_of_some {A} (f : A -> list bytes) l : chunks_of (fun a => Some (f a)) l = Some (flat_map f l).
Proof. induction l as [|a l IH]; [reflexivity|]. cbn [chunks_of flat_map]. now rewrite IH. Qed.

Section Modules.
  Context (p : profile) (rnd : nat -> byte) (he : bytes -> option string) (U : unicode) (od : N -> bool)
          (ans : list event -> string -> list value -> option value) (path : bytes).
  Context (L : libraries U od ans) (W : writable path ans).
  Let C := gen_cx p rnd he ans.

  (** ** All attributes of a dictionary *)
  Definition kind_chunks (m : value_map) (a : radius_attribute) : option (list bytes) :=
    match attribute_kind a (existsb (fun e => text_eqb (ra_name a) (fst e)) m) with
    | Ok k => Some (attribute_chunks U (ra_name a) (ra_typ a) k)
    | _ => None
    end.
  Lemma attributes_chunks m attrs :
    match chunks_of (kind_chunks m) attrs with
    | Some c => exists t, attributes_text U attrs m = Ok t /\ concat c = utf8_text t
    | None => attributes_text U attrs m = Panic
    end.
  Proof.
    induction attrs as [|a attrs IH]; [now exists []|].
    cbn [chunks_of attributes_text]. unfold kind_chunks at 1.
    destruct (attribute_kind a _) as [k|[]| |] eqn:K; cbn [bind]; try reflexivity.
    - destruct (chunks_of (kind_chunks m) attrs) as [c|]; [|now rewrite IH].
      destruct IH as [t [-> E]]. eexists. split; [reflexivity|]. rewrite concat_app, E, attribute_chunks_text. symmetry. apply utf8_text_app.
    - destruct a as [? ? [] ? ? []]; discriminate.
    - destruct a as [? ? [] ? ? []]; discriminate.
  Qed.
  Lemma run_attributes n attrs m w : (n > 2)%nat -> Forall (fun a => Forall scalar (ra_name a)) attrs -> Forall scalar_entry m ->
    run C n "" "generate_attributes_code" [v_file path; VList (map v_attribute attrs); v_names m] w
    = match chunks_of (kind_chunks m) attrs with
      | Some c => RVal VUnit [v_file path; VList (map v_attribute attrs); v_names m] (wrote path c w)
      | None => RPanic
      end.
  Proof.
    intros N S F. destruct n as [|n]; [lia|]. unfold v_names. unfold C, gen_cx in *. 
    remember (map (fun e : text * list radius_value => v_string (fst e)) m) as names eqn:E.
    unfold v_file. steps.
    match goal with |- context [for_loop ?b (map v_attribute attrs) (State ?vars w)] =>
      rewrite (writing_loop v_attribute (kind_chunks m) b path vars (fun a => Forall scalar (ra_name a)) attrs S) end.
    - destruct (chunks_of _ _); steps; reflexivity.
    - intros a w0 A.
      pose proof (run_attribute p rnd he U od ans path L W n a m w0 ltac:(lia) A F) as R.
      unfold v_names, v_file, gen_cx in R. rewrite <- E in R. unfold kind_chunks. revert R.
      destruct (attribute_kind a _) as [k|[]| |]; intro R; unfold for_body; steps; rewrite R; steps; reflexivity.
  Qed.
  Lemma raw_screaming s : Forall scalar s ->
    ans [] "to_screaming_snake_case" [VStr (utf8_text s)] = Some (VStr (utf8_text (to_screaming_snake_case U s))).
  Proof. exact (lib_screaming _ _ _ L s). Qed.
  Lemma raw_pascal s : Forall scalar s -> ans [] "to_pascal_case" [VStr (utf8_text s)] = Some (VStr (utf8_text (to_pascal_case U s))).
  Proof. exact (lib_pascal _ _ _ L s). Qed.
  Lemma raw_write tr b : ans tr "File::write_all" [VStr path; VBytes b] = Some (VCtor "" "Ok" [VTuple []]).
  Proof. exact (W tr b). Qed.
  Ltac library :=
    lazymatch goal with
    | |- ?l = _ => focus l ltac:(fun o =>
        lazymatch o with
        | match ans _ _ _ with _ => _ end =>
            first [ rewrite raw_screaming by (assumption || now apply scalar_pascal)
                  | rewrite raw_pascal by assumption | rewrite raw_write ]; cbv beta iota
        end)
    end.
  Ltac gsteps := repeat first [library | step].

  (** ** The constants of an attribute *)
  Lemma run_u32 n w : (n > 0)%nat -> run (Cx p generator_program rnd he ans) n "" "RADIUS_VALUE_TYPE" [] w = RVal (VStr (bytes_of_string "u32")) [] w.
  Proof. intros. destruct n as [|n]; [lia|]. steps. reflexivity. Qed.
  Ltac texts :=
    unfold constant_chunk, GenText.constant_text; rewrite ?utf8_text_app, ?utf8_dec, ?app_nil_r, <- ?app_assoc; reflexivity.
  Lemma run_values n attr values rfc w : (n > 1)%nat -> Forall scalar attr -> Forall (fun v => Forall scalar (rv_name v)) values ->
    run C n "" "generate_values_for_attribute_code" [v_file path; v_string attr; VList (map v_rvalue values); v_module_opt rfc] w
    = RVal VUnit [v_file path; v_string attr; VList (map v_rvalue values); v_module_opt rfc]
        (wrote path (value_chunks U attr values rfc) w).
  Proof.
    intros N S F. destruct n as [|n]; [lia|]. unfold C, gen_cx, v_file, v_string, v_module_opt, v_module in *.
    unfold value_chunks. 
    destruct rfc as [r|].
    all: plain_step.
    all: match goal with |- context [EFor ?a ?b ?c] => remember (EFor a b c) as loop eqn:E end.
    all: repeat (not_named; first [library | rewrite run_u32 by lia | step]).
    all: subst loop; steps.
    - match goal with |- context [for_loop ?b (map v_rvalue values) (State ?vars ?w)] =>
        rewrite (writing_loop v_rvalue (constant_chunk U (to_pascal_case U attr) (Some r)) b path vars (fun v => Forall scalar (rv_name v)) values F) end.
      + unfold constant_chunk. rewrite chunks_of_some. gsteps. rewrite !wrote_app. reflexivity.
      + intros [nm x] w0 A. unfold for_body, v_rvalue, v_string. cbn [rv_name rv_value] in *. gsteps.
        match goal with |- context [bytes_of_string "pub const " ++ ?rest] =>
          replace (bytes_of_string "pub const " ++ rest)
            with (utf8_text (GenText.constant_text U (to_pascal_case U attr) (Some r) (RadiusValue nm x))) by texts end.
        reflexivity.
    - match goal with |- context [bytes_of_string ?a ++ ?rest] =>
        replace (bytes_of_string a ++ rest) with (utf8_text ([10] ++ lit_text "pub type " ++ to_pascal_case U attr ++ lit_text " = u32;" ++ [10]))
          by texts end.
      match goal with |- context [for_loop ?b (map v_rvalue values) (State ?vars ?w)] =>
        rewrite (writing_loop v_rvalue (constant_chunk U (to_pascal_case U attr) None) b path vars (fun v => Forall scalar (rv_name v)) values F) end.
      + unfold constant_chunk. rewrite chunks_of_some. gsteps. rewrite !wrote_app. reflexivity.
      + intros [nm x] w0 A. unfold for_body, v_rvalue, v_string. cbn [rv_name rv_value] in *. gsteps.
        match goal with |- context [bytes_of_string "pub const " ++ ?rest] =>
          replace (bytes_of_string "pub const " ++ rest)
            with (utf8_text (GenText.constant_text U (to_pascal_case U attr) None (RadiusValue nm x))) by texts end.
        reflexivity.
  Qed.

  (** ** The constants of a dictionary *)
  Lemma run_all_values n m names l w : (n > 2)%nat -> Forall scalar_entry m -> names_map names l ->
    run C n "" "generate_values_code" [v_file path; v_value_map m; VList l] w
    = RVal VUnit [v_file path; v_value_map m; VList l]
        (wrote path (flat_map (fun e => value_chunks U (fst e) (snd e) (rfc_of names (fst e))) m) w).
  Proof.
    intros N F M. destruct n as [|n]; [lia|]. unfold C, gen_cx, v_file, v_value_map in *. steps.
    match goal with |- context [for_loop ?b (map v_entry m) (State ?vars ?w)] =>
      rewrite (writing_loop v_entry (fun e => Some (value_chunks U (fst e) (snd e) (rfc_of names (fst e)))) b path vars scalar_entry m F) end.
    - rewrite chunks_of_some. steps. reflexivity.
    - intros [attr vs] w0 [A V]. cbn [fst snd] in *. unfold for_body, v_entry, v_string. cbn [fst snd].
      pose proof (run_values n attr vs (rfc_of names attr) w0 ltac:(lia) A V) as R. unfold C, gen_cx, v_file, v_string, v_module_opt, vsome, vnone in R.
      repeat first [rewrite (M attr A) | step].
      destruct (rfc_of names attr) as [r|]; cbn [option_map];
        repeat first [rewrite R | step]; reflexivity.
  Qed.
  Lemma all_values_chunks m names :
    concat (flat_map (fun e => value_chunks U (fst e) (snd e) (rfc_of names (fst e))) m) = utf8_text (all_values_text U m names).
  Proof.
    unfold all_values_text. rewrite utf8_text_flat. induction m as [|e m IH]; [reflexivity|].
    cbn [flat_map]. now rewrite concat_app, IH, value_chunks_text.
  Qed.
End Modules.
