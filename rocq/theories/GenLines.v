(** * Running parse_dict_file of main.rs: the lines *)
From Coq Require Import String List NArith ZArith Bool Arith Strings.Byte Lia ZifyBool ZifyNat ZifyN.
From Verif Require Import Prelude PreludeFacts AvpSpec Accessors CodeGen Inflect GenText Rust RustEval CodeRun RustFacts CodeTactics Utf8Text CodeGenFacts SourceGen GenRun GenTemplates GenAttributes GenDict GenHeader GenParse.
Import ListNotations.
Local Open Scope string_scope.
Local Open Scope N_scope.
Local Open Scope list_scope.

Local Hint Rewrite len_cons5 len_cons4 comma_bytes : vals.
Lemma parse_u8 b : unwrap_prim (parse_as generator_program (TyName ["u8"] []) (VStr b))
  = match RustEval.parse_uint 256 b with Some n => PVal (VInt U8 n) | None => PPanic end.
Proof. change (parse_as _ _ _) with (match RustEval.parse_uint 256 b with Some n => PVal (VCtor "" "Ok" [VInt U8 n]) | None => PVal (VCtor "" "Err" [VError []]) end). now destruct (RustEval.parse_uint 256 b). Qed.
Lemma parse_u16 b : unwrap_prim (parse_as generator_program (TyName ["u16"] []) (VStr b))
  = match RustEval.parse_uint 65536 b with Some n => PVal (VInt U16 n) | None => PPanic end.
Proof. change (parse_as _ _ _) with (match RustEval.parse_uint 65536 b with Some n => PVal (VCtor "" "Ok" [VInt U16 n]) | None => PVal (VCtor "" "Err" [VError []]) end). now destruct (RustEval.parse_uint 65536 b). Qed.
(** what is known about calls, answers and numbers *)
Ltac given ans tac :=
  lazymatch goal with
  | |- ?l = _ => focus l ltac:(fun o =>
      lazymatch o with
      | after_call (run _ _ _ _ _ _) _ => tac
      | match ans _ _ _ with _ => _ end => tac; cbv beta iota
      | lift (unwrap_prim _) _ => tac
      end)
  end.

(** ** The map from attributes to their values *)
Lemma values_get m attr : Forall scalar_entry m -> Forall scalar attr ->
  map_get (utf8_text attr) (map v_entry m) = option_map (fun vs => VList (map v_rvalue vs)) (value_map_get m attr).
Proof.
  intros F A. unfold value_map_get. induction F as [|[k vs] m [K _] F IH]; [reflexivity|].
  unfold v_entry, v_string in *. cbn [map map_get find fst snd] in *. rewrite utf8_eqb by assumption.
  destruct (text_eqb attr k); [reflexivity|exact IH].
Qed.
Lemma values_insert m attr v : Forall scalar_entry m -> Forall scalar attr -> sorted_map m ->
  map_insert (utf8_text attr)
    (VList (map v_rvalue (match value_map_get m attr with Some vs => vs | None => [] end) ++ [v_rvalue v])) (map v_entry m)
  = map v_entry (value_map_add m attr v).
Proof.
  intros F A. unfold value_map_get. induction F as [|[k vs] m [K _] F IH]; intro S; [reflexivity|].
  unfold v_entry, v_string in *. cbn [map map_insert find fst snd value_map_add] in *.
  rewrite utf8_eqb, utf8_ltb by assumption.
  destruct (text_eqb attr k) eqn:E.
  - apply Utf8Text.text_eqb_eq in E. subst. cbn [option_map snd map fst]. now rewrite map_app.
  - destruct (text_ltb attr k) eqn:T.
    + cbn [map fst snd]. replace (find _ m) with (@None (text * list radius_value)); [reflexivity|].
      symmetry. destruct (find _ m) as [[b ws]|] eqn:G; [|reflexivity]. exfalso.
      apply find_some in G. destruct G as [I Q]. cbn [fst] in Q. apply Utf8Text.text_eqb_eq in Q. subst.
      apply text_ltb_lt in T. pose proof (sorted_head _ _ _ _ _ S I) as H.
      elim (text_lt_irrefl b). eapply text_lt_trans; eassumption.
    + cbn [map fst snd]. rewrite IH; [reflexivity|]. unfold sorted_map in *. cbn in S. now apply Sorting.Sorted.StronglySorted_inv in S as [S _].
Qed.
Lemma scalar_add m attr v : Forall scalar_entry m -> Forall scalar attr -> Forall scalar (rv_name v) -> Forall scalar_entry (value_map_add m attr v).
Proof.
  intros F A V. induction F as [|[k vs] m [K W] F IH]; cbn [value_map_add].
  - repeat constructor; assumption.
  - cbn [fst snd] in *. destruct (text_eqb attr k); [|destruct (text_ltb attr k)].
    + constructor; [|exact F]. split; [exact K|]. cbn [snd]. apply Forall_app. split; [exact W|now constructor].
    + constructor; [|constructor; [now split|exact F]]. split; [exact A|]. cbn [snd]. now constructor.
    + constructor; [now split|exact IH].
Qed.

Lemma push_none vars w : push_vars [] (State vars w) = State vars w.
Proof. reflexivity. Qed.

Section Lines.
  Context (p : profile) (rnd : nat -> byte) (he : bytes -> option string) (U : unicode) (od : N -> bool)
          (ans : list event -> string -> list value -> option value).
  Context (L : libraries U od ans).
  Context (path : bytes) (lines : list text).
  Let C := gen_cx p rnd he ans.
  Let in_line := in_line path lines.
  Ltac bare := unfold C, gen_cx, in_line, GenParse.in_line, in_attribute, outer, v_string, v_encryption, vsome, vnone, vok, verr in *.
  Ltac regexes :=
    repeat match goal with |- context [VCtor "Regex" "Regex" [VStr (bytes_of_string ?a)]] =>
      generalize (VCtor "Regex" "Regex" [VStr (bytes_of_string a)]); intro end.

  Lemma run_push n o vt f line i0 i1 i2 i3 more kind attrs values w : (n > 1)%nat -> Forall scalar i2 ->
    eval C n "" (run C n) (State (("fixed_octets_length", v_size f) :: ("typ", v_value_type vt)
      :: in_attribute o (in_line line (i0 :: i1 :: i2 :: i3 :: more) kind attrs values)) w) push_part
    = match CodeGen.parse_uint 255 i2 with
      | Some typ => Norm VUnit (State (("fixed_octets_length", v_size f) :: ("typ", v_value_type vt)
          :: in_attribute o (in_line line (i0 :: i1 :: i2 :: i3 :: more) kind
               (attrs ++ [RadiusAttribute i1 typ vt f (op_concat o) (op_has_tag o)]) values)) w)
      | None => Panicked
      end.
  Proof.
    intros N S. unfold push_part. destruct o as [enc tag con]. rewrite <- (parse_uint_utf8 255 256 i2 S eq_refl).
    bare. cbn [map op_encryption op_has_tag op_concat]. regexes.
    generalize (VCtor "Path" "Path" [VStr path]), (v_value_map values),
      (VList (map (fun l : text => VCtor "" "Ok" [VStr (utf8_text l)]) lines)), (VStr (utf8_text line)), (VStr (utf8_text kind)). intros.
    unfold v_value_type, v_size.
    repeat first [given ans ltac:(rewrite parse_u8) | step]; [|reflexivity].
    rewrite map_app. destruct f; reflexivity.
  Qed.

  (** ** A line of each kind *)
  Lemma run_attribute_arm n line i0 i1 i2 i3 more kind attrs values w : (n > 1)%nat -> Forall (Forall scalar) (i0 :: i1 :: i2 :: i3 :: more) ->
    eval C n "" (run C n) (State (in_line line (i0 :: i1 :: i2 :: i3 :: more) kind attrs values) w) attribute_arm
    = let o := read_options (i0 :: i1 :: i2 :: i3 :: more) in
      match read_type od o i3 with
      | Ok tf =>
          match CodeGen.parse_uint 255 i2 with
          | Some typ => Norm VUnit (State (in_line line (i0 :: i1 :: i2 :: i3 :: more) kind
                          (attrs ++ [RadiusAttribute i1 typ (fst tf) (snd tf) (op_concat o) (op_has_tag o)]) values) w)
          | None => Panicked
          end
      | Err e => Retd (verr (v_string (error_text e))) (State (in_line line (i0 :: i1 :: i2 :: i3 :: more) kind attrs values) w)
      | _ => Panicked
      end.
  Proof.
    intros N S. cbv zeta. remember (i0 :: i1 :: i2 :: i3 :: more) as items eqn:E.
    pose proof (run_options p rnd he ans path lines n line items kind attrs values w N S) as R1.
    assert (S2 : Forall scalar i2) by (subst items; do 2 apply Forall_inv_tail in S; now apply Forall_inv in S).
    assert (S3 : Forall scalar i3) by (subst items; do 3 apply Forall_inv_tail in S; now apply Forall_inv in S).
    remember (read_options items) as o eqn:O. clear O.
    pose proof (run_type p rnd he U od ans L path lines n o line i0 i1 i2 i3 more kind attrs values w N S3) as R2.
    pose proof (fun vt f => run_push n o vt f line i0 i1 i2 i3 more kind attrs values w N S2) as R3.
    rewrite <- E in R2, R3. clear S E S3 S2.
    match goal with |- context [attribute_arm] =>
      change attribute_arm with (EBlock
        [SLet (PVar "encryption_type") (Some (TyName ["Option"] [TyName ["EncryptionType"] []])) (EPath ["None"] []);
         SLet (PVar "has_tag") None (EBool false); SLet (PVar "concat_octets") None (EBool false);
         SExpr options_part; SLet (PTuple [PVar "typ"; PVar "fixed_octets_length"]) None type_part; SExpr push_part] None) end.
    assert (G : is_guard type_part = false) by reflexivity.
    remember options_part as e1 eqn:E1. remember type_part as e2 eqn:E2. remember push_part as e3 eqn:E3. clear E1 E2 E3.
    bare. cbv beta in *. cbn [op_encryption op_has_tag op_concat] in R1.
    repeat (not_named; step). 
    rewrite R1. 
    repeat (not_named; step). 
    rewrite eval_stmts_let by exact G. rewrite R2. destruct (read_type od o i3) as [[vt f]|e| |]; cbn [fst snd].
    2-4: steps; reflexivity.
    repeat (not_named; step). rewrite R3.
    destruct (CodeGen.parse_uint 255 i2); steps; reflexivity.
  Qed.

  Lemma raw_comment s : Forall scalar s -> existsb is_ws s = false ->
    ans [] "Regex::replace" [VStr (bytes_of_string "\s*?#.+?$"); VStr (utf8_text s); VStr (bytes_of_string "")] = Some (VStr (utf8_text (cut_trailing_comment s))).
  Proof. exact (lib_comment _ _ _ L s). Qed.
  Lemma scalar_cut s : Forall scalar s -> Forall scalar (cut_trailing_comment s).
  Proof. induction 1 as [|c s S F IH]; [constructor|]. cbn [cut_trailing_comment]. destruct (_ && _); [constructor|now constructor]. Qed.
  Lemma run_value_arm n line i0 i1 i2 i3 more kind attrs values w : (n > 1)%nat ->
    Forall scalar i1 -> Forall scalar i2 -> Forall scalar i3 -> existsb is_ws i3 = false -> Forall scalar_entry values -> sorted_map values ->
    eval C n "" (run C n) (State (in_line line (i0 :: i1 :: i2 :: i3 :: more) kind attrs values) w) value_arm
    = match CodeGen.parse_uint 65535 (cut_trailing_comment i3) with
      | Some v => Norm VUnit (State (in_line line (i0 :: i1 :: i2 :: i3 :: more) kind attrs (value_map_add values i1 (RadiusValue i2 v))) w)
      | None => Panicked
      end.
  Proof.
    intros N S1 S2 S3 W3 F O. unfold value_arm.
    pose proof (raw_comment i3 S3 W3) as R.
    rewrite <- (parse_uint_utf8 65535 65536 _ (scalar_cut _ S3) eq_refl).
    pose proof (values_get values i1 F S1) as G.
    pose proof (fun v => values_insert values i1 v F S1 O) as I.
    bare. cbv beta in *. unfold v_value_map.
    generalize (VCtor "Regex" "Regex" [VStr (bytes_of_string "^octets\[(\d+)]$")]), (VCtor "Regex" "Regex" [VStr (bytes_of_string "\s+")]),
      (VCtor "Regex" "Regex" [VStr (bytes_of_string "^(?:#.*|)$")]), (VCtor "Path" "Path" [VStr path]), (VList (map v_attribute attrs)),
      (VList (map (fun l : text => VCtor "" "Ok" [VStr (utf8_text l)]) lines)), (VStr (utf8_text line)), (VStr (utf8_text kind)). intros.
    destruct (value_map_get values i1) as [vs|]; cbn [option_map] in G.
    all: repeat first [given ans ltac:(first [rewrite R | rewrite parse_u16]) | rewrite G | step]; try reflexivity.
    all: rewrite <- I; reflexivity.
  Qed.

  (** ** A line *)
  Lemma items_plain t : Forall scalar t -> forall r sep, Forall scalar r -> existsb is_ws r = false ->
    Forall (fun i => Forall scalar i /\ existsb is_ws i = false) (split_ws r sep t).
  Proof.
    assert (X : forall r, existsb is_ws r = false -> existsb is_ws (rev r) = false).
    { intros r H. destruct (existsb is_ws (rev r)) eqn:E; [|reflexivity]. apply existsb_exists in E. destruct E as [c [I Q]].
      apply in_rev in I. assert (existsb is_ws r = true) by (apply existsb_exists; eauto). congruence. }
    induction 1 as [|c t S _ IH]; intros r sep R W; cbn [split_ws].
    - constructor; [|constructor]. split; [now apply Forall_rev|now apply X].
    - destruct (is_ws c) eqn:E; [destruct sep|].
      + apply IH; [constructor|reflexivity].
      + constructor; [split; [now apply Forall_rev|now apply X]|]. apply IH; [constructor|reflexivity].
      + apply IH; [now constructor|]. cbn [existsb]. now rewrite E.
  Qed.
  Lemma raw_filter s : Forall scalar s ->
    ans [] "Regex::is_match" [VStr (bytes_of_string "^(?:#.*|)$"); VStr (utf8_text s)] = Some (VBool (line_is_filtered s)).
  Proof. exact (lib_filter _ _ _ L s). Qed.
  Lemma raw_split s : Forall scalar s ->
    ans [] "Regex::split" [VStr (bytes_of_string "\s+"); VStr (utf8_text s)] = Some (VList (map (fun t : text => VStr (utf8_text t)) (split_items s))).
  Proof. exact (lib_split _ _ _ L s). Qed.
  Lemma run_line n line attrs values w k : (n > 1)%nat -> Forall scalar line -> Forall scalar_entry values -> sorted_map values ->
    next_round (for_body (PVar "line_result") (fun s => eval C n "" (run C n) s line_body) (VCtor "" "Ok" [VStr (utf8_text line)])
                  (State (outer path lines attrs values) w)) k
    = match parse_line od (attrs, values) line with
      | Ok (attrs', values') => k (State (outer path lines attrs' values') w)
      | Err e => Retd (verr (v_string (error_text e))) (State (outer path lines attrs values) w)
      | _ => Panicked
      end.
  Proof.
    intros N S F O. unfold parse_line.
    pose proof (raw_filter line S) as R1. pose proof (raw_split line S) as R2.
    pose proof (items_plain line S [] false (Forall_nil _) eq_refl) as P. fold (split_items line) in P.
    match goal with |- context [line_body] =>
      let b := eval unfold line_body in line_body in
      lazymatch b with
      | EBlock ?ss (Some (EMatch ?e [(?p1, _); (?p2, _); ?last])) =>
          change line_body with (EBlock ss (Some (EMatch e [(p1, attribute_arm); (p2, value_arm); last])))
      end end.
    pose proof (fun i0 i1 i2 i3 more kind => run_attribute_arm n line i0 i1 i2 i3 more kind attrs values w N) as RA.
    pose proof (fun i0 i1 i2 i3 more kind => run_value_arm n line i0 i1 i2 i3 more kind attrs values w N) as RV.
    remember attribute_arm as e1 eqn:E1. remember value_arm as e2 eqn:E2. clear E1 E2.
    destruct (line_is_filtered line).
    { bare. repeat first [given ans ltac:(rewrite R1) | step]. reflexivity. }
    destruct (split_items line) as [|i0 [|i1 [|i2 [|i3 more]]]].
    1-4: bare; unfold for_body; repeat first [given ans ltac:(first [rewrite R1 | rewrite R2]) | step]; reflexivity.
    assert (SI : Forall (Forall scalar) (i0 :: i1 :: i2 :: i3 :: more)) by (eapply Forall_impl; [|exact P]; now intros ? []).
    specialize (RA i0 i1 i2 i3 more i0 SI). specialize (RV i0 i1 i2 i3 more i0).
    apply Forall_cons_iff in P. destruct P as [[S0 _] P]. apply Forall_cons_iff in P. destruct P as [[S1 _] P].
    apply Forall_cons_iff in P. destruct P as [[S2 _] P]. apply Forall_cons_iff in P. destruct P as [[S3 W3] _].
    specialize (RV S1 S2 S3 W3 F O). cbv zeta in RA. unfold bind.
    rewrite <- (utf8_eqb_lit i0 "ATTRIBUTE" S0 eq_refl), <- (utf8_eqb_lit i0 "VALUE" S0 eq_refl).
    unfold text in *.
    remember (read_type od (read_options (i0 :: i1 :: i2 :: i3 :: more)) i3) as rt eqn:RT.
    remember (read_options (i0 :: i1 :: i2 :: i3 :: more)) as o eqn:RO. clear RO RT SI. fold text in *.
    bare. cbv beta in *. unfold for_body. cbn [map] in *.
    repeat (not_named; first [given ans ltac:(first [rewrite R1 | rewrite R2]) | step]).
    - rewrite push_none, RA. destruct rt as [[vt f]|e| |]; [destruct (CodeGen.parse_uint 255 i2)|..]; steps; reflexivity.
    - rewrite push_none, RV. destruct (CodeGen.parse_uint 65535 (cut_trailing_comment i3)); steps; reflexivity.
    - cbn [error_text]. rewrite utf8_text_app, app_nil_r. reflexivity.
  Qed.

  (** ** All lines *)
  Lemma run_lines n : (n > 1)%nat -> forall ls attrs values w, Forall (Forall scalar) ls -> Forall scalar_entry values -> sorted_map values ->
    match parse_lines od (attrs, values) ls with
    | Ok (attrs', values') =>
        for_loop (for_body (PVar "line_result") (fun s => eval C n "" (run C n) s line_body))
          (map (fun l : text => VCtor "" "Ok" [VStr (utf8_text l)]) ls) (State (outer path lines attrs values) w)
        = Norm VUnit (State (outer path lines attrs' values') w)
    | Err e =>
        exists attrs' values',
        for_loop (for_body (PVar "line_result") (fun s => eval C n "" (run C n) s line_body))
          (map (fun l : text => VCtor "" "Ok" [VStr (utf8_text l)]) ls) (State (outer path lines attrs values) w)
        = Retd (verr (v_string (error_text e))) (State (outer path lines attrs' values') w)
    | _ =>
        for_loop (for_body (PVar "line_result") (fun s => eval C n "" (run C n) s line_body))
          (map (fun l : text => VCtor "" "Ok" [VStr (utf8_text l)]) ls) (State (outer path lines attrs values) w)
        = Panicked
    end.
  Proof.
    intros N ls. induction ls as [|l ls IH]; intros attrs values w S F O; [reflexivity|].
    apply Forall_cons_iff in S. destruct S as [S Ss].
    cbn [parse_lines map for_loop]. rewrite (run_line n l attrs values w _ N S F O).
    destruct (parse_line od (attrs, values) l) as [[attrs' values']|e| |] eqn:E; cbn [bind]; try reflexivity.
    - apply IH; [exact Ss|..].
      all: revert E; unfold parse_line; destruct (line_is_filtered l); [injection 1 as <- <-; assumption|].
      all: pose proof (items_plain l S [] false (Forall_nil _) eq_refl) as P; fold (split_items l) in P.
      all: destruct (split_items l) as [|i0 [|i1 [|i2 [|i3 more]]]]; try discriminate.
      all: apply Forall_cons_iff in P; destruct P as [_ P]; apply Forall_cons_iff in P; destruct P as [[S1 _] P];
           apply Forall_cons_iff in P; destruct P as [[S2 _] _].
      all: destruct (text_eqb i0 _); [destruct (read_type _ _ _) as [?|?| |]; try discriminate; cbn [bind]; destruct (CodeGen.parse_uint _ _); [injection 1 as <- <-; assumption|discriminate]|].
      all: destruct (text_eqb i0 _); [|discriminate]; destruct (CodeGen.parse_uint _ _); [|discriminate]; injection 1 as <- <-.
      + now apply scalar_add.
      + now apply value_map_add_sorted.
    - now exists attrs, values.
  Qed.
  Definition parse_result (r : parsed) : value :=
    vok (VTuple [VTuple [VList (map v_attribute (fst r)); v_value_map (snd r)]; v_lines lines]).
  Lemma run_parse n w : (n > 2)%nat -> readable ans path lines -> Forall (Forall scalar) lines ->
    run C n "" "parse_dict_file" [v_path path] w
    = match parse_lines od ([], []) lines with
      | Ok r => RVal (parse_result r) [v_path path] (read_events path lines (read_events path lines w))
      | Err e => RVal (verr (v_string (error_text e))) [v_path path] (read_events path lines w)
      | _ => RPanic
      end.
  Proof.
    intros N R S. destruct n as [|n]; [lia|]. 
    pose proof (fun w => run_read_lines p rnd he ans n path lines w ltac:(lia) R) as RL.
    pose proof (run_lines n ltac:(lia) lines [] [] (read_events path lines w) S (Forall_nil _) ltac:(constructor)) as RR.
    unfold C, gen_cx, v_path, v_lines, v_file, v_string, parse_result, vok, verr in *.
    plain_step.
    match goal with |- context [EFor ?a ?b line_body] => idtac | |- context [EFor ?a ?b ?c] => change c with line_body end.
    match goal with |- context [EFor ?a ?b line_body] => remember (EFor a b line_body) as loop eqn:E end.
    repeat (not_named; first [rewrite RL | step]).
    subst loop. plain_step. steps.
    match goal with |- context [for_loop ?b ?l ?s] => change s with (State (outer path lines [] []) (read_events path lines w)) end.
    revert RR. destruct (parse_lines od ([], []) lines) as [[attrs values]|e| |].
    - intros ->. unfold outer. repeat first [rewrite RL | step]. reflexivity.
    - intros [attrs [values ->]]. unfold outer. steps. reflexivity.
    - intros ->. steps. reflexivity.
    - intros ->. steps. reflexivity.
  Qed.
End Lines.
