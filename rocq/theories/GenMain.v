(** * Running main of main.rs *)
From Coq Require Import String List NArith ZArith Bool Arith Strings.Byte Lia ZifyBool ZifyNat ZifyN.
From Verif Require Import Prelude PreludeFacts AvpSpec Accessors CodeGen Inflect GenText Rust RustEval CodeRun RustFacts CodeTactics Utf8Text CodeGenFacts SourceGen GenRun GenTemplates GenAttributes GenDict GenHeader GenParse GenLines.
Import ListNotations.
Local Open Scope string_scope.
Local Open Scope N_scope.
Local Open Scope list_scope.

(** a dictionary file: where it is, the extension of its name, what is in it *)
Record dictionary := Dictionary { d_path : bytes; d_name : string; d_text : text }.
Record command_line (ans : list event -> string -> list value -> option value) (program : bytes) (args : list bytes) (paths : list bytes) : Prop := {
  cl_args : forall tr, ans tr "env::args" [] = Some (VList (VStr program :: map VStr args));
  cl_new : forall tr, ans tr "Options::new" [] = Some (VExt "opts");
  cl_flag : forall tr, ans tr "opts.optflag" [VStr (bytes_of_string "h"); VStr (bytes_of_string "help"); VStr (bytes_of_string "print this help menu")]
    = Some (VExt "opts");
  cl_opt : forall tr, ans tr "opts.optopt" [VStr (bytes_of_string "o"); VStr (bytes_of_string "out-dir");
      VStr (bytes_of_string "[mandatory] a directory to out the generated code"); VStr (bytes_of_string "/path/to/out/")]
    = Some (VExt "opts");
  cl_parse : forall tr, ans tr "opts.parse" [VList (map VStr args)]
    = Some (VCtor "" "Ok" [VStruct "Matches" [("free", VList (map VStr paths))]]) }.

(** ** What is read is text *)
Lemma parse_line_scalar od attrs values line attrs' values' :
  Forall scalar line -> Forall (fun a => Forall scalar (ra_name a)) attrs -> Forall scalar_entry values ->
  parse_line od (attrs, values) line = Ok (attrs', values') ->
  Forall (fun a => Forall scalar (ra_name a)) attrs' /\ Forall scalar_entry values'.
Proof.
  intros S A F. unfold parse_line. destruct (line_is_filtered line); [injection 1 as <- <-; now split|].
  pose proof (items_plain line S [] false (Forall_nil _) eq_refl) as P; fold (split_items line) in P.
  destruct (split_items line) as [|i0 [|i1 [|i2 [|i3 more]]]]; try discriminate.
  apply Forall_cons_iff in P; destruct P as [_ P]; apply Forall_cons_iff in P; destruct P as [[S1 _] P];
    apply Forall_cons_iff in P; destruct P as [[S2 _] _].
  destruct (text_eqb i0 _).
  - destruct (read_type _ _ _) as [?|?| |]; try discriminate; cbn [bind]; destruct (CodeGen.parse_uint _ _); [injection 1 as <- <-|discriminate].
    split; [|exact F]. apply Forall_app. split; [exact A|]. now repeat constructor.
  - destruct (text_eqb i0 _); [|discriminate]; destruct (CodeGen.parse_uint _ _); [|discriminate]; injection 1 as <- <-.
    split; [exact A|]. now apply scalar_add.
Qed.
Lemma parse_lines_scalar od ls : Forall (Forall scalar) ls -> forall attrs values attrs' values',
  Forall (fun a => Forall scalar (ra_name a)) attrs -> Forall scalar_entry values ->
  parse_lines od (attrs, values) ls = Ok (attrs', values') ->
  Forall (fun a => Forall scalar (ra_name a)) attrs' /\ Forall scalar_entry values'.
Proof.
  induction 1 as [|l ls S _ IH]; intros attrs values attrs' values' A F; cbn [parse_lines].
  - injection 1 as <- <-. now split.
  - destruct (parse_line od (attrs, values) l) as [[a v]|?| |] eqn:E; try discriminate. cbn [bind].
    apply parse_line_scalar in E; try assumption. destruct E. now apply IH.
Qed.
Lemma lines_scalar t : Forall scalar t -> forall r, Forall scalar r -> Forall (Forall scalar) (lines_from r t).
Proof.
  assert (X : forall r, Forall scalar r -> Forall scalar (strip_cr r)).
  { intros r R. unfold strip_cr. destruct R as [|c r S R]; [constructor|].
    assert (Forall scalar (rev (c :: r))) by (apply Forall_rev; now constructor). assert (Forall scalar (rev r)) by now apply Forall_rev.
    repeat match goal with |- Forall _ (match ?x with _ => _ end) => destruct x end; assumption. }
  induction 1 as [|c t S _ IH]; intros r R; cbn [lines_from].
  - destruct r; constructor; [now apply Forall_rev|constructor].
  - destruct (c =? 10); [constructor; [now apply X|apply IH; constructor]|apply IH; now constructor].
Qed.

(** ** The map from attributes to modules *)
Lemma get_insert k k' x l : map_get k' (map_insert k x l) = if bytes_eqb k' k then Some x else map_get k' l.
Proof.
  induction l as [|v l IH]; [reflexivity|].
  assert (D : forall v, map_insert k x (v :: l) = VTuple [VStr k; x] :: v :: l \/ exists k0 y, v = VTuple [VStr k0; y]).
  { clear. intros v. destruct v as [| | | | | | | | | | | | | | |] eqn:V; try (left; reflexivity); subst v.
    all: match goal with |- context [VTuple ?xs] => destruct xs as [|[] [|? [|]]]; try (left; reflexivity); right; eauto end. }
  destruct (D v) as [->|[k0 [y ->]]]; [reflexivity|]. clear D. cbn [map_insert map_get].
  destruct (bytes_eqb k k0) eqn:E.
  - apply bytes_eqb_eq in E. subst k0. cbn [map_get]. now destruct (bytes_eqb k' k).
  - destruct (bytes_ltb k k0); [reflexivity|]. cbn [map_get]. rewrite IH.
    destruct (bytes_eqb k' k0) eqn:E'; [|reflexivity]. apply bytes_eqb_eq in E'. subst k0.
    destruct (bytes_eqb k' k) eqn:E2; [|reflexivity]. apply bytes_eqb_eq in E2. subst. now rewrite bytes_eqb_refl in E.
Qed.
Definition insert_all (rfc : string) (l : list value) (attrs : list radius_attribute) : list value :=
  fold_left (fun l a => map_insert (utf8_text (ra_name a)) (v_module rfc) l) attrs l.
Lemma names_map_insert rfc attrs : Forall (fun a => Forall scalar (ra_name a)) attrs -> forall names l, names_map names l ->
  names_map (rev (map (fun a => (ra_name a, rfc)) attrs) ++ names) (insert_all rfc l attrs).
Proof.
  induction 1 as [|a attrs A _ IH]; intros names l M; [exact M|].
  cbn [map rev insert_all fold_left]. rewrite <- app_assoc. apply IH.
  intros attr S. rewrite get_insert. unfold rfc_of. cbn [find fst app]. rewrite utf8_eqb by assumption.
  destruct (text_eqb attr (ra_name a)); [reflexivity|]. now apply M.
Qed.

Definition main_body : expr :=
  Eval vm_compute in match lookup_fn generator_program "" "main" with Some f => f_body f | None => nowhere end.
Definition dict_body : expr :=
  Eval vm_compute in match main_body with EBlock _ (Some (EFor _ _ b)) => b | _ => nowhere end.

(** the environment of the loop over the dictionaries *)
Definition out_name (d : dictionary) : bytes := utf8_text (lit_text (d_name d)) ++ bytes_of_string ".rs".
Definition created (path : bytes) (w : world) : world :=
  World (w_random w) (Event "File::create" [v_path path] (Some (vok (v_file path))) :: w_trace w).
Record dictionary_files (ans : list event -> string -> list value -> option value) (out_dir : bytes) (file_of : bytes -> bytes) (d : dictionary) : Prop := {
  df_readable : readable ans (d_path d) (text_lines (d_text d));
  df_text : Forall scalar (d_text d);
  df_extension : ans [] "Path::extension" [VStr (d_path d)] = Some (vsome (VCtor "Path" "Path" [v_module (d_name d)]));
  df_name : ans [] "Path::to_str" [v_module (d_name d)] = Some (vsome (v_module (d_name d)));
  df_join : ans [] "Path::join" [VStr out_dir; VStr (out_name d)] = Some (v_path (file_of (out_name d)));
  df_create : forall tr, ans tr "File::create" [v_path (file_of (out_name d))] = Some (vok (v_file (file_of (out_name d))));
  df_write : writable (file_of (out_name d)) ans }.

Section Loop.
  Context (p : profile) (rnd : nat -> byte) (he : bytes -> option string) (U : unicode) (od : N -> bool)
          (ans : list event -> string -> list value -> option value).
  Context (L : libraries U od ans).
  Let C := gen_cx p rnd he ans.
  Context (out_dir : bytes) (file_of : bytes -> bytes) (dict_paths : list bytes) (matches : value) (program : bytes) (args : list bytes).
  Definition main_vars (st : list string * list value) : list (string * value) :=
    [("attribute_name_to_rfc_name", VList (snd st)); ("rfc_names", VList (map v_module (fst st)));
     ("dict_file_paths", VList (map v_path dict_paths)); ("out_dir", VCtor "Path" "Path" [VStr out_dir]);
     ("out_dir_str", VStr out_dir); ("matches", matches); ("opts", VExt "opts"); ("program", VStr program);
     ("args", VList (VStr program :: map VStr args))].
  Definition module_chunks (earlier : list string) (names : list (text * string)) (d : dictionary)
    (attrs : list radius_attribute) (values : value_map) : option (list bytes) :=
    match chunks_of (kind_chunks U values) attrs with
    | Some c => Some (header_chunks earlier (d_name d) (text_lines (d_text d)) ++ c
                      ++ flat_map (fun e => value_chunks U (fst e) (snd e) (rfc_of names (fst e))) values)
    | None => None
    end.
  Lemma keys_entries m : keys_of (map v_entry m) = Some (map (fun e : text * list radius_value => v_string (fst e)) m).
  Proof. induction m as [|e m IH]; [reflexivity|]. unfold v_entry in *. cbn [map keys_of]. now rewrite IH. Qed.
  Lemma run_dict n d earlier names l w k : (n > 3)%nat -> dictionary_files ans out_dir file_of d -> names_map names l ->
    next_round (for_body (PVar "dict_file_path") (fun s => eval C n "" (run C n) s dict_body) (v_path (d_path d))
                  (State (main_vars (earlier, l)) w)) k
    = match parse_dict_file od (d_text d) with
      | Ok (attrs, values) =>
          match module_chunks earlier names d attrs values with
          | Some c => k (State (main_vars (earlier ++ [d_name d], insert_all (d_name d) l attrs))
                         (wrote (file_of (out_name d)) c (created (file_of (out_name d))
                            (read_events (d_path d) (text_lines (d_text d)) (read_events (d_path d) (text_lines (d_text d)) w)))))
          | None => Panicked
          end
      | _ => Panicked
      end.
  Proof.
    intros N D M. destruct D as [D1 D2 D3 D4 D5 D6 D7].
    assert (SL : Forall (Forall scalar) (text_lines (d_text d))) by (apply lines_scalar; [exact D2|constructor]).
    unfold parse_dict_file.
    pose proof (run_parse p rnd he U od ans L (d_path d) (text_lines (d_text d)) n w ltac:(lia) D1 SL) as R1.
    remember (read_events (d_path d) (text_lines (d_text d)) (read_events (d_path d) (text_lines (d_text d)) w)) as w1 eqn:W1.
    remember (parse_lines od ([], []) (text_lines (d_text d))) as parsed eqn:P. symmetry in P.
    destruct parsed as [[attrs values]|e| |].
    2-4: unfold dict_body, main_vars, C, gen_cx, v_path, v_module, v_string, verr in *; unfold for_body; repeat first [rewrite R1|step]; reflexivity.
    destruct (parse_lines_scalar od _ SL [] [] attrs values (Forall_nil _) (Forall_nil _) P) as [SA SV].
    remember (file_of (out_name d)) as file eqn:FO.
    pose proof (run_header p rnd he ans file D7 n earlier (d_name d) (text_lines (d_text d)) (created file w1) ltac:(lia)) as R2.
    remember (wrote file (header_chunks earlier (d_name d) (text_lines (d_text d))) (created file w1)) as w2 eqn:W2.
    pose proof (run_attributes p rnd he U od ans file L D7 n attrs values w2 ltac:(lia) SA SV) as R3.
    unfold module_chunks.
    remember (chunks_of (kind_chunks U values) attrs) as oc eqn:OC.
    assert (R4 := fun c => run_all_values p rnd he U od ans file L D7 n values names l (wrote file c w2) ltac:(lia) SV M).
    destruct w1 as [wr1 wt1].
    unfold dict_body, main_vars, out_name, C, gen_cx, created, v_file, v_path, parse_result, v_lines, v_module, v_names, v_string, verr, vok, vsome, vnone in *; unfold for_body. cbn [fst snd w_random w_trace] in *.
    remember (text_lines (d_text d)) as lines eqn:EL. unfold v_value_map in *. pose proof (keys_entries values) as KE. unfold v_string in KE.
    repeat first [rewrite R1| rewrite D3|rewrite D4|rewrite D5|rewrite D6|rewrite R2|step].
    destruct oc as [c|].
    2: { repeat first [rewrite R3|step]. reflexivity. }
    specialize (R4 c).
    repeat first [rewrite R3|rewrite R4|step].
    match goal with |- context [for_loop ?b (map v_attribute attrs) (State ?vars ?w0)] =>
      match eval pattern l in vars with ?V _ =>
        pose (V0 := V); change (State vars w0) with (State (V0 l) w0);
        rewrite (state_loop v_attribute V0 (fun l a => map_insert (utf8_text (ra_name a)) (VStr (utf8_text (lit_text (d_name d)))) l)
                   b (fun a => Forall scalar (ra_name a)) attrs w0 SA) end end.
    - subst V0; cbv beta. repeat first [rewrite map_app|step]. cbn [map]. rewrite !wrote_app. rewrite <- W2. reflexivity.
    - intros l' a k' SC. destruct a. subst V0; cbv beta. unfold v_attribute, for_body, v_string. steps. reflexivity.
  Qed.
End Loop.
