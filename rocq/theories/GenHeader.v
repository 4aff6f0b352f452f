(** * Running the functions of main.rs that write the header of a module *)
From Coq Require Import String List NArith ZArith Bool Arith Strings.Byte Lia ZifyBool ZifyNat ZifyN.
From Verif Require Import Prelude PreludeFacts AvpSpec Accessors CodeGen Inflect GenText Rust RustEval CodeRun RustFacts CodeTactics Utf8Text SourceGen GenRun GenTemplates GenAttributes GenDict.
Import ListNotations.
Local Open Scope string_scope.
Local Open Scope N_scope.
Local Open Scope list_scope.

Section Header.
  Context (p : profile) (rnd : nat -> byte) (he : bytes -> option string) (U : unicode) (od : N -> bool)
          (ans : list event -> string -> list value -> option value) (path : bytes).
  Context (L : libraries U od ans) (W : writable path ans).
  Let C := gen_cx p rnd he ans.

  Lemma raw_write tr b : ans tr "File::write_all" [VStr path; VBytes b] = Some (VCtor "" "Ok" [VTuple []]).
  Proof. exact (W tr b). Qed.
  Ltac library :=
    lazymatch goal with
    | |- ?l = _ => focus l ltac:(fun o =>
        lazymatch o with
        | match ans _ _ _ with _ => _ end => rewrite raw_write; cbv beta iota
        end)
    end.
  Ltac gsteps := repeat first [library | step].

  (** ** The header *)
  Definition header_chunks (earlier : list string) (rfc : string) (lines : list text) : list bytes :=
    utf8_text (header_text [] rfc lines)
    :: map (fun r => utf8_text (lit_text "use crate::core::" ++ lit_text r ++ lit_text ";" ++ [10])) earlier.
  Lemma header_chunks_text earlier rfc lines : concat (header_chunks earlier rfc lines) = utf8_text (header_text earlier rfc lines).
  Proof.
    unfold header_chunks, header_text. cbn [flat_map]. rewrite app_nil_r.
    cbn [concat]. rewrite !utf8_text_app, <- !app_assoc. do 7 f_equal.
    rewrite utf8_text_flat. induction earlier as [|r l IH]; [reflexivity|]. cbn [map concat flat_map]. rewrite IH. reflexivity.
  Qed.
  Lemma join_lines_utf8 ls : join_with [x0a] (map (fun l => VStr (utf8_text l)) ls) = Some (utf8_text (join_lines ls)).
  Proof.
    induction ls as [|l ls IH]; [reflexivity|]. cbn [map join_with join_lines]. destruct ls as [|l' ls]; [reflexivity|].
    cbn [map] in *. rewrite IH. now rewrite utf8_text_app.
  Qed.
  Lemma run_header n earlier rfc lines w : (n > 0)%nat ->
    run C n "" "generate_header"
      [v_file path; VList (map v_module earlier); v_module rfc; VList (map (fun l => vok (v_string l)) lines)] w
    = RVal VUnit [v_file path; VList (map v_module earlier); v_module rfc; VList (map (fun l => vok (v_string l)) lines)]
        (wrote path (header_chunks earlier rfc lines) w).
  Proof.
    intros N. destruct n as [|n]; [lia|]. unfold C, gen_cx, v_file, v_module, v_string.
    assert (J : join_with (bytes_of_string "
") (map (fun l : text => VStr (utf8_text (lit_text "//! " ++ l))) lines) = Some (utf8_text (join_lines (map (fun l => lit_text "//! " ++ l) lines))))
      by (rewrite <- join_lines_utf8, map_map; reflexivity).
    repeat first [library | step].
    match goal with |- context [map_loop ?f (map ?g lines) ?s] =>
      rewrite (map_loop_map g (fun l => VStr (utf8_text (lit_text "//! " ++ l))) f lines s) end.
    2: { intro l. unfold apply_closure. gsteps. rewrite app_nil_r, utf8_text_app. reflexivity. }
    gsteps.
    match goal with |- context [bytes_of_string ?a ++ ?rest] =>
      replace (bytes_of_string a ++ rest) with (utf8_text (header_text [] rfc lines)) end.
    2: { unfold header_text. cbn [flat_map]. rewrite !utf8_text_app, ?app_nil_r. reflexivity. }
    match goal with |- context [for_loop ?b (map ?g earlier) (State ?vars ?w1)] =>
      rewrite (writing_loop g (fun r => Some [utf8_text (lit_text "use crate::core::" ++ lit_text r ++ lit_text ";" ++ [10])]) b path vars (fun _ => True) earlier) end.
    - rewrite chunks_of_some. gsteps. unfold header_chunks. cbn [wrote].
      replace (flat_map _ earlier) with (map (fun r => utf8_text (lit_text "use crate::core::" ++ lit_text r ++ lit_text ";" ++ [10])) earlier); [reflexivity|].
      clear. induction earlier as [|r l IH]; [reflexivity|]. cbn [map flat_map app]. now rewrite IH.
    - now apply Forall_forall.
    - intros r w0 _. unfold for_body. gsteps.
      match goal with |- context [bytes_of_string ?a ++ ?rest] =>
        replace (bytes_of_string a ++ rest) with (utf8_text (lit_text "use crate::core::" ++ lit_text r ++ lit_text ";" ++ [10])) end; [reflexivity|].
      rewrite !utf8_text_app. reflexivity.
  Qed.
End Header.
