(** * Running the functions of main.rs that write one attribute *)
From Coq Require Import String List NArith ZArith Bool Arith Strings.Byte Lia ZifyBool ZifyNat ZifyN.
From Verif Require Import Prelude PreludeFacts AvpSpec Accessors CodeGen Inflect GenText Rust RustEval CodeRun RustFacts CodeTactics Utf8Text SourceGen GenRun.
Import ListNotations.
Local Open Scope string_scope.
Local Open Scope N_scope.
Local Open Scope list_scope.

Definition piece_expr (p : piece) : expr :=
  match p with
  | T s => EStr s
  | Method => EShow false (EPath ["method_identifier"] [])
  | TypeId => EShow false (EPath ["type_identifier"] [])
  | TypeValue => EShow false (EPath ["type_value"] [])
  | FixedLength => EShow false (EPath ["fixed_octets_length"] [])
  | ValueType => EShow false (EPath ["value_type"] [])
  end.
(** is every piece text in ASCII or one of the given names? *)
Definition pieces_of (ps : list piece) (p : piece) : bool :=
  match p with
  | T s => ascii_string s
  | Method => existsb (fun q => match q with Method => true | _ => false end) ps
  | TypeId => existsb (fun q => match q with TypeId => true | _ => false end) ps
  | TypeValue => existsb (fun q => match q with TypeValue => true | _ => false end) ps
  | FixedLength => existsb (fun q => match q with FixedLength => true | _ => false end) ps
  | ValueType => existsb (fun q => match q with ValueType => true | _ => false end) ps
  end.
Lemma join_texts_map {A} (f : A -> bytes) l : join_texts (map (fun x => VStr (f x)) l) = Some (flat_map f l).
Proof. induction l as [|x l IH]; [reflexivity|]. cbn [map join_texts flat_map]. now rewrite IH. Qed.

Section Format.
  Context (C : cx) (n : nat) (t : string) (k : string -> string -> list value -> world -> rout) (s : state) (f : filling).
  Definition shows (p : piece) : Prop := eval C n t k s (piece_expr p) = Norm (VStr (utf8_text (fill f p))) s.
  Lemma format_list ps : Forall shows ps -> forall K,
    eval_list (eval C n t k) s (map piece_expr ps) K = K (map (fun p => VStr (utf8_text (fill f p))) ps) s.
  Proof.
    induction 1 as [|p ps S _ IH]; intro K; [reflexivity|].
    cbn [map]. rewrite eval_list_cons, S. cbn [bindo]. apply (IH (fun vs => K (_ :: vs))).
  Qed.
  (** [format!] with names in braces *)
  Lemma eval_format given ps : forallb (pieces_of given) ps = true -> Forall shows given ->
    eval C n t k s (EFormat (map piece_expr ps)) = Norm (VStr (utf8_text (format f ps))) s.
  Proof.
    intros H G. rewrite eval_eq. cbv beta iota zeta delta [eval_step]. rewrite format_list.
    - rewrite join_texts_map. unfold format. now rewrite utf8_text_flat.
    - apply Forall_forall. intros p I. rewrite forallb_forall in H. specialize (H p I).
      rewrite Forall_forall in G.
      destruct p; cbn [pieces_of] in H;
        [unfold shows; cbn [piece_expr]; rewrite eval_eq; cbv beta iota zeta delta [eval_step]; now rewrite utf8_lit by exact H|..];
        apply existsb_exists in H; destruct H as [q [Q E]]; destruct q; try discriminate; apply G, Q.
  Qed.
End Format.

Definition gen_cx (p : profile) (rnd : nat -> byte) (he : bytes -> option string)
  (ans : list event -> string -> list value -> option value) : cx := Cx p generator_program rnd he ans.

(** the answers of the environment that are known *)
Ltac answer :=
  lazymatch goal with
  | |- ?l = _ => focus l ltac:(fun o =>
      lazymatch o with
      | match ?x with _ => _ end => lazymatch x with ?f ?tr ?op ?args => is_var f;
          match goal with H : _ |- _ => rewrite H end end
      end); cbv beta iota
  end.
Ltac shown_with := rewrite ?utf8_dec; reflexivity.
Ltac show_piece := unfold shows; cbn [piece_expr fill f_method f_type_id f_type_value f_fixed_length f_value_type]; steps; shown_with.
(** the functions that write a template *)
Definition template_body (ps : list piece) : expr :=
  EBlock [SLet (PVar "code") None (EFormat (map piece_expr ps));
          SExpr (EMethod (EMethod (EPath ["w"] []) "write_all" [] [EMethod (EPath ["code"] []) "as_bytes" [] []]) "unwrap" [] [])]
         None.
Definition ty_file : ty := TyRef true (TyName ["BufWriter"] [TyName ["File"] []]).
Definition ty_str : ty := TyRef false (TyName ["str"] []).
Definition template_params (more : list (string * ty)) : list (string * ty) :=
  ("w", ty_file) :: ("method_identifier", ty_str) :: ("type_identifier", ty_str) :: more.
Ltac the_format :=
  lazymatch goal with
  | |- ?l = _ => focus l ltac:(fun o =>
      lazymatch o with
      | eval ?C ?n ?t ?k ?s (EFormat (map piece_expr ?ps)) =>
          match goal with
          | H : forallb (pieces_of ?given) ps = true |- context [format ?f ps] =>
              rewrite (eval_format C n t k s f given ps H) by (repeat constructor; show_piece)
          end
      end)
  end.
Ltac gstep := first [the_format | answer | step].
Ltac gsteps := repeat gstep.

Section Templates.
  Context (p : profile) (rnd : nat -> byte) (he : bytes -> option string)
          (ans : list event -> string -> list value -> option value) (path : bytes).
  Context (W : writable path ans).
  Let C := gen_cx p rnd he ans.

  Ltac prepare :=
    intros; match goal with n : nat |- _ => destruct n as [|n]; [lia|]; rewrite run_eq end;
    unfold C, gen_cx, v_file, v_string; cbn [cx_program];
    match goal with H : lookup_fn _ _ _ = _ |- _ => rewrite H end; cbv beta iota zeta delta [f_self f_params template_params ty_file ty_str];
    match goal with |- context [bind_params ?ps ?pg ?args] =>
      let b := norm_all (bind_params ps pg args) in change (bind_params ps pg args) with b end;
    cbv beta iota;
    match goal with |- context [push_vars ?bs ?s] =>
      let s' := norm_all (push_vars bs s) in change (push_vars bs s) with s' end;
    cbv beta iota delta [f_ret f_body template_body]; unfold writable in W.
  Lemma run_template n x ps m i w : (n > 0)%nat ->
    lookup_fn generator_program "" x = Some (Fn x None (template_params []) None (template_body ps)) ->
    forallb (pieces_of [Method; TypeId]) ps = true ->
    run C n "" x [v_file path; v_string m; v_string i] w
    = RVal VUnit [v_file path; v_string m; v_string i]
        (wrote path [utf8_text (format (Filling m i 0 0 []) ps)] w).
  Proof. prepare. gsteps. reflexivity. Qed.
  Lemma run_template_length n x ps m i k w : (n > 0)%nat ->
    lookup_fn generator_program "" x
    = Some (Fn x None (template_params [("fixed_octets_length", TyName ["usize"] [])]) None (template_body ps)) ->
    forallb (pieces_of [Method; TypeId; FixedLength]) ps = true ->
    run C n "" x [v_file path; v_string m; v_string i; VInt Usize k] w
    = RVal VUnit [v_file path; v_string m; v_string i; VInt Usize k]
        (wrote path [utf8_text (format (Filling m i 0 k []) ps)] w).
  Proof. prepare. gsteps. reflexivity. Qed.
  (** a literal becomes a [usize] *)
  Lemma run_template_literal n x ps m i k w : (n > 0)%nat ->
    lookup_fn generator_program "" x
    = Some (Fn x None (template_params [("fixed_octets_length", TyName ["usize"] [])]) None (template_body ps)) ->
    forallb (pieces_of [Method; TypeId; FixedLength]) ps = true ->
    run C n "" x [v_file path; v_string m; v_string i; VInt Lit k] w
    = RVal VUnit [v_file path; v_string m; v_string i; VInt Usize k]
        (wrote path [utf8_text (format (Filling m i 0 k []) ps)] w).
  Proof. prepare. gsteps. reflexivity. Qed.
  Lemma run_template_type n x ps m i t w : (n > 0)%nat ->
    lookup_fn generator_program "" x
    = Some (Fn x None (template_params [("value_type", ty_str)]) None (template_body ps)) ->
    forallb (pieces_of [Method; TypeId; ValueType]) ps = true ->
    run C n "" x [v_file path; v_string m; v_string i; v_string t] w
    = RVal VUnit [v_file path; v_string m; v_string i; v_string t]
        (wrote path [utf8_text (format (Filling m i 0 0 t) ps)] w).
  Proof. prepare. gsteps. reflexivity. Qed.
End Templates.
