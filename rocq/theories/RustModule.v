(** * Modules of functions, constants and type aliases

    About the language, not about radius-rs.  A module such as rfc2865.rs declares constants, type aliases and
    functions which use them and other parts of the crate.  A function of a module is run in the program of the
    rest of the crate with the constants and aliases of its module replaced by what they stand for: "whenever a
    constant is used, it is as if its expression was written there" (Rust Reference, "Constant items"; likewise
    "Type aliases").

    Simplification: a local variable that has the name of a constant would be replaced too; that is an error in
    Rust.  A constant of another module named by a path of two parts is not replaced. *)
From Coq Require Import String List NArith Bool Strings.Byte.
From Verif Require Import Prelude Rust RustEval.
Import ListNotations.
Local Open Scope string_scope.
Local Open Scope list_scope.

Section Inline.
  Context (consts : list (string * (ty * expr))) (types : list (string * ty)).

  Fixpoint inline_ty (t : ty) : ty :=
    match t with
    | TyName [x] [] => match assoc x types with Some t' => t' | None => t end
    | TyName p ts => TyName p (map inline_ty ts)
    | TyRef m t => TyRef m (inline_ty t)
    | TyTuple ts => TyTuple (map inline_ty ts)
    | TySlice t => TySlice (inline_ty t)
    | TyArray t n => TyArray (inline_ty t) n
    end.
  (** a constant stands for its expression at its declared type *)
  Definition inline_path (p : list string) (ts : list ty) : expr :=
    match p with
    | [x] => match assoc x consts with
             | Some (t, e) => ECast e (inline_ty t)
             | None => EPath p ts
             end
    | _ => EPath p (map inline_ty ts)
    end.
  Fixpoint inline (e : expr) : expr :=
    match e with
    | EPath p ts => inline_path p ts
    | ENum _ | EStr _ | EBool _ | EContinue => e
    | ECall (EPath p ts) args => ECall (EPath p (map inline_ty ts)) (map inline args)
    | ECall f args => ECall (inline f) (map inline args)
    | EMethod e m ts args => EMethod (inline e) m (map inline_ty ts) (map inline args)
    | EField e f => EField (inline e) f
    | EIndex e i => EIndex (inline e) (inline i)
    | ERange lo hi incl => ERange (option_map inline lo) (option_map inline hi) incl
    | EUn op e => EUn op (inline e)
    | EBin op a b => EBin op (inline a) (inline b)
    | ECast e t => ECast (inline e) (inline_ty t)
    | ETry e => ETry (inline e)
    | EAwait e => EAwait (inline e)
    | ETuple es => ETuple (map inline es)
    | EList es => EList (map inline es)
    | ERepeat e n => ERepeat (inline e) (inline n)
    | EFormat ps => EFormat (map inline ps)
    | EShow d e => EShow d (inline e)
    | EMacro x es => EMacro x (map inline es)
    | EStruct p fs => EStruct p (map (fun f => (fst f, inline (snd f))) fs)
    | EIf c a b => EIf (inline c) (inline a) (option_map inline b)
    | EIfLet p e a b => EIfLet p (inline e) (inline a) (option_map inline b)
    | EMatch e arms => EMatch (inline e) (map (fun a => (fst a, inline (snd a))) arms)
    | EBlock ss e => EBlock (map inline_stmt ss) (option_map inline e)
    | EClosure ps e => EClosure ps (inline e)
    | EReturn e => EReturn (option_map inline e)
    | EAssign p e => EAssign (inline p) (inline e)
    | EOpAssign op p e => EOpAssign op (inline p) (inline e)
    | EWhile c e => EWhile (inline c) (inline e)
    | EFor p e b => EFor p (inline e) (inline b)
    | ELoop e => ELoop (inline e)
    | EAsync e => EAsync (inline e)
    | ESelect arms => ESelect (map (fun '(p, a, b) => (p, inline a, inline b)) arms)
    end
  with inline_stmt (s : stmt) : stmt :=
    match s with
    | SLet p t e => SLet p (option_map inline_ty t) (inline e)
    | SConst x t e => SConst x (inline_ty t) (inline e)
    | SExpr e => SExpr (inline e)
    end.
  Definition inline_fn (f : fn) : fn :=
    Fn (f_name f) (f_self f) (map (fun p => (fst p, inline_ty (snd p))) (f_params f))
       (option_map inline_ty (f_ret f)) (inline (f_body f)).
End Inline.

Definition item_consts (is : list aitem) : list (string * (ty * expr)) :=
  flat_map (fun i => match snd i with IConst x t e => [(x, (t, e))] | _ => [] end) is.
Definition item_types (is : list aitem) : list (string * ty) :=
  flat_map (fun i => match snd i with IType x t => [(x, t)] | _ => [] end) is.
Definition item_functions (is : list aitem) : list fn :=
  flat_map (fun i => match snd i with IFn f => [f] | _ => [] end) is.
(** the functions of a module, in terms of the rest of the crate *)
Definition module_fns (is : list aitem) : list fn :=
  map (inline_fn (item_consts is) (item_types is)) (item_functions is).

(** calling a function that is not part of the program: as [run], but for the lookup *)
Definition enter (C : cx) (fuel : nat) (f : fn) (args : list value) (w : world) : rout :=
  match fuel with
  | O => RNoFuel
  | S n =>
      let ps := match f_self f with Some _ => ("self", TyName ["Self"] []) :: f_params f | None => f_params f end in
      match bind_params ps (cx_program C) args with
      | None => RStuck
      | Some bs =>
          finish (cx_program C) (count bs) (f_ret f)
                 (eval C n "" (run C n) (push_vars bs (State [] w)) (f_body f))
      end
  end.
