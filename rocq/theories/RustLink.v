(** * Programs that use a crate

    About the language, not about radius-rs.  A program such as an example of a crate has functions of its own and
    calls those of the crate and of its modules.  Its own functions see everything; a function of the crate is run
    in the crate ([run]), a function of a module as in RustModule.v ([enter]).  A value of a type of the program that
    is given to the crate as an implementation of a trait is an object of the environment there: the crate knows
    nothing of it but that its methods can be called, and what they answer is for the environment to say. *)
From Coq Require Import String List NArith Bool Strings.Byte.
From Verif Require Import Prelude Rust RustEval RustModule.
Import ListNotations.
Local Open Scope string_scope.
Local Open Scope list_scope.

Definition in_modules (ms : list (string * list fn)) : list (string * fn) :=
  flat_map (fun m => map (fun f => (fst m, f)) (snd m)) ms.
(** everything a function of the program can name *)
Definition visible (own crate : program) (ms : list (string * list fn)) : program :=
  Program (pg_fns own ++ pg_fns crate ++ in_modules ms) (pg_structs own ++ pg_structs crate)
          (pg_enums own ++ pg_enums crate) (pg_texts own ++ pg_texts crate) (pg_types own ++ pg_types crate).
(** [objects]: the types of the program that implement a trait of the crate, and what the crate calls them *)
Definition export (objects : list (string * string)) (v : value) : value :=
  match v with
  | VStruct t [] => match assoc t objects with Some x => VExt x | None => v end
  | _ => v
  end.

(** what a program is made of; [cx_program] of [lk_crate] is the crate *)
Record link := Link {
  lk_crate : cx; lk_modules : list (string * list fn); lk_own : program; lk_objects : list (string * string) }.
Definition lk_cx (L : link) : cx :=
  Cx (cx_profile (lk_crate L)) (visible (lk_own L) (cx_program (lk_crate L)) (lk_modules L))
     (cx_random (lk_crate L)) (cx_hash_error (lk_crate L)) (cx_answer (lk_crate L)).
Definition all_params (f : fn) : list (string * ty) :=
  match f_self f with Some _ => ("self", TyName ["Self"] []) :: f_params f | None => f_params f end.
(** calling a function of the program, of the crate or of a module *)
Fixpoint linked (L : link) (fuel : nat) (t x : string) (args : list value) (w : world) {struct fuel} : rout :=
  match fuel with
  | O => RNoFuel
  | S n =>
      match lookup_fn (lk_own L) t x with
      | Some f =>
          match bind_params (all_params f) (cx_program (lk_cx L)) args with
          | None => RStuck
          | Some bs =>
              finish (cx_program (lk_cx L)) (count bs) (f_ret f)
                     (eval (lk_cx L) n t (linked L n) (push_vars bs (State [] w)) (f_body f))
          end
      | None =>
          match lookup_fn (cx_program (lk_crate L)) t x with
          | Some _ => run (lk_crate L) fuel t x (map (export (lk_objects L)) args) w
          | None =>
              match find_fn t x (in_modules (lk_modules L)) with
              | Some f => enter (lk_crate L) fuel f args w
              | None => RStuck
              end
          end
      end
  end.

Lemma linked_own L n t x args w f : lookup_fn (lk_own L) t x = Some f ->
  linked L (S n) t x args w
  = match bind_params (all_params f) (cx_program (lk_cx L)) args with
    | None => RStuck
    | Some bs =>
        finish (cx_program (lk_cx L)) (count bs) (f_ret f)
               (eval (lk_cx L) n t (linked L n) (push_vars bs (State [] w)) (f_body f))
    end.
Proof. intro H. cbn [linked]. now rewrite H. Qed.
Lemma linked_crate L n t x args w f :
  lookup_fn (lk_own L) t x = None -> lookup_fn (cx_program (lk_crate L)) t x = Some f ->
  linked L n t x args w = run (lk_crate L) n t x (map (export (lk_objects L)) args) w.
Proof. intros H1 H2. destruct n; cbn [linked]; [reflexivity|]. now rewrite H1, H2. Qed.
Lemma linked_module L n t x args w f :
  lookup_fn (lk_own L) t x = None -> lookup_fn (cx_program (lk_crate L)) t x = None ->
  find_fn t x (in_modules (lk_modules L)) = Some f ->
  linked L n t x args w = enter (lk_crate L) n f args w.
Proof. intros H1 H2 H3. destruct n; cbn [linked]; [reflexivity|]. now rewrite H1, H2, H3. Qed.
(** arguments that become the same parameters *)
Lemma run_args C n t x args args' w f : lookup_fn (cx_program C) t x = Some f ->
  bind_params (all_params f) (cx_program C) args = bind_params (all_params f) (cx_program C) args' ->
  run C n t x args w = run C n t x args' w.
Proof. intros H E. destruct n; cbn [run]; [reflexivity|]. rewrite H. fold (all_params f). now rewrite E. Qed.

(** the functions and constants of a module, as another file of the crate or a program sees them *)
Definition module_constants (is : list aitem) : list fn :=
  map (fun c => Fn (fst c) None [] (Some (inline_ty (item_types is) (fst (snd c))))
                   (inline (item_consts is) (item_types is) (snd (snd c)))) (item_consts is).
