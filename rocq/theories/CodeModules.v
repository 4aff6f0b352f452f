(** * The text of the rfc*.rs modules is made of the templates of CodeAccessors.v *)
From Coq Require Import String List NArith Bool Strings.Byte.
From Verif Require Import Prelude Accessors Rfc Rust RustEval RustModule Sources CodeAccessors.
Import ListNotations.
Local Open Scope string_scope.
Local Open Scope list_scope.

(** the functions of every module, parsed from its text *)
Definition parse_modules (files : list (string * list string)) : list (string * list fn) :=
  map (fun m => (fst m, match parse (snd m) with Some i => module_fns i | None => [] end)) files.
(** computed once *)
Definition modules : list (string * list fn) := Eval vm_compute in parse_modules source_lines.
Lemma modules_ok : modules = parse_modules source_lines.
Proof. vm_compute. reflexivity. Qed.
Definition functions_of (ms : list (string * list fn)) (m : string) : list fn :=
  match find (fun x => String.eqb (fst x) m) ms with Some x => snd x | None => [] end.
Definition function_of (ms : list (string * list fn)) (m x : string) : option fn :=
  find (fun f => String.eqb (f_name f) x) (functions_of ms m).

(** the functions of an attribute *)
Definition templates (e : entry) : list fn :=
  let k := e_kind e in let x := e_name e in let t := e_type e in
  [fn_delete x t; fn_add k x t]
  ++ match k with KVsa => [] | _ => [fn_lookup k x t] end
  ++ match k with KVsa | KConcatOctets => [] | _ => [fn_lookup_all k x t] end.
Lemma templates_text :
  map (fun e => map (fun t => function_of modules (e_module e) (f_name t)) (templates e)) entries
  = map (fun e => map Some (templates e)) entries.
Proof. vm_compute. reflexivity. Qed.
Lemma templates_found e t : In e entries -> In t (templates e) -> function_of modules (e_module e) (f_name t) = Some t.
Proof.
  intros He Ht. exact (ext_in_map (ext_in_map templates_text e He) t Ht).
Qed.
