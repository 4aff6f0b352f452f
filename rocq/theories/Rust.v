(** * A subset of Rust: tokens, syntax and parser

    This file is about the language, not about radius-rs: it turns the text of a Rust file into a
    syntax tree.  It covers what the files of radius/src, code-generator/src and examples use.  RustEval.v gives the trees a
    meaning, SourceCore.v has the texts. *)
From Coq Require Import String Ascii List NArith Bool.
Import ListNotations.
Local Open Scope string_scope.
Local Open Scope N_scope.
Local Open Scope list_scope.

(** ** Tokens
    The Rust Reference, "Lexical structure".  A character is the text of that one character, [r"…"] has no
    escapes.  Not covered: escaped characters outside strings, [r#"…"#], floating point numbers, number suffixes, shift operators, nested block comments. *)
Inductive token :=
| TId (s : string)      (* an identifier, keyword or underscore *)
| TNum (n : N)
| TStr (s : string)
| TP (s : string)       (* punctuation *)
| TLife (s : string)    (* a lifetime *)
| TBad (s : string).

Definition code_of (c : ascii) : N := N_of_ascii c.
Definition is_blank (c : ascii) : bool :=
  let n := code_of c in (n =? 32) || (n =? 10) || (n =? 9) || (n =? 13).
Definition is_digit (c : ascii) : bool := let n := code_of c in (48 <=? n) && (n <=? 57).
Definition is_upper (c : ascii) : bool := let n := code_of c in (65 <=? n) && (n <=? 90).
Definition is_word (c : ascii) : bool :=
  let n := code_of c in
  is_digit c || is_upper c || ((97 <=? n) && (n <=? 122)) || (n =? 95) || (128 <=? n).
Fixpoint rev_string (s acc : string) : string :=
  match s with EmptyString => acc | String c s' => rev_string s' (String c acc) end.

(** numbers: decimal, [0x…], [0b…], with underscores *)
Definition digit_value (base : N) (c : ascii) : option N :=
  let n := code_of c in
  let v := if (48 <=? n) && (n <=? 57) then Some (n - 48)
           else if (97 <=? n) && (n <=? 102) then Some (n - 87)
           else if (65 <=? n) && (n <=? 70) then Some (n - 55)
           else None in
  match v with Some d => if d <? base then Some d else None | None => None end.
Fixpoint digits (base acc : N) (s : string) : option N :=
  match s with
  | EmptyString => Some acc
  | String c s' =>
      if code_of c =? 95 then digits base acc s'
      else match digit_value base c with Some d => digits base (acc * base + d) s' | None => None end
  end.
Definition number (s : string) : option N :=
  match s with
  | String a (String b (String _ _ as r)) =>
      if (code_of a =? 48) && (code_of b =? 120) then digits 16 0 r
      else if (code_of a =? 48) && (code_of b =? 98) then digits 2 0 r
      else digits 10 0 s
  | _ => digits 10 0 s
  end.
Definition word_token (w : string) : token :=
  match w with
  | String c _ => if is_digit c then match number w with Some n => TNum n | None => TBad w end else TId w
  | EmptyString => TBad ""
  end.

Definition long_punctuation : list string :=
  ["::"; "->"; "=>"; "=="; "!="; "<="; ">="; "&&"; "||"; ".."; "..="; "+="; "-="; "*="].
Fixpoint mem (s : string) (l : list string) : bool :=
  match l with [] => false | x :: l' => if String.eqb s x then true else mem s l' end.

(** what has been read of the current token; words and strings newest character first *)
Inductive lex_mode :=
| LBase | LWord (w : string) | LPunct (p : string) | LSlash | LLine | LBlock (star : bool)
| LString (s : string) (escaped : bool) | LHex (s : string) (first : option ascii) | LTick (w : string) | LRaw (s : string) | LChar (s : string).
Definition lex_base (c : ascii) : lex_mode :=
  if is_blank c then LBase
  else if is_word c then LWord (String c "")
  else if code_of c =? 47 then LSlash
  else if code_of c =? 34 then LString "" false
  else if code_of c =? 39 then LTick ""
  else LPunct (String c "").
Definition unescape (c : ascii) : ascii := if code_of c =? 110 then ascii_of_N 10 else c.
Definition lex_char (m : lex_mode) (c : ascii) : list token * lex_mode :=
  match m with
  | LBase => ([], lex_base c)
  | LWord w =>
      if is_word c then ([], LWord (String c w))
      else if (code_of c =? 34) && String.eqb w "r" then ([], LRaw "")
      else ([word_token (rev_string w "")], lex_base c)
  | LPunct p =>
      let q := (p ++ String c "")%string in
      if mem q long_punctuation then ([], LPunct q) else ([TP p], lex_base c)
  | LSlash =>
      if code_of c =? 47 then ([], LLine)
      else if code_of c =? 42 then ([], LBlock false)
      else ([TP "/"], lex_base c)
  | LLine => ([], if code_of c =? 10 then LBase else LLine)
  | LBlock star => ([], if star && (code_of c =? 47) then LBase else LBlock (code_of c =? 42))
  | LString s escaped =>
      if escaped then ([], if code_of c =? 120 then LHex s None else LString (String (unescape c) s) false)
      else if code_of c =? 92 then ([], LString s true)
      else if code_of c =? 34 then ([TStr (rev_string s "")], LBase)
      else ([], LString (String c s) false)
  | LHex s None => ([], LHex s (Some c))
  | LHex s (Some d) =>
      match digit_value 16 d, digit_value 16 c with
      | Some a, Some b => ([], LString (String (ascii_of_N (16 * a + b)) s) false)
      | _, _ => ([TBad s], LBase)
      end
  | LTick w =>
      if is_word c then ([], LTick (String c w))
      else match w with
           | EmptyString => ([], LChar (String c ""))
           | String _ EmptyString => if code_of c =? 39 then ([TStr w], LBase) else ([TLife w], lex_base c)
           | _ => ([TLife (rev_string w "")], lex_base c)
           end
  | LRaw s => if code_of c =? 34 then ([TStr (rev_string s "")], LBase) else ([], LRaw (String c s))
  | LChar s => if code_of c =? 39 then ([TStr s], LBase) else ([TBad s], LBase)
  end.
Definition lex_end (m : lex_mode) : list token :=
  match m with
  | LWord w => [word_token (rev_string w "")]
  | LPunct p => [TP p]
  | LSlash => [TP "/"]
  | LString s _ | LHex s _ | LRaw s | LChar s => [TBad s]
  | LTick w => [TLife (rev_string w "")]
  | _ => []
  end.
Fixpoint lex_from (m : lex_mode) (s : string) : list token :=
  match s with
  | EmptyString => lex_end m
  | String c s' => let '(ts, m') := lex_char m c in ts ++ lex_from m' s'
  end.
(** the lines of a file, each followed by a line feed *)
Fixpoint file_text (lines : list string) : string :=
  match lines with [] => "" | l :: ls => (l ++ String (ascii_of_N 10) (file_text ls))%string end.
Definition lex (lines : list string) : list token := lex_from LBase (file_text lines).

(** ** Syntax *)
Inductive ty :=
| TyName (path : list string) (args : list ty)
| TyRef (mutable : bool) (t : ty)
| TyTuple (ts : list ty)
| TySlice (t : ty)
| TyArray (t : ty) (size : token).

Inductive pat :=
| PWild
| PVar (x : string)
| PBool (b : bool)
| PStr (s : string)
| PTuple (ps : list pat)
| PCtor (path : list string) (targs : list ty) (ps : list pat)
| POr (ps : list pat).

Inductive expr :=
| EPath (path : list string) (targs : list ty)
| ENum (n : N)
| EStr (s : string)
| EBool (b : bool)
| ECall (f : expr) (args : list expr)
| EMethod (e : expr) (m : string) (targs : list ty) (args : list expr)
| EField (e : expr) (f : string)
| EIndex (e i : expr)
| ERange (lo hi : option expr) (inclusive : bool)
| EUn (op : string) (e : expr)
| EBin (op : string) (a b : expr)
| ECast (e : expr) (t : ty)
| ETry (e : expr)
| EAwait (e : expr)
| ETuple (es : list expr)
| EList (es : list expr)               (* [a, b] and vec![a, b] *)
| ERepeat (e n : expr)                 (* [e; n] and vec![e; n] *)
| EFormat (ps : list expr)             (* format!; literal pieces are EStr *)
| EShow (debug : bool) (e : expr)      (* {} and {:?} in a format *)
| EMacro (name : string) (es : list expr)
| EStruct (path : list string) (fields : list (string * expr))
| EIf (c : expr) (a : expr) (b : option expr)
| EIfLet (p : pat) (e : expr) (a : expr) (b : option expr)
| EMatch (e : expr) (arms : list (pat * expr))
| EBlock (ss : list stmt) (e : option expr)
| EClosure (ps : list pat) (e : expr)
| EReturn (e : option expr)
| EContinue
| EAssign (p e : expr)
| EOpAssign (op : string) (p e : expr)
| EWhile (c : expr) (e : expr)
| EFor (p : pat) (e : expr) (body : expr)
| ELoop (e : expr)
| EAsync (e : expr)                    (* [async move { … }] *)
| ESelect (arms : list (pat * expr * expr))   (* [tokio::select! { p = e => b … }] *)
with stmt :=
| SLet (p : pat) (t : option ty) (e : expr)
| SConst (x : string) (t : ty) (e : expr)
| SExpr (e : expr).

Record fn := Fn {
  f_name : string;
  f_self : option bool;                       (* [self]: is it [&mut self]? *)
  f_params : list (string * ty);
  f_ret : option ty;
  f_body : expr }.

Inductive item :=
| IConst (x : string) (t : ty) (e : expr)
| IType (x : string) (t : ty)
| IStruct (x : string) (fields : list (string * ty))   (* the fields of a tuple struct are "0", "1", … *)
| IEnum (x : string) (variants : list (string * option N)) (texts : list (string * string))   (* [#[error("…")]] *)
| IFn (f : fn)
| IImpl (x : string) (its : list (list (list token) * item)).
(** an item with its attributes [#[…]] *)
Definition aitem : Type := (list (list token) * item)%type.

(** ** Parser
    Recursive descent; the first argument bounds the depth. *)
Definition parser (A : Type) : Type := list token -> option (A * list token).
Definition is_p (s : string) (t : token) : bool := match t with TP q => String.eqb q s | _ => false end.
Definition is_id (s : string) (t : token) : bool := match t with TId q => String.eqb q s | _ => false end.
Definition next_p (s : string) (ts : list token) : bool := match ts with t :: _ => is_p s t | [] => false end.
Definition next_id (s : string) (ts : list token) : bool := match ts with t :: _ => is_id s t | [] => false end.
Definition expect_p (s : string) (ts : list token) : option (list token) :=
  match ts with t :: r => if is_p s t then Some r else None | [] => None end.
Definition expect_id (s : string) (ts : list token) : option (list token) :=
  match ts with t :: r => if is_id s t then Some r else None | [] => None end.
Definition skip_p (s : string) (ts : list token) : list token :=
  match ts with t :: r => if is_p s t then r else ts | [] => [] end.
Definition skip_id (s : string) (ts : list token) : list token :=
  match ts with t :: r => if is_id s t then r else ts | [] => [] end.

Notation "'let?' p := m 'in' k" := (match m with Some p => k | None => None end)
  (at level 200, p pattern, m at level 100, k at level 200, right associativity).

(** a list of things separated by commas, up to and including a closing token *)
Fixpoint sep_by {A} (fuel : nat) (p : parser A) (close : string) (ts : list token) : option (list A * list token) :=
  match fuel with
  | O => None
  | S f =>
      if next_p close ts then Some ([], tl ts)
      else let? (x, r) := p ts in
           if next_p "," r then let? (xs, r') := sep_by f p close (tl r) in Some (x :: xs, r')
           else let? r' := expect_p close r in Some ([x], r')
  end.

(** from an opening bracket to its counterpart, both dropped *)
Fixpoint balanced (o c : string) (depth : nat) (acc : list token) (ts : list token)
  : option (list token * list token) :=
  match ts with
  | [] => None
  | t :: r =>
      if is_p o t then balanced o c (S depth) (t :: acc) r
      else if is_p c t then match depth with O => Some (rev acc, r) | S d => balanced o c d (t :: acc) r end
      else balanced o c depth (t :: acc) r
  end.
Definition skip_angles (ts : list token) : option (list token) :=
  if next_p "<" ts then let? (_, r) := balanced "<" ">" O [] (tl ts) in Some r else Some ts.

Fixpoint p_ty (fuel : nat) (ts : list token) : option (ty * list token) :=
  match fuel with
  | O => None
  | S f =>
      match ts with
      | TP "&" :: r =>
          let r := match r with TLife _ :: r' => r' | _ => r end in
          let m := next_id "mut" r in
          let? (t, r) := p_ty f (skip_id "mut" r) in Some (TyRef m t, r)
      | TP "(" :: r => let? (xs, r) := sep_by f (p_ty f) ")" r in Some (TyTuple xs, r)
      | TP "[" :: r =>
          let? (t, r) := p_ty f r in
          match r with
          | TP ";" :: n :: TP "]" :: r => Some (TyArray t n, r)
          | TP "]" :: r => Some (TySlice t, r)
          | _ => None
          end
      | TLife s :: r => Some (TyName [s] [], r)
      | TId "dyn" :: r => p_ty f r
      | TId "impl" :: r => p_ty f r
      | TId x :: TP "::" :: r =>
          let? (t, r) := p_ty f r in
          match t with TyName p a => Some (TyName (x :: p) a, r) | _ => None end
      | TId x :: TP "<" :: r => let? (xs, r) := sep_by f (p_ty f) ">" r in Some (TyName [x] xs, r)
      | TId x :: r => Some (TyName [x] [], r)
      | _ => None
      end
  end.

Definition begins_upper (s : string) : bool := match s with String c _ => is_upper c | _ => false end.
(** [a::b::<T>::c]: the segments and the last generic arguments *)
Fixpoint p_path (fuel : nat) (ts : list token) : option (list string * list ty * list token) :=
  match fuel with
  | O => None
  | S f =>
      match ts with
      | TId x :: TP "::" :: TP "<" :: r =>
          let? (xs, r) := sep_by f (p_ty f) ">" r in
          match r with
          | TP "::" :: r => let? (p, a, r) := p_path f r in Some (x :: p, a, r)
          | _ => Some ([x], xs, r)
          end
      | TId x :: TP "::" :: r => let? (p, a, r) := p_path f r in Some (x :: p, a, r)
      | TId x :: r => Some ([x], [], r)
      | _ => None
      end
  end.

Fixpoint p_pat (fuel : nat) (ts : list token) : option (pat * list token) :=
  match fuel with
  | O => None
  | S f =>
      match ts with
      | TId "_" :: r => Some (PWild, r)
      | TId "true" :: r => Some (PBool true, r)
      | TId "false" :: r => Some (PBool false, r)
      | TStr s :: r => Some (PStr s, r)
      | TId "mut" :: TId x :: r => Some (PVar x, r)
      | TP "&" :: r => p_pat f r
      | TP "(" :: r => let? (xs, r) := sep_by f (p_pat f) ")" r in
          match xs with [x] => Some (x, r) | _ => Some (PTuple xs, r) end
      | TId _ :: _ =>
          let? (p, a, r) := p_path f ts in
          match r with
          | TP "(" :: r => let? (xs, r) := sep_by f (p_pat f) ")" r in Some (PCtor p a xs, r)
          | _ => match p with
                 | [x] => Some (if begins_upper x then PCtor p a [] else PVar x, r)
                 | _ => Some (PCtor p a [], r)
                 end
          end
      | _ => None
      end
  end.
(** alternatives; a bar may come first *)
Fixpoint p_more_pats (fuel : nat) (ts : list token) : option (list pat * list token) :=
  match fuel with
  | O => None
  | S f =>
      if next_p "|" ts then
        let? (p, r) := p_pat f (tl ts) in
        let? (ps, r) := p_more_pats f r in Some (p :: ps, r)
      else Some ([], ts)
  end.
Definition p_pats (fuel : nat) (ts : list token) : option (pat * list token) :=
  let? (p, r) := p_pat fuel (skip_p "|" ts) in
  let? (ps, r) := p_more_pats fuel r in
  Some (match ps with [] => p | _ => POr (p :: ps) end, r).

(** binary operators by precedence *)
Definition precedence (op : string) : option nat :=
  if String.eqb op "||" then Some 1%nat
  else if String.eqb op "&&" then Some 2%nat
  else if mem op ["=="; "!="; "<"; ">"; "<="; ">="] then Some 3%nat
  else if String.eqb op "|" then Some 4%nat
  else if String.eqb op "^" then Some 5%nat
  else if String.eqb op "&" then Some 6%nat
  else if mem op ["+"; "-"] then Some 7%nat
  else if mem op ["*"; "/"; "%"] then Some 8%nat
  else None.

(** the pieces of a format string; [args] are those given after it; [{{] and [}}] are braces *)
Fixpoint format_pieces (s : string) (lit : string) (hole : option string) (args : list expr) : option (list expr) :=
  let flush := match lit with EmptyString => [] | _ => [EStr (rev_string lit "")] end in
  match s with
  | EmptyString => match hole with None => Some flush | Some _ => None end
  | String c s' =>
      match hole with
      | None =>
          let literally := format_pieces s' (String c lit) None args in
          if code_of c =? 123 then
            let open := let? r := format_pieces s' "" (Some "") args in Some (flush ++ r) in
            match s' with
            | String d s'' => if code_of d =? 123 then format_pieces s'' (String c lit) None args else open
            | EmptyString => open
            end
          else if code_of c =? 125 then
            match s' with
            | String d s'' => if code_of d =? 125 then format_pieces s'' (String c lit) None args else literally
            | EmptyString => literally
            end
          else literally
      | Some h =>
          if code_of c =? 125 then
            let h := rev_string h "" in
            if String.eqb h "" then
              match args with a :: args => let? r := format_pieces s' "" None args in Some (EShow false a :: r) | [] => None end
            else if String.eqb h ":?" then
              match args with a :: args => let? r := format_pieces s' "" None args in Some (EShow true a :: r) | [] => None end
            else let? r := format_pieces s' "" None args in Some (EShow false (EPath [h] []) :: r)
          else format_pieces s' "" (Some (String c h)) args
      end
  end.

(** [format!("…", x = e, …)]: the names are bound around the format *)
Definition named_argument (e : expr) : list (string * expr) :=
  match e with EAssign (EPath [x] _) v => [(x, v)] | _ => [] end.
Definition format_expr (s : string) (args : list expr) : option expr :=
  let named := flat_map named_argument args in
  let? ps := format_pieces s "" None (filter (fun e => match named_argument e with [] => true | _ => false end) args) in
  Some (match named with
        | [] => EFormat ps
        | _ => EBlock [SLet (PTuple (map (fun p => PVar (fst p)) named)) None (ETuple (map snd named))] (Some (EFormat ps))
        end).

Definition block_like (ts : list token) : bool :=
  match ts with
  | TId x :: _ => mem x ["if"; "match"; "for"; "while"; "loop"]
  | TP "{" :: _ => true
  | _ => false
  end.
Definition ends_expr (ts : list token) : bool :=
  match ts with
  | TP x :: _ => mem x [")"; "]"; "}"; ","; ";"; "=>"; "{"]
  | [] => true
  | _ => false
  end.

Fixpoint p_cast_rest (fuel : nat) (e : expr) (ts : list token) : option (expr * list token) :=
  match fuel with
  | O => None
  | S f =>
      if next_id "as" ts then let? (t, r) := p_ty f (tl ts) in p_cast_rest f (ECast e t) r
      else Some (e, ts)
  end.

(** after [tokio::select! {] *)
Definition after_select (ts : list token) : option (list token) :=
  let? r := expect_id "tokio" ts in
  let? r := expect_p "::" r in
  let? r := expect_id "select" r in
  let? r := expect_p "!" r in expect_p "{" r.

(** [where …] before a body, the name of a struct *)
Fixpoint to_brace (ts : list token) : list token :=
  match ts with [] => [] | t :: r => if is_p "{" t then ts else to_brace r end.
(** [ns]: struct literals are not allowed (conditions and scrutinees) *)
Fixpoint p_expr (fuel : nat) (ns : bool) (ts : list token) : option (expr * list token) :=
  match fuel with
  | O => None
  | S f =>
      if next_id "return" ts then
        let r := tl ts in
        if ends_expr r then Some (EReturn None, r)
        else let? (e, r) := p_expr f ns r in Some (EReturn (Some e), r)
      else if next_p ".." ts then
        let r := tl ts in
        if ends_expr r then Some (ERange None None false, r)
        else let? (e, r) := p_bin f ns 1 r in Some (ERange None (Some e) false, r)
      else
        let? (e, r) := p_bin f ns 1 ts in
        if next_p "=" r then let? (e', r) := p_expr f ns (tl r) in Some (EAssign e e', r)
        else if next_p "+=" r then let? (e', r) := p_expr f ns (tl r) in Some (EOpAssign "+" e e', r)
        else if next_p "-=" r then let? (e', r) := p_expr f ns (tl r) in Some (EOpAssign "-" e e', r)
        else if next_p ".." r then
          let r := tl r in
          if ends_expr r then Some (ERange (Some e) None false, r)
          else let? (e', r) := p_bin f ns 1 r in Some (ERange (Some e) (Some e') false, r)
        else if next_p "..=" r then let? (e', r) := p_bin f ns 1 (tl r) in Some (ERange (Some e) (Some e') true, r)
        else Some (e, r)
  end
with p_bin (fuel : nat) (ns : bool) (level : nat) (ts : list token) : option (expr * list token) :=
  match fuel with
  | O => None
  | S f => let? (e, r) := p_cast f ns ts in p_bin_rest f ns level e r
  end
with p_bin_rest (fuel : nat) (ns : bool) (level : nat) (e : expr) (ts : list token) : option (expr * list token) :=
  match fuel with
  | O => None
  | S f =>
      match ts with
      | TP op :: r =>
          match precedence op with
          | Some l => if Nat.leb level l
                      then let? (e', r) := p_bin f ns (S l) r in p_bin_rest f ns level (EBin op e e') r
                      else Some (e, ts)
          | None => Some (e, ts)
          end
      | _ => Some (e, ts)
      end
  end
with p_cast (fuel : nat) (ns : bool) (ts : list token) : option (expr * list token) :=
  match fuel with
  | O => None
  | S f => let? (e, r) := p_unary f ns ts in p_cast_rest f e r
  end
with p_unary (fuel : nat) (ns : bool) (ts : list token) : option (expr * list token) :=
  match fuel with
  | O => None
  | S f =>
      if next_p "!" ts then let? (e, r) := p_unary f ns (tl ts) in Some (EUn "!" e, r)
      else if next_p "-" ts then let? (e, r) := p_unary f ns (tl ts) in Some (EUn "-" e, r)
      else if next_p "*" ts then let? (e, r) := p_unary f ns (tl ts) in Some (EUn "*" e, r)
      else if next_p "&" ts then
        let r := tl ts in
        if next_id "mut" r then let? (e, r) := p_unary f ns (tl r) in Some (EUn "&mut" e, r)
        else let? (e, r) := p_unary f ns r in Some (EUn "&" e, r)
      else let? (e, r) := p_primary f ns ts in p_postfix f ns e r
  end
with p_postfix (fuel : nat) (ns : bool) (e : expr) (ts : list token) : option (expr * list token) :=
  match fuel with
  | O => None
  | S f =>
      if next_p "?" ts then p_postfix f ns (ETry e) (tl ts)
      else if next_p "(" ts then
        let? (xs, r) := sep_by f (p_expr f false) ")" (tl ts) in p_postfix f ns (ECall e xs) r
      else if next_p "[" ts then
        let? (i, r) := p_expr f false (tl ts) in let? r := expect_p "]" r in p_postfix f ns (EIndex e i) r
      else if next_p "." ts then
        match tl ts with
        | TId m :: r =>
            if String.eqb m "await" then p_postfix f ns (EAwait e) r
            else if next_p "::" r && next_p "<" (tl r) then
              let? (ts', r) := sep_by f (p_ty f) ">" (tl (tl r)) in
              let? r := expect_p "(" r in
              let? (xs, r) := sep_by f (p_expr f false) ")" r in p_postfix f ns (EMethod e m ts' xs) r
            else if next_p "(" r then
              let? (xs, r) := sep_by f (p_expr f false) ")" (tl r) in p_postfix f ns (EMethod e m [] xs) r
            else p_postfix f ns (EField e m) r
        | TNum n :: r => p_postfix f ns (EField e (if n =? 0 then "0" else if n =? 1 then "1" else "?")) r
        | _ => Some (e, ts)
        end
      else Some (e, ts)
  end
with p_primary (fuel : nat) (ns : bool) (ts : list token) : option (expr * list token) :=
  match fuel with
  | O => None
  | S f =>
      match ts with
      | TNum n :: r => Some (ENum n, r)
      | TStr s :: r => Some (EStr s, r)
      | TP x :: r =>
          if String.eqb x "(" then
            if next_p ")" r then Some (ETuple [], tl r)
            else let? (e, r) := p_expr f false r in
                 if next_p ")" r then Some (e, tl r)
                 else let? r := expect_p "," r in
                      let? (xs, r) := sep_by f (p_expr f false) ")" r in Some (ETuple (e :: xs), r)
          else if String.eqb x "[" then p_list f r
          else if String.eqb x "{" then p_block f ts
          else if String.eqb x "|" then
            let? (ps, r) := sep_by f (p_pat f) "|" r in
            let? (e, r) := p_expr f ns r in Some (EClosure ps e, r)
          else if String.eqb x "||" then let? (e, r) := p_expr f ns r in Some (EClosure [] e, r)
          else None
      | TId x :: r =>
          if String.eqb x "true" then Some (EBool true, r)
          else if String.eqb x "false" then Some (EBool false, r)
          else if String.eqb x "continue" then Some (EContinue, r)
          else if String.eqb x "if" then
            if next_id "let" r then
              let? (p, r) := p_pats f (tl r) in
              let? r := expect_p "=" r in
              let? (e, r) := p_expr f true r in
              let? (a, r) := p_block f r in
              if next_id "else" r then let? (b, r) := p_primary f false (tl r) in Some (EIfLet p e a (Some b), r)
              else Some (EIfLet p e a None, r)
            else
              let? (c, r) := p_expr f true r in
              let? (a, r) := p_block f r in
              if next_id "else" r then let? (b, r) := p_primary f false (tl r) in Some (EIf c a (Some b), r)
              else Some (EIf c a None, r)
          else if String.eqb x "match" then
            let? (e, r) := p_expr f true r in
            let? r := expect_p "{" r in
            let? (arms, r) := p_arms f r in Some (EMatch e arms, r)
          else if String.eqb x "while" then
            let? (c, r) := p_expr f true r in
            let? (b, r) := p_block f r in Some (EWhile c b, r)
          else if String.eqb x "for" then
            let? (p, r) := p_pat f r in
            let? r := expect_id "in" r in
            let? (e, r) := p_expr f true r in
            let? (b, r) := p_block f r in Some (EFor p e b, r)
          else if String.eqb x "loop" then let? (b, r) := p_block f r in Some (ELoop b, r)
          else if String.eqb x "async" then let? (b, r) := p_block f (skip_id "move" r) in Some (EAsync b, r)
          else
            match after_select ts with
            | Some r => let? (arms, r) := p_branches f r in Some (ESelect arms, r)
            | None =>
                if String.eqb x "vec" && next_p "!" r && next_p "[" (tl r) then p_list f (tl (tl r))
                else if next_p "!" r && next_p "(" (tl r) then
                  let? (xs, r) := sep_by f (p_expr f false) ")" (tl (tl r)) in
                  if String.eqb x "format" then
                    match xs with EStr s :: xs => let? e := format_expr s xs in Some (e, r) | _ => None end
                  else Some (EMacro x xs, r)
                else
                  let? (p, a, r) := p_path f ts in
                  if negb ns && next_p "{" r && begins_upper (last p "") then
                    let? (fs, r) := sep_by f (p_field f) "}" (tl r) in Some (EStruct p fs, r)
                  else match r with
                       | TStr s :: r' =>
                           (* [b"…"] *)
                           Some (if String.eqb x "b" then (EMethod (EStr s) "as_bytes" [] [], r') else (EPath p a, r))
                       | _ => Some (EPath p a, r)
                       end
            end
      | _ => None
      end
  end
with p_list (fuel : nat) (ts : list token) : option (expr * list token) :=
  match fuel with
  | O => None
  | S f =>
      if next_p "]" ts then Some (EList [], tl ts)
      else let? (e, r) := p_expr f false ts in
           if next_p "]" r then Some (EList [e], tl r)
           else if next_p ";" r then let? (n, r) := p_expr f false (tl r) in let? r := expect_p "]" r in Some (ERepeat e n, r)
           else let? r := expect_p "," r in
                let? (xs, r) := sep_by f (p_expr f false) "]" r in Some (EList (e :: xs), r)
  end
with p_field (fuel : nat) (ts : list token) : option ((string * expr) * list token) :=
  match fuel with
  | O => None
  | S f =>
      match ts with
      | TId x :: TP ":" :: r => let? (e, r) := p_expr f false r in Some ((x, e), r)
      | TId x :: r => Some ((x, EPath [x] []), r)
      | _ => None
      end
  end
with p_arms (fuel : nat) (ts : list token) : option (list (pat * expr) * list token) :=
  match fuel with
  | O => None
  | S f =>
      if next_p "}" ts then Some ([], tl ts)
      else let? (p, r) := p_pats f ts in
           let? r := expect_p "=>" r in
           let? (e, r) := p_expr f false r in
           let? (arms, r) := p_arms f (skip_p "," r) in Some ((p, e) :: arms, r)
  end
with p_branches (fuel : nat) (ts : list token) : option (list (pat * expr * expr) * list token) :=
  match fuel with
  | O => None
  | S f =>
      if next_p "}" ts then Some ([], tl ts)
      else let? (p, r) := p_pat f ts in
           let? r := expect_p "=" r in
           let? (e, r) := p_expr f false r in
           let? r := expect_p "=>" r in
           let? (b, r) := p_block f r in
           let? (arms, r) := p_branches f (skip_p "," r) in Some ((p, e, b) :: arms, r)
  end
with p_block (fuel : nat) (ts : list token) : option (expr * list token) :=
  match fuel with
  | O => None
  | S f => let? r := expect_p "{" ts in
           let? (ss, e, r) := p_stmts f r in Some (EBlock ss e, r)
  end
with p_stmts (fuel : nat) (ts : list token) : option (list stmt * option expr * list token) :=
  match fuel with
  | O => None
  | S f =>
      if next_p "}" ts then Some ([], None, tl ts)
      else if next_p ";" ts then p_stmts f (tl ts)
      else if next_id "let" ts then
        let? (p, r) := p_pat f (tl ts) in
        let? (t, r) := (if next_p ":" r then let? (t, r) := p_ty f (tl r) in Some (Some t, r) else Some (None, r)) in
        let? r := expect_p "=" r in
        let? (e, r) := p_expr f false r in
        let? r := expect_p ";" r in
        let? (ss, e', r) := p_stmts f r in Some (SLet p t e :: ss, e', r)
      else if next_id "const" ts then
        match tl ts with
        | TId x :: r =>
            let? r := expect_p ":" r in
            let? (t, r) := p_ty f r in
            let? r := expect_p "=" r in
            let? (e, r) := p_expr f false r in
            let? r := expect_p ";" r in
            let? (ss, e', r) := p_stmts f r in Some (SConst x t e :: ss, e', r)
        | _ => None
        end
      else if next_id "struct" ts then
        (* a declaration; [local_structs] has it *)
        let? (_, r) := balanced "{" "}" O [] (tl (to_brace ts)) in p_stmts f r
      else if block_like ts then
        let? (e, r) := p_primary f false ts in
        if next_p "." r || next_p "?" r then
          let? (e, r) := p_postfix f false e r in
          if next_p ";" r then let? (ss, e', r) := p_stmts f (tl r) in Some (SExpr e :: ss, e', r)
          else let? r := expect_p "}" r in Some ([], Some e, r)
        else if next_p "}" r then Some ([], Some e, tl r)
        else let? (ss, e', r) := p_stmts f r in Some (SExpr e :: ss, e', r)
      else
        let? (e, r) := p_expr f false ts in
        if next_p ";" r then let? (ss, e', r) := p_stmts f (tl r) in Some (SExpr e :: ss, e', r)
        else let? r := expect_p "}" r in Some ([], Some e, r)
  end.

(** ** Items *)
Definition p_param (fuel : nat) (ts : list token) : option ((string * ty) * list token) :=
  match skip_id "mut" ts with
  | TId x :: TP ":" :: r => let? (t, r) := p_ty fuel r in Some ((x, t), r)
  | _ => None
  end.
(** [&self,], [&mut self,], [self,] *)
Definition p_self (ts : list token) : option bool * list token :=
  match ts with
  | TP "&" :: TId "self" :: r => (Some false, skip_p "," r)
  | TP "&" :: TId "mut" :: TId "self" :: r => (Some true, skip_p "," r)
  | TId "self" :: r => (Some false, skip_p "," r)
  | _ => (None, ts)
  end.
(** after the word [fn] *)
Definition p_fn (fuel : nat) (ts : list token) : option (fn * list token) :=
  match ts with
  | TId x :: r =>
      let? r := skip_angles r in
      let? r := expect_p "(" r in
      let '(s, r) := p_self r in
      let? (ps, r) := sep_by fuel (p_param fuel) ")" r in
      let? (t, r) := (if next_p "->" r then let? (t, r) := p_ty fuel (tl r) in Some (Some t, r) else Some (None, r)) in
      let? (b, r) := p_block fuel (if next_id "where" r then to_brace r else r) in
      Some (Fn x s ps t b, r)
  | _ => None
  end.
Fixpoint p_attributes (fuel : nat) (ts : list token) : option (list (list token) * list token) :=
  match fuel with
  | O => None
  | S f =>
      match ts with
      | TP "#" :: TP "[" :: r =>
          let? (a, r) := balanced "[" "]" O [] r in
          let? (l, r) := p_attributes f r in Some (a :: l, r)
      | _ => Some ([], ts)
      end
  end.
Definition skip_visibility (ts : list token) : list token :=
  match ts with
  | TId "pub" :: TP "(" :: TId _ :: TP ")" :: r => r
  | TId "pub" :: r => r
  | _ => ts
  end.
(** the fields of a struct, and the variants of an enum *)
Definition p_named_field (fuel : nat) (ts : list token) : option ((string * ty) * list token) :=
  let? (_, r) := p_attributes fuel ts in p_param fuel (skip_visibility r).
Definition p_plain_field (fuel : nat) (ts : list token) : option (ty * list token) := p_ty fuel (skip_visibility ts).
Definition error_text (x : string) (a : list token) : list (string * string) :=
  match a with [TId "error"; TP "("; TStr s; TP ")"] => [(x, s)] | _ => [] end.
Definition p_variant (fuel : nat) (ts : list token) : option ((string * option N) * list (string * string) * list token) :=
  let? (attrs, r) := p_attributes fuel ts in
  let found (x : string) (n : option N) (r : list token) := Some ((x, n), flat_map (error_text x) attrs, r) in
  match r with
  | TId x :: TP "=" :: TNum n :: r => found x (Some n) r
  | TId x :: TP "(" :: r => let? (_, r) := sep_by fuel (p_ty fuel) ")" r in found x None r
  | TId x :: r => found x None r
  | _ => None
  end.
Fixpoint skip_to (p : string) (ts : list token) : list token :=
  match ts with [] => [] | t :: r => if is_p p t then r else skip_to p r end.
Definition number_fields (ts : list ty) : list (string * ty) := combine ["0"; "1"; "2"; "3"] ts.
(** items up to the end, or to a closing brace; imports, modules and traits are dropped *)
Fixpoint p_items (fuel : nat) (inside : bool) (ts : list token) : option (list aitem * list token) :=
  match fuel with
  | O => None
  | S f =>
      match ts with
      | [] => if inside then None else Some ([], [])
      | TP "}" :: r => if inside then Some ([], r) else None
      | _ =>
          let? (attrs, r) := p_attributes f ts in
          let more (i : item) (r : list token) :=
            let? (is, r) := p_items f inside r in Some ((attrs, i) :: is, r) in
          match skip_id "async" (skip_visibility r) with
          | TId "use" :: r => p_items f inside (skip_to ";" r)
          | TId "extern" :: r => p_items f inside (skip_to ";" r)
          | TId "mod" :: TId _ :: TP ";" :: r => p_items f inside r
          | TId "mod" :: TId _ :: TP "{" :: r => let? (_, r) := balanced "{" "}" O [] r in p_items f inside r
          | TId "trait" :: r =>
              let? (_, r) := balanced "{" "}" O [] (skip_to "{" r) in
              p_items f inside r
          | TId "fn" :: r => let? (fn, r) := p_fn f r in more (IFn fn) r
          | TId "const" :: TId x :: TP ":" :: r =>
              let? (t, r) := p_ty f r in
              let? r := expect_p "=" r in
              let? (e, r) := p_expr f false r in
              let? r := expect_p ";" r in more (IConst x t e) r
          | TId "type" :: TId x :: TP "=" :: r =>
              let? (t, r) := p_ty f r in
              let? r := expect_p ";" r in more (IType x t) r
          | TId "struct" :: TId x :: r =>
              let? r := skip_angles r in
              match r with
              | TP "{" :: r => let? (fs, r) := sep_by f (p_named_field f) "}" r in more (IStruct x fs) r
              | TP "(" :: r =>
                  let? (fs, r) := sep_by f (p_plain_field f) ")" r in
                  let? r := expect_p ";" r in more (IStruct x (number_fields fs)) r
              | _ => None
              end
          | TId "enum" :: TId x :: TP "{" :: r =>
              let? (vs, r) := sep_by f (p_variant f) "}" r in more (IEnum x (map fst vs) (flat_map snd vs)) r
          | TId "impl" :: r =>
              let? r := skip_angles r in
              let? (t, r) := p_ty f r in
              let? (t, r) := (if next_id "for" r then p_ty f (tl r) else Some (t, r)) in
              let? r := expect_p "{" r in
              let? (is, r) := p_items f true r in
              match t with TyName p _ => more (IImpl (last p "") is) r | _ => None end
          | _ => None
          end
      end
  end.

(** The items of a file. The bound is enough for every file it is used on; a file that needs more has no items. *)
Definition parse (lines : list string) : option (list aitem) :=
  let? (is, r) := p_items 4000 false (lex lines) in
  match r with [] => Some is | _ => None end.

(** [const X: &str = "…";]: the Rust Reference, "Constant items", has them inlined where they are used.  This is
    for patterns, where a name would be a variable. *)
Fixpoint text_constants (ts : list token) : list (string * string) :=
  match ts with
  | t :: r =>
      match r with
      | TId x :: c :: a :: y :: e :: TStr s :: _ =>
          if is_id "const" t && is_p ":" c && is_p "&" a && is_id "str" y && is_p "=" e then [(x, s)] else []
      | _ => []
      end ++ text_constants r
  | [] => []
  end.
Fixpoint constant_text (cs : list (string * string)) (x : string) : option string :=
  match cs with [] => None | (y, s) :: cs' => if String.eqb x y then Some s else constant_text cs' x end.
Fixpoint inline_constants (cs : list (string * string)) (ts : list token) : list token :=
  match ts with
  | TId "const" :: x :: r => TId "const" :: x :: inline_constants cs r
  | TId x :: r => match constant_text cs x with Some s => TStr s | None => TId x end :: inline_constants cs r
  | t :: r => t :: inline_constants cs r
  | [] => []
  end.
Definition parse_inlined (lines : list string) : option (list aitem) :=
  let ts := lex lines in
  let? (is, r) := p_items 4000 false (inline_constants (text_constants ts) ts) in
  match r with [] => Some is | _ => None end.

(** ** The tests of a file
    [mod tests { … }] at the end of a file, as a file of its own; the structs declared inside its functions come
    with it (two of the same name must be the same). *)
Fixpoint after_tests (ts : list token) : option (list token) :=
  match ts with
  | m :: r =>
      match r with
      | x :: o :: r' => if is_id "mod" m && is_id "tests" x && is_p "{" o then Some r' else after_tests r
      | _ => None
      end
  | [] => None
  end.
Fixpoint local_structs (ts : list token) : list aitem :=
  match ts with
  | t :: r =>
      (if is_id "struct" t then
         match r with
         | TId x :: r' =>
             match skip_angles r' with
             | Some (o :: r'') =>
                 if is_p "{" o then
                   match sep_by 100 (p_named_field 100) "}" r'' with Some (fs, _) => [([], IStruct x fs)] | None => [] end
                 else []
             | _ => []
             end
         | _ => []
         end
       else []) ++ local_structs r
  | [] => []
  end.
Definition parse_tests (lines : list string) : option (list aitem) :=
  let? r := after_tests (lex lines) in
  let? (body, r) := balanced "{" "}" O [] r in
  let? (is, r') := p_items 4000 false body in
  match r, r' with [], [] => Some (is ++ local_structs body) | _, _ => None end.
