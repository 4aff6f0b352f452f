(** * A meaning for the subset of Rust of Rust.v

    A definitional interpreter: [run] calls a function of a parsed program on given values.  This file is about
    the language and the libraries (std, rand, chrono, md5, openssl, regex, Inflector, getopts), not about
    radius-rs.  Regular expressions, the case conversions of Inflector and operations on paths are answered by
    the environment ([consult]): the theorems say which answers they assume.

    What it simplifies:
    - references are values: [&x], [*x], borrows and clones are the thing itself.  A [&mut self] method and
      the mutating methods of [Vec] store the new value into the place they are called on, a function with a
      [&mut] parameter into the argument.
    - iterators are the lists of what they yield.
    - number literals have no type until they meet a typed operand or a declared type; until then their
      arithmetic is unbounded.
    - an allocation never fails; [usize] is 64 bits wide.
    - [async] functions run when they are called and [await] is the value itself; waiting for something outside
      is asking the environment, which may not answer: then the function does not go on ([Wait]), unless it is
      inside [tokio::time::timeout] or [tokio::select!] and the environment answers that the deadline has
      passed or the other future is ready.
    - the guard of a lock is released at the end of the block of its [let], as an event of its own; what a lock
      protects is part of the environment.  A function that does not go on keeps its guards.  [Arc::new] is the identity, the log macros and [env_logger::init] do nothing.
    What has no meaning here is [Stuck], never a default: the theorems of PropCode.v show the functions of the
    crate do not get stuck. *)
From Coq Require Import String List NArith ZArith Bool Strings.Byte Strings.Ascii.
From Verif Require Import Prelude Md5 Utf8 Rust.
Import ListNotations.
Local Open Scope string_scope.
Local Open Scope N_scope.
Local Open Scope list_scope.

(** ** Values *)
Inductive ity := U8 | U16 | U32 | U64 | Usize | I32 | I64 | Lit.
Inductive value :=
| VBool (b : bool)
| VInt (t : ity) (n : N)                       (* u8 … u64, usize and literals *)
| VSint (t : ity) (z : Z)                      (* i32, i64 *)
| VBytes (b : bytes)                           (* [Vec<u8>], [&[u8]], [[u8; n]], a digest *)
| VStr (b : bytes)                             (* [String], [&str]: the UTF-8 bytes *)
| VList (l : list value)                       (* other vectors, arrays and iterators *)
| VTuple (l : list value)
| VCtor (t c : string) (l : list value)        (* a variant of an enum; a tuple struct; t = "" for Option, Result *)
| VStruct (t : string) (l : list (string * value))
| VRange (lo hi : option N) (inclusive : bool)
| VIpv4 (b : bytes) | VIpv6 (b : bytes)
| VDate (secs : Z)                             (* [DateTime<Utc>] *)
| VError (text : bytes)                        (* an error of a library; its [Display] text *)
| VAddr (v4 : bool) (text : bytes)             (* a [SocketAddr] and its [Display] text *)
| VExt (name : string).                        (* an object of the environment *)
Definition VUnit : value := VTuple [].
Definition vu8 (b : byte) : value := VInt U8 (b2n b).
Definition u8_values (b : bytes) : list value := map vu8 b.
Definition vok (v : value) : value := VCtor "" "Ok" [v].
Definition verr (v : value) : value := VCtor "" "Err" [v].
Definition vsome (v : value) : value := VCtor "" "Some" [v].
Definition vnone : value := VCtor "" "None" [].

(** ** Programs: the items of a crate for one set of features *)
Record program := Program {
  pg_fns : list (string * fn);                          (* with the type they belong to; constants have no parameters *)
  pg_structs : list (string * list (string * ty));
  pg_enums : list (string * list (string * option N));
  pg_texts : list (string * list (string * string));    (* [#[error("…")]]: the [Display] of a variant *)
  pg_types : list (string * ty) }.
(** [#[cfg(feature = "…")]] and [#[cfg(test)]]; other attributes change nothing *)
Definition attribute_allows (feature : string) (a : list token) : bool :=
  match a with
  | [TId "cfg"; TP "("; TId "feature"; TP "="; TStr f; TP ")"] => String.eqb f feature
  | [TId "cfg"; TP "("; TId "test"; TP ")"] => false
  | _ => true
  end.
Definition enabled (feature : string) (i : aitem) : bool := forallb (attribute_allows feature) (fst i).
Definition item_fns (feature : string) (t : string) (i : aitem) : list (string * fn) :=
  if enabled feature i then
    match snd i with
    | IFn f => [(t, f)]
    | IConst x ty e => [(t, Fn x None [] (Some ty) e)]
    | _ => []
    end
  else [].
Definition impl_fns (feature : string) (i : aitem) : list (string * fn) :=
  match i with
  | (_, IImpl t is) => if enabled feature i then flat_map (item_fns feature t) is else []
  | _ => item_fns feature "" i
  end.
Definition program_of (feature : string) (is : list aitem) : program :=
  let on := filter (enabled feature) is in
  Program (flat_map (impl_fns feature) on)
          (flat_map (fun i => match snd i with IStruct x fs => [(x, fs)] | _ => [] end) on)
          (flat_map (fun i => match snd i with IEnum x vs _ => [(x, vs)] | _ => [] end) on)
          (flat_map (fun i => match snd i with IEnum x _ ts => [(x, ts)] | _ => [] end) on)
          (flat_map (fun i => match snd i with IType x t => [(x, t)] | _ => [] end) on).

(** list functions of the interpreter's own, so that proofs can tell them from those of the crate *)
Fixpoint name_of (p : list string) : string :=
  match p with [] => "" | [x] => x | _ :: p' => name_of p' end.
Fixpoint path_eqb (p q : list string) : bool :=
  match p, q with
  | [], [] => true
  | x :: p', y :: q' => if String.eqb x y then path_eqb p' q' else false
  | _, _ => false
  end.
Fixpoint count {A} (l : list A) : nat := match l with [] => O | _ :: l' => S (count l') end.
Fixpoint minus (n m : nat) : nat := match n, m with S n', S m' => minus n' m' | _, _ => n end.
Fixpoint drop {A} (n : nat) (l : list A) : list A :=
  match n, l with S n', _ :: l' => drop n' l' | _, _ => l end.
Fixpoint push_rev {A} (l acc : list A) : list A := match l with [] => acc | x :: l' => push_rev l' (x :: acc) end.
Fixpoint join_list {A} (a b : list A) : list A := match a with [] => b | x :: a' => x :: join_list a' b end.
Definition any {A} (f : A -> bool) := fix any (l : list A) : bool :=
  match l with [] => false | x :: l' => if f x then true else any l' end.

Fixpoint assoc {A} (x : string) (l : list (string * A)) : option A :=
  match l with [] => None | (y, a) :: l' => if String.eqb x y then Some a else assoc x l' end.
Fixpoint find_fn (t x : string) (l : list (string * fn)) : option fn :=
  match l with
  | [] => None
  | (t', f) :: l' => if if String.eqb t t' then String.eqb x (f_name f) else false then Some f else find_fn t x l'
  end.

Definition lookup_fn (pg : program) (t x : string) : option fn := find_fn t x (pg_fns pg).
Definition lookup_struct (pg : program) (t : string) : option (list (string * ty)) := assoc t (pg_structs pg).
Definition lookup_enum (pg : program) (t : string) : option (list (string * option N)) := assoc t (pg_enums pg).
Definition lookup_text (pg : program) (t c : string) : option string :=
  match assoc t (pg_texts pg) with Some l => assoc c l | None => None end.
Definition lookup_type (pg : program) (t : string) : option ty := assoc t (pg_types pg).

(** ** The environment of a run *)
(** something asked of the environment; no answer: what was waited for panics, or is not there when a deadline
    passes or the waiting is given up *)
Record event := Event { ev_op : string; ev_args : list value; ev_answer : option value }.
(** what a run changes outside its own variables: how many random bytes it has drawn and what it has asked
    of the environment, newest first *)
Record world := World { w_random : nat; w_trace : list event }.
Record cx := Cx {
  cx_profile : profile;
  cx_program : program;
  cx_random : nat -> byte;                              (* [rand::thread_rng().gen::<u8>()], the n-th drawn *)
  cx_hash_error : bytes -> option string;               (* does [openssl::hash::hash] fail, with which message *)
  cx_answer : list event -> string -> list value -> option value   (* the answers of the environment, which may depend on all before *)
}.

(** ** Library operations on values *)
Inductive prim := PVal (v : value) | PPanic | PStuck.
Definition of_res {E A} (f : A -> value) (r : res E A) : prim :=
  match r with Ok a => PVal (f a) | Panic => PPanic | _ => PStuck end.

Definition modulus (t : ity) : option N :=
  match t with
  | U8 => Some 256 | U16 => Some 65536 | U32 => Some 4294967296
  | U64 | Usize => Some 18446744073709551616
  | _ => None
  end.
Definition ity_eqb (a b : ity) : bool :=
  match a, b with
  | U8, U8 | U16, U16 | U32, U32 | U64, U64 | Usize, Usize | I32, I32 | I64, I64 | Lit, Lit => true
  | _, _ => false
  end.
(** the type of [a op b] *)
Definition join (a b : ity) : option ity :=
  match a, b with
  | Lit, t => Some t
  | t, Lit => Some t
  | _, _ => if ity_eqb a b then Some a else None
  end.
(** [+], [-], [*]: overflow panics with debug assertions and wraps without *)
Definition uadd_value (p : profile) (t : ity) (a b : N) : prim :=
  match modulus t with
  | None => PVal (VInt t (a + b))
  | Some m => of_res (VInt t) (@uadd unit p m a b)
  end.
Definition usub_value (p : profile) (t : ity) (a b : N) : prim :=
  if b <=? a then PVal (VInt t (a - b))
  else match modulus t, p with
       | Some m, Release => PVal (VInt t (a + m - b))
       | _, _ => PPanic
       end.
Definition umul_value (p : profile) (t : ity) (a b : N) : prim :=
  match modulus t with
  | None => PVal (VInt t (a * b))
  | Some m => if a * b <? m then PVal (VInt t (a * b))
              else match p with Debug => PPanic | Release => PVal (VInt t ((a * b) mod m)) end
  end.
Definition int_op (p : profile) (op : string) (t : ity) (a b : N) : prim :=
  if String.eqb op "+" then uadd_value p t a b
  else if String.eqb op "-" then usub_value p t a b
  else if String.eqb op "*" then umul_value p t a b
  else if String.eqb op "/" then if b =? 0 then PPanic else PVal (VInt t (a / b))
  else if String.eqb op "%" then if b =? 0 then PPanic else PVal (VInt t (a mod b))
  else if String.eqb op "&" then PVal (VInt t (N.land a b))
  else if String.eqb op "|" then PVal (VInt t (N.lor a b))
  else if String.eqb op "^" then PVal (VInt t (N.lxor a b))
  else if String.eqb op "==" then PVal (VBool (a =? b))
  else if String.eqb op "!=" then PVal (VBool (negb (a =? b)))
  else if String.eqb op "<" then PVal (VBool (a <? b))
  else if String.eqb op ">" then PVal (VBool (b <? a))
  else if String.eqb op "<=" then PVal (VBool (a <=? b))
  else if String.eqb op ">=" then PVal (VBool (b <=? a))
  else PStuck.
Definition bin_op (p : profile) (op : string) (a b : value) : prim :=
  match a, b with
  | VInt ta na, VInt tb nb => match join ta tb with Some t => int_op p op t na nb | None => PStuck end
  | VStr x, VStr y => if String.eqb op "==" then PVal (VBool (bytes_eqb x y)) else PStuck
  | VCtor s c [], VCtor t d [] =>
      if String.eqb op "==" then if String.eqb s t then PVal (VBool (String.eqb c d)) else PStuck else PStuck
  | _, _ => PStuck
  end.

(** a vector of bytes, however it was written *)
Definition byte_of_value (v : value) : option byte :=
  match v with VInt U8 n | VInt Lit n => Some (n2b n) | _ => None end.
Fixpoint bytes_of_values (l : list value) : option bytes :=
  match l with
  | [] => Some []
  | v :: l' => match byte_of_value v, bytes_of_values l' with Some b, Some bs => Some (b :: bs) | _, _ => None end
  end.
Definition to_bytes (v : value) : option bytes :=
  match v with VBytes b => Some b | VList l => bytes_of_values l | _ => None end.
Definition as_bytes (v : value) : value :=
  match v with VList l => match bytes_of_values l with Some b => VBytes b | None => v end | _ => v end.
(** [==] of the derived and library [PartialEq]; values of different types cannot be compared *)
Definition both (a b : option bool) : option bool :=
  match a, b with Some x, Some y => Some (x && y)%bool | _, _ => None end.
Fixpoint same (a b : value) {struct a} : option bool :=
  let fix sames (l m : list value) {struct l} : option bool :=
    match l, m with
    | [], [] => Some true
    | x :: l', y :: m' => both (same x y) (sames l' m')
    | _, _ => Some false
    end in
  match a, b with
  | VInt s m, VInt t n => match join s t with Some _ => Some (m =? n) | None => None end
  | VSint s y, VSint t z => if ity_eqb s t then Some (y =? z)%Z else None
  | VBool x, VBool y => Some (Bool.eqb x y)
  | VStr x, VStr y => Some (bytes_eqb x y)
  | VIpv4 x, VIpv4 y => Some (bytes_eqb x y)
  | VIpv6 x, VIpv6 y => Some (bytes_eqb x y)
  | VTuple l, VTuple m => sames l m
  | VCtor s c l, VCtor t d m =>
      if String.eqb s t then if String.eqb c d then sames l m else Some false else None
  | VStruct s l, VStruct t m =>
      if String.eqb s t then
        (fix fields (l : list (string * value)) (m : list (string * value)) {struct l} : option bool :=
           match l, m with
           | [], [] => Some true
           | (f, x) :: l', (g, y) :: m' => if String.eqb f g then both (same x y) (fields l' m') else None
           | _, _ => None
           end) l m
      else None
  | VBytes x, _ => match to_bytes b with Some y => Some (bytes_eqb x y) | None => None end
  | VList l, VList m => sames l m
  | VList _, VBytes y => match to_bytes a with Some x => Some (bytes_eqb x y) | None => None end
  | _, _ => None
  end.
(** [concat] of byte vectors *)
Fixpoint concat_values (l : list value) : option bytes :=
  match l with
  | [] => Some []
  | v :: l' => match to_bytes v, concat_values l' with Some b, Some bs => Some (b ++ bs) | _, _ => None end
  end.
(** [extend] and [push] of a vector *)
Definition vec_extend (v w : value) : option value :=
  match v with
  | VBytes a => match to_bytes w with Some b => Some (VBytes (a ++ b)) | None => None end
  | VList [] => match w with VBytes _ | VList _ => Some w | _ => None end
  | VList a => match w with VList b => Some (VList (a ++ b)) | _ => None end
  | _ => None
  end.
Definition vec_push (v x : value) : option value :=
  match v with
  | VBytes a => match byte_of_value x with Some b => Some (VBytes (a ++ [b])) | None => None end
  | VList a => Some (VList (a ++ [x]))
  | _ => None
  end.
(** what iterating over a value yields *)
Definition items_of (v : value) : option (list value) :=
  match v with
  | VBytes b => Some (u8_values b)
  | VList l => Some l
  | VRange (Some lo) (Some hi) false =>
      Some (map (fun i => VInt Lit (N.of_nat i)) (seq (N.to_nat lo) (N.to_nat (hi - lo))))
  | _ => None
  end.
Fixpoint zip_values (a b : list value) : list value :=
  match a, b with x :: a', y :: b' => VTuple [x; y] :: zip_values a' b' | _, _ => [] end.

(** [v[i]] and [v[a..b]] *)
Definition index_value (v i : value) : prim :=
  match v, i with
  | VBytes b, VInt _ n => of_res vu8 (@index unit b n)
  | VBytes b, VRange None None false => PVal v
  | VBytes b, VRange (Some lo) None false => of_res VBytes (@slice_from unit b lo)
  | VBytes b, VRange None (Some hi) false => of_res VBytes (@slice_to unit b hi)
  | VBytes b, VRange (Some lo) (Some hi) false => of_res VBytes (@slice unit b lo hi)
  | VList l, VInt _ n => match nth_error l (N.to_nat n) with Some x => PVal x | None => PPanic end
  | VList l, VRange (Some lo) None false => if lo <=? len l then PVal (VList (skipn (N.to_nat lo) l)) else PPanic
  | _, _ => PStuck
  end.
(** declared order, so that a struct has one representation *)
Fixpoint order_fields (decl : list (string * ty)) (fs : list (string * value)) : option (list (string * value)) :=
  match decl with
  | [] => Some []
  | (x, _) :: d => match assoc x fs, order_fields d fs with Some v, Some l => Some ((x, v) :: l) | _, _ => None end
  end.
Definition field (v : value) (f : string) : option value :=
  match v with
  | VStruct _ fs => assoc f fs
  | VCtor _ _ [x] => if String.eqb f "0" then Some x else None
  | _ => None
  end.
Fixpoint replace (f : string) (x : value) (fs : list (string * value)) : option (list (string * value)) :=
  match fs with
  | [] => None
  | (g, y) :: fs' => if String.eqb f g then Some ((g, x) :: fs')
                     else match replace f x fs' with Some l => Some ((g, y) :: l) | None => None end
  end.
Definition set_field (v : value) (f : string) (x : value) : option value :=
  match v with
  | VStruct t fs => match replace f x fs with Some l => Some (VStruct t l) | None => None end
  | VCtor t c [_] => if String.eqb f "0" then Some (VCtor t c [x]) else None
  | _ => None
  end.

(** [{}] and [{:?}] *)
Definition show (debug : bool) (v : value) : option bytes :=
  match v with
  | VInt _ n => Some (bytes_of_string (dec n))
  | VStr b => if debug then None else Some b
  | VError b => if debug then None else Some b
  | VAddr _ b => Some b
  | VCtor _ c [] => if debug then Some (bytes_of_string c) else None
  | _ => None
  end.

(** [{}] of an enum with [#[error("…")]]: [{0}] and [{1}] are the fields *)
Fixpoint render (template : string) (args : list value) : option bytes :=
  match template with
  | EmptyString => Some []
  | String c r =>
      if code_of c =? 123 then
        match r with
        | String d (String e r') =>
            match (if code_of d =? 48 then nth_error args 0 else if code_of d =? 49 then nth_error args 1 else None),
                  code_of e =? 125, render r' args with
            | Some v, true, Some t => match show false v with Some b => Some (b ++ t) | None => None end
            | _, _, _ => None
            end
        | _ => None
        end
      else match render r args with Some t => Some (byte_of_ascii c :: t) | None => None end
  end.
Definition show_value (pg : program) (debug : bool) (v : value) : option bytes :=
  match v with
  | VCtor t c l =>
      if debug then show debug v
      else match lookup_text pg t c with Some s => render s l | None => show debug v end
  | _ => show debug v
  end.

(** the type of a value as far as the interpreter needs it: [typ as usize], declared types of vectors *)
Definition int_type (x : string) : option ity :=
  if String.eqb x "u8" then Some U8 else if String.eqb x "u16" then Some U16
  else if String.eqb x "u32" then Some U32 else if String.eqb x "u64" then Some U64
  else if String.eqb x "usize" then Some Usize else if String.eqb x "i32" then Some I32
  else if String.eqb x "i64" then Some I64 else None.
Definition int_ty (pg : program) (t : ty) : option ity :=
  match t with
  | TyName p _ =>
      match int_type (name_of p) with
      | Some i => Some i
      | None => match lookup_type pg (name_of p) with
                | Some (TyName q _) => int_type (name_of q)
                | _ => None
                end
      end
  | _ => None
  end.
Definition is_u8 (pg : program) (t : ty) : bool := match int_ty pg t with Some U8 => true | _ => false end.
(** does a declared type tell more about a value than the value itself? *)
Fixpoint informative (pg : program) (t : ty) : bool :=
  match t with
  | TyRef _ t' => informative pg t'
  | TyTuple ts => any (informative pg) ts
  | TySlice t' | TyArray t' _ => is_u8 pg t'
  | TyName p args =>
      match int_ty pg t with
      | Some _ => true
      | None =>
          match args with
          | [a] => if mem (name_of p) ["Vec"] then is_u8 pg a else informative pg a
          | a :: _ => informative pg a
          | [] => false
          end
      end
  end.
Fixpoint coerce (pg : program) (t : ty) (v : value) : value :=
  if informative pg t then
  match t with
  | TyRef _ t' => coerce pg t' v
  | TyTuple ts =>
      match v with
      | VTuple l => VTuple ((fix go (ts : list ty) (l : list value) {struct ts} :=
                               match ts, l with t :: ts', x :: l' => coerce pg t x :: go ts' l' | _, _ => l end) ts l)
      | _ => v
      end
  | TySlice _ | TyArray _ _ => as_bytes v
  | TyName p args =>
      match int_ty pg t with
      | Some i => match v with VInt Lit n => match i with I32 | I64 => VSint i (Z.of_N n) | _ => VInt i n end | _ => v end
      | None =>
          match args with
          | a :: _ =>
              if mem (name_of p) ["Vec"] then as_bytes v
              else match v with
                   | VCtor s c [x] => if mem c ["Some"; "Ok"] then VCtor s c [coerce pg a x] else v
                   | _ => v
                   end
          | [] => v
          end
      end
  end
  else v.
Definition coerce_opt (pg : program) (t : option ty) (v : value) : value :=
  match t with Some t => coerce pg t v | None => v end.
(** an assigned vector keeps the shape of the old one *)
Definition like (old new : value) : value := match old with VBytes _ => as_bytes new | _ => new end.

(** [e as t] *)
Definition discriminant (pg : program) (t c : string) : option N :=
  match lookup_enum pg t with
  | Some vs => match assoc c vs with Some (Some n) => Some n | _ => None end
  | None => None
  end.
(** every value of the first type is one of the second *)
Definition widens (a b : ity) : bool :=
  match a, b with
  | U8, (U16 | U32 | U64 | Usize) | U16, (U32 | U64 | Usize) | U32, (U64 | Usize) | U64, Usize | Usize, U64 => true
  | _, _ => false
  end.
Definition cast (pg : program) (t : ty) (v : value) : prim :=
  match int_ty pg t with
  | None => PStuck
  | Some i =>
      match v, modulus i with
      | VInt t n, Some m => PVal (VInt i (if widens t i then n else n mod m))
      | VSint _ z, Some m => PVal (VInt i (Z.to_N (z mod Z.of_N m)))
      | VInt U32 n, None => match i with I64 => PVal (VSint I64 (Z.of_N n)) | _ => PStuck end
      | VCtor t c [], Some m => match discriminant pg t c with Some n => PVal (VInt i (n mod m)) | None => PStuck end
      | _, _ => PStuck
      end
  end.

(** enums with discriminants: [T::try_from(n)], derived by num_enum *)
Fixpoint variant_of (n : N) (vs : list (string * option N)) : option string :=
  match vs with
  | [] => None
  | (c, Some m) :: vs' => if n =? m then Some c else variant_of n vs'
  | (_, None) :: vs' => variant_of n vs'
  end.

(** maps: lists of pairs, ordered by key; a [HashMap] shows its order only when it is iterated over *)
Fixpoint bytes_ltb (a b : bytes) : bool :=
  match a, b with
  | [], [] => false
  | [], _ :: _ => true
  | _ :: _, [] => false
  | x :: a', y :: b' => if b2n x <? b2n y then true else if b2n y <? b2n x then false else bytes_ltb a' b'
  end.
Fixpoint map_get (k : bytes) (l : list value) : option value :=
  match l with
  | [] => None
  | VTuple [VStr k'; x] :: l' => if bytes_eqb k k' then Some x else map_get k l'
  | _ :: l' => map_get k l'
  end.
Fixpoint map_insert (k : bytes) (x : value) (l : list value) : list value :=
  match l with
  | VTuple [VStr k'; y] :: l' =>
      if bytes_eqb k k' then VTuple [VStr k; x] :: l'
      else if bytes_ltb k k' then VTuple [VStr k; x] :: l
      else VTuple [VStr k'; y] :: map_insert k x l'
  | _ => VTuple [VStr k; x] :: l
  end.
Definition map_update (m : string) (v : value) (args : list value) : option (value * value) :=
  if String.eqb m "insert" then
    match v, args with
    | VList l, [VStr k; x] => Some (VList (map_insert k x l), match map_get k l with Some old => vsome old | None => vnone end)
    | _, _ => None
    end
  else None.
(** sets of texts *)
Fixpoint has_text (k : bytes) (l : list value) : bool :=
  match l with
  | [] => false
  | VStr k' :: l' => if bytes_eqb k k' then true else has_text k l'
  | _ :: l' => has_text k l'
  end.
Fixpoint keys_of (l : list value) : option (list value) :=
  match l with
  | [] => Some []
  | VTuple [k; _] :: l' => match keys_of l' with Some ks => Some (k :: ks) | None => None end
  | _ => None
  end.
(** [split] of a text at a character *)
Fixpoint split_text (sep : byte) (b piece : bytes) : list bytes :=
  match b with
  | [] => [piece]
  | x :: b' => if Byte.eqb x sep then piece :: split_text sep b' [] else split_text sep b' (piece ++ [x])
  end.
(** [join] of texts *)
Fixpoint join_with (sep : bytes) (l : list value) : option bytes :=
  match l with
  | [] => Some []
  | VStr b :: l' =>
      match l' with
      | [] => Some b
      | _ => match join_with sep l' with Some r => Some (b ++ sep ++ r) | None => None end
      end
  | _ => None
  end.
(** [parse] as an unsigned integer: digits, perhaps after a plus sign *)
Fixpoint parse_digits (acc : N) (b : bytes) : option N :=
  match b with
  | [] => Some acc
  | x :: b' => if (48 <=? b2n x) && (b2n x <=? 57) then parse_digits (10 * acc + (b2n x - 48)) b' else None
  end.
Definition parse_uint (max : N) (b : bytes) : option N :=
  let digits := match b with x :: b' => if Byte.eqb x x2b then b' else b | [] => b end in
  match digits with
  | [] => None
  | _ => match parse_digits 0 digits with Some n => if n <? max then Some n else None | None => None end
  end.
Definition parse_as (pg : program) (t : ty) (v : value) : prim :=
  match int_ty pg t with
  | None => PStuck
  | Some i =>
      match modulus i, v with
      | Some m, VStr b => match parse_uint m b with Some n => PVal (vok (VInt i n)) | None => PVal (verr (VError [])) end
      | _, _ => PStuck
      end
  end.
Definition unwrap_prim (p : prim) : prim :=
  match p with
  | PVal (VCtor "" "Ok" [x]) => PVal x
  | PVal (VCtor "" "Err" _) => PPanic
  | PVal _ => PStuck
  | p => p
  end.

(** the segments of an IPv6 address *)
Fixpoint segments (l : list value) : option bytes :=
  match l with
  | [] => Some []
  | VInt _ n :: l' => match segments l' with Some b => Some (u16_be n ++ b) | None => None end
  | _ => None
  end.

(** functions of the libraries; a path the crate imports is known by its last name *)
Definition library_fn (h : bytes -> option string) (p : list string) (targs : list ty) (args : list value) : option prim :=
  let x := name_of p in
  let t := match p with [t; _] => t | _ => "" end in
  if String.eqb t "Vec" then
    if mem x ["new"; "with_capacity"] then Some (PVal (VList [])) else None
  else if path_eqb p ["Arc"; "new"] then match args with [v] => Some (PVal v) | _ => Some PStuck end
  else if path_eqb p ["HashSet"; "new"] then Some (PVal (VList []))
  else if path_eqb p ["HashMap"; "new"] then Some (PVal (VList []))
  else if path_eqb p ["BTreeMap"; "new"] then Some (PVal (VList []))
  else if path_eqb p ["BufWriter"; "new"] then match args with [v] => Some (PVal v) | _ => Some PStuck end
  else if path_eqb p ["io"; "BufReader"; "new"] then match args with [v] => Some (PVal v) | _ => Some PStuck end
  else if path_eqb p ["Path"; "new"] then Some (PVal (VCtor "Path" "Path" args))
  else if path_eqb p ["Regex"; "new"] then Some (PVal (vok (VCtor "Regex" "Regex" args)))
  else if path_eqb p ["RwLock"; "new"] then match args with [VList []] => Some (PVal (VExt "lock")) | _ => Some PStuck end
  else if path_eqb p ["Default"; "default"] then Some (PVal (VInt Lit 0))  (* of an integer, or not looked at *)
  else if path_eqb p ["u32"; "to_be_bytes"] then
    match args with [VInt _ n] => Some (PVal (VBytes (u32_be n))) | _ => Some PStuck end
  else if path_eqb p ["u16"; "to_be_bytes"] then
    match args with [VInt _ n] => Some (PVal (VBytes (u16_be n))) | _ => Some PStuck end
  else if path_eqb p ["u32"; "from_be_bytes"] then
    match args with
    | [VBytes b] => match u32_from_be b with Some n => Some (PVal (VInt U32 n)) | None => Some PStuck end
    | _ => Some PStuck
    end
  else if path_eqb p ["u16"; "from_be_bytes"] then
    match args with
    | [VBytes b] => match u16_from_be b with Some n => Some (PVal (VInt U16 n)) | None => Some PStuck end
    | _ => Some PStuck
    end
  else if path_eqb p ["Ipv4Addr"; "from"] then
    match args with
    | [VBytes b] => Some (if len b =? 4 then PVal (VIpv4 b) else PStuck)
    | [VList l] => match bytes_of_values l with Some b => Some (if len b =? 4 then PVal (VIpv4 b) else PStuck) | None => Some PStuck end
    | _ => Some PStuck
    end
  else if path_eqb p ["Ipv4Addr"; "new"] then
    match bytes_of_values args with Some b => Some (if len b =? 4 then PVal (VIpv4 b) else PStuck) | None => Some PStuck end
  else if path_eqb p ["Ipv6Addr"; "new"] then
    match segments args with Some b => Some (if len b =? 16 then PVal (VIpv6 b) else PStuck) | None => Some PStuck end
  else if path_eqb p ["signal"; "ctrl_c"] then Some (PVal (VExt "shutdown"))   (* ready when a signal comes *)
  else if path_eqb p ["env_logger"; "init"] then Some (PVal VUnit)
  else if path_eqb p ["Duration"; "from_secs"] then
    match args with [VInt _ n] => Some (PVal (VInt U64 n)) | _ => Some PStuck end
  else if path_eqb p ["Ipv6Addr"; "from"] then
    match args with [VBytes b] => Some (if len b =? 16 then PVal (VIpv6 b) else PStuck) | _ => Some PStuck end
  else if path_eqb p ["String"; "from_utf8"] then
    match args with
    | [VBytes b] => match from_utf8 b with
                    | Ok s => Some (PVal (vok (VStr s)))
                    | Err e => Some (PVal (verr (VError (bytes_of_string (utf8_error_display e)))))
                    | _ => Some PStuck
                    end
    | _ => Some PStuck
    end
  else if String.eqb x "size_of" then
    match targs with
    | [TyName q _] => let q := name_of q in
        Some (if mem q ["u32"; "Ipv4Addr"] then PVal (VInt Usize 4)
              else if String.eqb q "u16" then PVal (VInt Usize 2)
              else if String.eqb q "Ipv6Addr" then PVal (VInt Usize 16) else PStuck)
    | _ => Some PStuck
    end
  else if String.eqb x "thread_rng" then Some (PVal (VExt "rng"))
  else if path_eqb p ["MessageDigest"; "md5"] then Some (PVal (VExt "md5"))
  else if path_eqb p ["compute"] then
    match args with [VBytes b] => Some (PVal (VBytes (md5 b))) | _ => Some PStuck end
  else if path_eqb p ["hash"] then
    match args with
    | [VExt "md5"; VBytes b] => match h b with
                                | None => Some (PVal (vok (VBytes (md5 b))))
                                | Some m => Some (PVal (verr (VError (bytes_of_string m))))
                                end
    | _ => Some PStuck
    end
  else None.

(** methods of library types; [None]: not one of them *)
Definition library_method (m : string) (v : value) (args : list value) : option prim :=
  match v, args with
  | VBytes b, [] =>
      if String.eqb m "len" then Some (PVal (VInt Usize (len b)))
      else if String.eqb m "is_empty" then Some (PVal (VBool (len b =? 0)))
      else if mem m ["to_vec"; "to_owned"; "clone"] then Some (PVal v)
      else if mem m ["iter"; "into_iter"] then Some (PVal (VList (u8_values b)))
      else None
  | VBytes b, [VInt _ n] =>
      if String.eqb m "chunks" then
        Some (if n =? 0 then PPanic else PVal (VList (map VBytes (chunks (N.to_nat n) b))))
      else if String.eqb m "split_at" then
        Some (if n <=? len b then PVal (VTuple [VBytes (firstn (N.to_nat n) b); VBytes (skipn (N.to_nat n) b)]) else PPanic)
      else None
  | VBytes b, [VBytes b'] => if String.eqb m "eq" then Some (PVal (VBool (bytes_eqb b b'))) else None
  | VStr b, [] =>
      if String.eqb m "len" then Some (PVal (VInt Usize (len b)))
      else if mem m ["to_owned"; "to_string"; "clone"; "as_str"] then Some (PVal v)
      else if String.eqb m "to_str" then Some (PVal (vsome v))
      else if String.eqb m "as_bytes" then Some (PVal (VBytes b))
      else if String.eqb m "parse" then
        (* as a [SocketAddr]; only the texts the crate and its examples use *)
        Some (if bytes_eqb b (bytes_of_string "0.0.0.0:0") then PVal (vok (VAddr true b))
              else if bytes_eqb b (bytes_of_string "127.0.0.1:1812") then PVal (vok (VAddr true b))
              else if bytes_eqb b (bytes_of_string "[::]:0") then PVal (vok (VAddr false b)) else PStuck)
      else None
  | VStr b, [VStr [sep]] =>
      if String.eqb m "split" then Some (PVal (VList (map VStr (split_text sep b [])))) else None
  | VList l, [] =>
      if String.eqb m "concat" then
        Some (match concat_values l with Some b => PVal (VBytes b) | None => PStuck end)
      else if mem m ["iter"; "into_iter"; "collect"; "clone"] then Some (PVal v)
      else if String.eqb m "next" then Some (PVal (match l with [] => vnone | x :: _ => vsome x end))
      else if String.eqb m "is_empty" then Some (PVal (VBool (match l with [] => true | _ :: _ => false end)))
      else if String.eqb m "len" then Some (PVal (VInt Usize (len l)))
      else if String.eqb m "keys" then Some (match keys_of l with Some ks => PVal (VList ks) | None => PStuck end)
      else None
  | VList l, [w] =>
      if String.eqb m "zip" then
        Some (match items_of w with Some l' => PVal (VList (zip_values l l')) | None => PStuck end)
      else
        match w with
        | VStr k =>
            if String.eqb m "get" then Some (PVal (match map_get k l with Some x => vsome x | None => vnone end))
            else if String.eqb m "contains" then Some (PVal (VBool (has_text k l)))
            else if String.eqb m "join" then Some (match join_with k l with Some b => PVal (VStr b) | None => PStuck end)
            else None
        | VInt _ n =>
            if String.eqb m "get" then
              Some (PVal (match nth_error l (N.to_nat n) with Some x => vsome x | None => vnone end))
            else None
        | _ => None
        end
  | VRange (Some lo) (Some hi) incl, [VInt _ n] =>
      if String.eqb m "contains" then
        Some (PVal (VBool ((lo <=? n) && (if incl then n <=? hi else n <? hi))))
      else None
  | VIpv4 b, [] | VIpv6 b, [] => if String.eqb m "octets" then Some (PVal (VBytes b)) else None
  | VDate z, [] => if String.eqb m "timestamp" then Some (PVal (VSint I64 z)) else None
  | VSint I32 z, [] =>
      if String.eqb m "to_be_bytes" then Some (PVal (VBytes (u32_be (Z.to_N (z mod 4294967296))))) else None
  | VExt "Utc", [VSint I64 z; VInt _ n] =>
      (* chrono: [Single] for the representable instants, [None] otherwise *)
      if String.eqb m "timestamp_opt" then
        Some (if negb (n =? 0) then PStuck
              else if ((-8334601228800 <=? z) && (z <=? 8210266876799))%Z then PVal (vsome (VDate z)) else PVal vnone)
      else None
  | VError b, [] => if String.eqb m "to_string" then Some (PVal (VStr b)) else None
  | VAddr v4 b, [] =>
      if String.eqb m "to_string" then Some (PVal (VStr b))
      else if String.eqb m "is_ipv4" then Some (PVal (VBool v4)) else None
  | VCtor "" c l, _ =>
      if mem m ["unwrap"; "expect"] then
        match l with
        | [x] => if mem c ["Ok"; "Some"] then Some (PVal x) else Some PPanic
        | _ => Some PPanic
        end
      else if String.eqb m "is_none" then Some (PVal (VBool (String.eqb c "None")))
      else if String.eqb m "is_some" then Some (PVal (VBool (String.eqb c "Some")))
      else if String.eqb m "is_ok" then Some (PVal (VBool (String.eqb c "Ok")))
      else if String.eqb m "is_err" then Some (PVal (VBool (String.eqb c "Err")))
      else if String.eqb m "unwrap_err" then
        match l with [x] => if String.eqb c "Err" then Some (PVal x) else Some PPanic | _ => Some PStuck end
      else if String.eqb m "err" then
        match l with [x] => Some (PVal (if String.eqb c "Err" then vsome x else vnone)) | _ => Some PStuck end
      else None
  | VCtor _ _ [], [] => if mem m ["to_owned"; "clone"] then Some (PVal v) else None
  | VStruct _ _, [] => if String.eqb m "clone" then Some (PVal v) else None
  | _, _ => None
  end.

(** ** Expressions *)
Record state := State { st_vars : list (string * value); st_world : world }.
Inductive out :=
| Norm (v : value) (s : state)     (* goes on with a value *)
| Retd (v : value) (s : state)     (* [return v] *)
| Cont (s : state)                 (* [continue] *)
| Wait (w : world)                 (* waits for an answer that does not come *)
| Panicked
| Stuck
| NoFuel.
(** the outcome of a call: its value, the parameters afterwards, the world *)
Inductive rout := RVal (v : value) (ps : list value) (w : world) | RWait (w : world) | RPanic | RStuck | RNoFuel.

Definition bindo (o : out) (k : value -> state -> out) : out := match o with Norm v s => k v s | _ => o end.
Notation "'eval:' v , s <- o ; k" := (bindo o (fun v s => k))
  (at level 200, v name, s name, o at level 100, k at level 200, right associativity).
Definition lift (p : prim) (s : state) : out :=
  match p with PVal v => Norm v s | PPanic => Panicked | PStuck => Stuck end.
Definition lift_opt (p : option value) (s : state) : out := match p with Some v => Norm v s | None => Stuck end.

Definition push_vars (bs : list (string * value)) (s : state) : state :=
  State (push_rev bs (st_vars s)) (st_world s).
(** back to the variables of an enclosing scope, with their present values *)
Definition pop_to (outer : state) (s : state) : state :=
  State (drop (minus (count (st_vars s)) (count (st_vars outer))) (st_vars s)) (st_world s).
Definition pop_out (outer : state) (o : out) : out :=
  match o with
  | Norm v s => Norm v (pop_to outer s)
  | Retd v s => Retd v (pop_to outer s)
  | Cont s => Cont (pop_to outer s)
  | _ => o
  end.
Fixpoint set_var (x : string) (v : value) (l : list (string * value)) : option (list (string * value)) :=
  match l with
  | [] => None
  | (y, w) :: l' => if String.eqb x y then Some ((y, like w v) :: l')
                    else match set_var x v l' with Some l'' => Some ((y, w) :: l'') | None => None end
  end.

(** patterns: [None] does not match, otherwise the variables, first to last *)
Inductive matched := MYes (bs : list (string * value)) | MNo | MStuck.
Definition matched_and (a b : matched) : matched :=
  match a with MYes l => match b with MYes l' => MYes (join_list l l') | m => m end | m => m end.
Fixpoint pmatch (p : pat) (v : value) {struct p} : matched :=
  let fix pmatches (ps : list pat) (l : list value) {struct ps} : matched :=
    match ps, l with
    | [], [] => MYes []
    | p :: ps', x :: l' => matched_and (pmatch p x) (pmatches ps' l')
    | _, _ => MStuck
    end in
  match p with
  | PWild => MYes []
  | PVar x => MYes [(x, v)]
  | PBool b =>
      match v with
      | VBool b' => if b' then if b then MYes [] else MNo else if b then MNo else MYes []
      | _ => MStuck
      end
  | PStr x => match v with VStr b => if bytes_eqb b (bytes_of_string x) then MYes [] else MNo | _ => MStuck end
  | PTuple ps => match v with VTuple l => pmatches ps l | _ => MStuck end
  | PCtor path _ ps =>
      match v with
      | VCtor t c l =>
          if match path with [t'; _] => String.eqb t' t | [_] => true | _ => false end then
            if String.eqb (name_of path) c then pmatches ps l else MNo
          else MStuck
      | _ => MStuck
      end
  | POr ps =>
      (fix first (ps : list pat) {struct ps} : matched :=
         match ps with
         | [] => MNo
         | p :: ps' => match pmatch p v with MNo => first ps' | m => m end
         end) ps
  end.

(** the array length [n] of [match e.try_into() { Ok(x) => … }]: from the pattern or from the use of [x] *)
Fixpoint array_use (x : string) (e : expr) {struct e} : option N :=
  let fix uses (es : list expr) : option N :=
    match es with [] => None | e :: es' => match array_use x e with Some n => Some n | None => uses es' end end in
  match e with
  | ECall (EPath p _) [EPath [y] _] =>
      if String.eqb x y then
        if path_eqb p ["u32"; "from_be_bytes"] then Some 4
        else if path_eqb p ["u16"; "from_be_bytes"] then Some 2 else None
      else None
  | ECall _ es => uses es
  | ETuple es => uses es
  | EBlock ss _ =>
      (fix go (ss : list stmt) : option N :=
         match ss with
         | [] => None
         | SLet _ _ e :: ss' => match array_use x e with Some n => Some n | None => go ss' end
         | _ :: ss' => go ss'
         end) ss
  | _ => None
  end.
Fixpoint array_length (vars : list (string * value)) (arms : list (pat * expr)) : option N :=
  match arms with
  | [] => None
  | (PCtor ["Ok"] targs [PVar x], e) :: _ =>
      match targs with
      | TyArray _ (TNum n) :: _ => Some n
      | TyArray _ (TId y) :: _ => match assoc y vars with Some (VInt _ n) => Some n | _ => None end
      | _ => array_use x e
      end
  | _ :: arms' => array_length vars arms'
  end.
Definition try_into (n : N) (v : value) : prim :=
  match v with
  | VBytes b => if len b =? n then PVal (vok v) else PVal (verr (VError (bytes_of_string try_from_slice_error)))
  | _ => PStuck
  end.

Fixpoint bind_params (ps : list (string * ty)) (pg : program) (args : list value) : option (list (string * value)) :=
  match ps, args with
  | [], [] => Some []
  | (x, t) :: ps', v :: args' =>
      match bind_params ps' pg args' with Some l => Some ((x, coerce pg t v) :: l) | None => None end
  | _, _ => None
  end.

(** loops and closures, given what evaluates their parts *)
Definition leave_closure (o : out) : out :=
  match o with Retd v s => Norm v s | o => o end.       (* [return] and [?] leave the closure only *)
Definition next_round (o : out) (k : state -> out) : out :=
  match o with Norm _ s | Cont s => k s | o => o end.
Definition apply_closure (ps : list pat) (body : state -> out) (args : list value) (s : state) : out :=
  match pmatch (PTuple ps) (VTuple args) with
  | MYes bs =>
      leave_closure (pop_out s (body (push_vars bs s)))
  | _ => Stuck
  end.
Fixpoint map_loop (f : value -> state -> out) (l : list value) (s : state) : out :=
  match l with
  | [] => Norm (VList []) s
  | x :: l' =>
      eval: y, s <- f x s;
      eval: ys, s <- map_loop f l' s;
      match ys with VList r => Norm (VList (y :: r)) s | _ => Stuck end
  end.
Fixpoint filter_loop (f : value -> state -> out) (l : list value) (s : state) : out :=
  match l with
  | [] => Norm (VList []) s
  | x :: l' =>
      eval: y, s <- f x s;
      eval: ys, s <- filter_loop f l' s;
      match y, ys with
      | VBool b, VList r => Norm (VList (if b then x :: r else r)) s
      | _, _ => Stuck
      end
  end.
Fixpoint find_loop (f : value -> state -> out) (l : list value) (s : state) : out :=
  match l with
  | [] => Norm vnone s
  | x :: l' =>
      eval: y, s <- f x s;
      match y with VBool true => Norm (vsome x) s | VBool false => find_loop f l' s | _ => Stuck end
  end.
Fixpoint fold_loop (f : value -> value -> state -> out) (l : list value) (acc : value) (s : state) : out :=
  match l with
  | [] => Norm acc s
  | x :: l' => eval: acc, s <- f acc x s; fold_loop f l' acc s
  end.
(** [split]: the pieces between the elements for which [f] holds *)
Fixpoint split_loop (f : value -> state -> out) (l : bytes) (piece : bytes) (s : state) : out :=
  match l with
  | [] => Norm (VList [VBytes piece]) s
  | x :: l' =>
      eval: y, s <- f (vu8 x) s;
      match y with
      | VBool true =>
          eval: ys, s <- split_loop f l' [] s;
          match ys with VList r => Norm (VList (VBytes piece :: r)) s | _ => Stuck end
      | VBool false => split_loop f l' (piece ++ [x]) s
      | _ => Stuck
      end
  end.
Fixpoint for_loop (body : value -> state -> out) (l : list value) (s : state) : out :=
  match l with
  | [] => Norm VUnit s
  | x :: l' =>
      next_round (body x s) (for_loop body l')
  end.
Fixpoint while_loop (fuel : nat) (c body : state -> out) (s : state) : out :=
  eval: b, s <- c s;
  match b with
  | VBool false => Norm VUnit s
  | VBool true =>
      match fuel with
      | O => NoFuel
      | S f => next_round (body s) (while_loop f c body)
      end
  | _ => Stuck
  end.
Definition for_body (p : pat) (body : state -> out) (x : value) (s : state) : out :=
  match pmatch p x with MYes bs => pop_out s (body (push_vars bs s)) | _ => Stuck end.

(** waiting for one of two things *)
Definition raced (o : out) (first : value -> state -> out) (second : world -> out) : out :=
  match o with
  | Norm v s => first v s
  | Wait w => second w
  | o => o
  end.

(** evaluation of several expressions in a row, given what evaluates one *)
Definition eval_opt (ev : state -> expr -> out) (s : state) (o : option expr) (k : option value -> state -> out) : out :=
  match o with None => k None s | Some e => eval: v, s <- ev s e; k (Some v) s end.
Definition eval_list (ev : state -> expr -> out) :=
  fix eval_list (s : state) (es : list expr) (k : list value -> state -> out) {struct es} : out :=
    match es with
    | [] => k [] s
    | e :: es' => eval: v, s <- ev s e; eval_list s es' (fun vs => k (v :: vs))
    end.
Definition eval_arms (ev : state -> expr -> out) :=
  fix eval_arms (s : state) (v : value) (arms : list (pat * expr)) {struct arms} : out :=
    match arms with
    | [] => Stuck
    | (p, e) :: arms' =>
        match pmatch p v with
        | MYes bs => pop_out s (ev (push_vars bs s) e)
        | MNo => eval_arms s v arms'
        | MStuck => Stuck
        end
    end.
(** [match m.get_mut(k) { Some(y) => e … }]: [y] is the value in the map, [write] puts it back *)
Definition no_exit (o : out) : out := match o with Retd _ _ | Cont _ => Stuck | o => o end.
Definition eval_borrow (ev : state -> expr -> out) (s : state) (x : value) (write : value -> value -> state -> out) :=
  fix eval_borrow (arms : list (pat * expr)) {struct arms} : out :=
    match arms with
    | [] => Stuck
    | (PCtor [c] _ [PVar y], e) :: arms' =>
        if String.eqb c "Some" then
          eval: r, s1 <- no_exit (ev (push_vars [(y, x)] s) e);
          match assoc y (st_vars s1) with Some x' => write x' r (pop_to s s1) | None => Stuck end
        else eval_borrow arms'
    | _ :: arms' => eval_borrow arms'
    end.
(** [x.parse().unwrap()]: the type comes from the field it is for *)
Definition is_parse (e : expr) : bool :=
  match e with EMethod (EMethod _ m [] []) n [] [] => if String.eqb m "parse" then String.eqb n "unwrap" else false | _ => false end.
Definition parse_field (pg : program) (t : option ty) (v : value) : prim :=
  match t with Some t => unwrap_prim (parse_as pg t v) | None => PStuck end.
Definition eval_fields (ev : state -> expr -> out) (pg : program) (t : string) (decl : list (string * ty)) :=
  fix eval_fields (s : state) (fs : list (string * expr)) (acc : list (string * value)) {struct fs} : out :=
    match fs with
    | [] => match order_fields decl acc with Some l => Norm (VStruct t l) s | None => Stuck end
    | (x, e) :: fs' =>
        eval: v, s <-
          (if is_parse e then
             match e with
             | EMethod (EMethod r _ _ _) _ _ _ => eval: v, s <- ev s r; lift (parse_field pg (assoc x decl) v) s
             | _ => Stuck
             end
           else ev s e);
        eval_fields s fs' ((x, coerce_opt pg (assoc x decl) v) :: acc)
    end.
(** [x.write().unwrap()]: a guard, released when the block is left *)
Definition is_guard (e : expr) : bool :=
  match e with EMethod (EMethod _ m _ []) _ _ [] => String.eqb m "write" | _ => false end.
Definition release (w : world) : world := World (w_random w) (Event "unlock" [] (Some VUnit) :: w_trace w).
Definition unlock (o : out) : out :=
  match o with
  | Norm v s => Norm v (State (st_vars s) (release (st_world s)))
  | Retd v s => Retd v (State (st_vars s) (release (st_world s)))
  | Cont s => Cont (State (st_vars s) (release (st_world s)))
  | o => o
  end.
Definition guarded (e : expr) (o : out) : out := if is_guard e then unlock o else o.
Definition eval_stmts (ev : state -> expr -> out) (pg : program) (e : option expr) :=
  fix eval_stmts (s : state) (ss : list stmt) {struct ss} : out :=
    match ss with
    | [] => match e with Some e => ev s e | None => Norm VUnit s end
    | SLet p t e :: ss' =>
        eval: v, s <- ev s e;
        match pmatch p (coerce_opt pg t v) with
        | MYes bs => guarded e (eval_stmts (push_vars bs s) ss')
        | _ => Stuck
        end
    | SConst x t e :: ss' =>
        eval: v, s <- ev s e; eval_stmts (push_vars [(x, coerce pg t v)] s) ss'
    | SExpr e :: ss' => eval: v, s <- ev s e; eval_stmts s ss'
    end.
Fixpoint join_texts (vs : list value) : option bytes :=
  match vs with
  | [] => Some []
  | VStr b :: vs' => match join_texts vs' with Some r => Some (b ++ r) | None => None end
  | _ => None
  end.

Definition after_call (r : rout) (k : value -> list value -> world -> out) : out :=
  match r with
  | RVal v ps w => k v ps w
  | RWait w => Wait w
  | RPanic => Panicked
  | RStuck => Stuck
  | RNoFuel => NoFuel
  end.

Section Eval.
  Context (C : cx) (fuel : nat) (self : string)
          (call : string -> string -> list value -> world -> rout).
  Let pg := cx_program C.

  (** a place: a variable, or a field of one; [&x], [&mut x] and [*x] are [x] *)
  Fixpoint write_place (p : expr) (v : value) (s : state) {struct p} : option state :=
    match p with
    | EPath [x] _ => match set_var x v (st_vars s) with Some l => Some (State l (st_world s)) | None => None end
    | EField e f =>
        match (fix read (p : expr) : option value :=
                 match p with
                 | EPath [x] _ => assoc x (st_vars s)
                 | EField e f => match read e with Some w => field w f | None => None end
                 | EUn _ e => read e
                 | _ => None
                 end) e with
        | Some w => match field w f with
                    | Some old => match set_field w f (like old v) with
                                  | Some w' => write_place e w' s
                                  | None => None
                                  end
                    | None => None
                    end
        | None => None
        end
    | EUn op e => if mem op ["&"; "&mut"; "*"] then write_place e v s else None
    | _ => None
    end.
  Definition store (p : expr) (v : value) (result : value) (s : state) : out :=
    match write_place p v s with Some s' => Norm result s' | None => Stuck end.
  (** after a call: the parameters declared [&mut] go back to where they came from *)
  Fixpoint write_back (ps : list (string * ty)) (args : list expr) (vs : list value) (s : state) : option state :=
    match ps, args, vs with
    | (_, TyRef true _) :: ps', e :: args', v :: vs' =>
        match write_place e v s with Some s' => write_back ps' args' vs' s' | None => None end
    | _ :: ps', _ :: args', _ :: vs' => write_back ps' args' vs' s
    | [], [], [] => Some s
    | _, _, _ => None
    end.

  (** the type a path names *)
  Definition type_name (t : string) : string := if String.eqb t "Self" then self else t.
  Definition is_variant (t c : string) : bool :=
    match lookup_enum pg t with Some vs => match assoc c vs with Some _ => true | None => false end | None => false end.

  Definition call_fn (t x : string) (args : list expr) (vs : list value) (s : state) : out :=
    match lookup_fn pg t x with
    | None => Stuck
    | Some f =>
        after_call (call t x vs (st_world s)) (fun v ps w =>
          match write_back (f_params f) args ps (State (st_vars s) w) with
          | Some s' => Norm v s'
          | None => Stuck
          end)
    end.
  Definition call_method (t x : string) (e : expr) (v : value) (args : list expr) (vs : list value) (s : state) : out :=
    match lookup_fn pg t x with
    | None => Stuck
    | Some f =>
        after_call (call t x (v :: vs) (st_world s)) (fun r ps w =>
          match ps with
          | [] => Stuck
          | v' :: ps =>
              match write_back (f_params f) args ps (State (st_vars s) w) with
              | Some s' => match f_self f with
                           | Some true => store e v' r s'
                           | Some false => Norm r s'
                           | None => Stuck
                           end
              | None => Stuck
              end
          end)
    end.
  (** ask the environment *)
  Definition ask (op : string) (args : list value) (s : state) : out :=
    let w := st_world s in
    let r := cx_answer C (w_trace w) op args in
    let w' := World (w_random w) (Event op args r :: w_trace w) in
    match r with Some v => Norm v (State (st_vars s) w') | None => Wait w' end.
  (** [assert!(a)], [assert_eq!(a, b)] *)
  Definition asserted (vs : list value) (s : state) : out :=
    match vs with
    | [VBool b] => if b then Norm VUnit s else Panicked
    | [a; b] => match same a b with Some true => Norm VUnit s | Some false => Panicked | None => Stuck end
    | _ => Stuck
    end.
  (** something done to the environment that has no answer *)
  Definition tell (op : string) (args : list value) (s : state) : out :=
    let w := st_world s in
    Norm VUnit (State (st_vars s) (World (w_random w) (Event op args (Some VUnit) :: w_trace w))).
  (** [recv(&mut buf)] and [recv_from(&mut buf)]: the answer is the datagram; what does not fit is lost *)
  Definition receive (op : string) (args : list expr) (vs : list value) (s : state) : out :=
    match args, vs with
    | [a], [b] =>
        match to_bytes b with
        | None => Stuck
        | Some old =>
            eval: r, s <- ask op [] s;
            let fill (d : bytes) (k : value -> value) :=
              let n := N.min (len old) (len d) in
              store a (VBytes (firstn (N.to_nat n) d ++ skipn (N.to_nat n) old)) (vok (k (VInt Usize n))) s in
            match r with
            | VCtor "" "Ok" [VBytes d] => fill d (fun n => n)
            | VCtor "" "Ok" [VTuple [VBytes d; from]] => fill d (fun n => VTuple [n; from])
            | VCtor "" "Err" [e] => Norm r s
            | _ => Stuck
            end
        end
    | _, _ => Stuck
    end.
  (** [timeout(d, …)]: the deadline is something to wait for, too *)
  Definition timed (d : value) (s : state) (o : out) : out :=
    match o with
    | Norm v s => Norm (vok v) s
    | Wait w => eval: _, s <- ask "timeout" [d] (State (st_vars s) w); Norm (verr (VError [])) s
    | o => o
    end.
  (** a library function that depends on nothing but its arguments *)
  Definition consult (op : string) (args : list value) (s : state) : out :=
    match cx_answer C [] op args with Some v => Norm v s | None => Stuck end.
  Definition foreign (m : string) (v : value) (vs : list value) (s : state) : out :=
    match v with
    | VStr _ => if mem m ["to_pascal_case"; "to_snake_case"; "to_screaming_snake_case"] then consult m (v :: vs) s else Stuck
    | VCtor t _ [x] =>
        if String.eqb t "Regex" then consult ("Regex::" ++ m) (x :: vs) s
        else if String.eqb t "Path" then
          if mem m ["exists"; "is_file"] then ask ("Path::" ++ m) (x :: vs) s else consult ("Path::" ++ m) (x :: vs) s
        else if String.eqb t "File" then ask ("File::" ++ m) (x :: vs) s
        else Stuck
    | VStruct t _ => if String.eqb t "Matches" then ask ("Matches::" ++ m) vs s else Stuck
    | _ => Stuck
    end.
  Definition typed_parse (m : string) (targs : list ty) (v : value) : option prim :=
    if String.eqb m "parse" then match targs with [t] => Some (parse_as pg t v) | _ => None end else None.
  Definition draw (s : state) : out :=
    let w := st_world s in
    Norm (vu8 (cx_random C (w_random w))) (State (st_vars s) (World (S (w_random w)) (w_trace w))).

  Definition type_of (v : value) : string :=
    match v with VStruct t _ => t | VCtor t _ _ => t | _ => "" end.
  (** a method call with evaluated receiver and arguments, none of them a closure *)
  Definition method (e : expr) (m : string) (targs : list ty) (args : list expr) (v : value) (vs : list value) (s : state) : out :=
    match v with
    | VExt x =>
        if String.eqb (x ++ "." ++ m) "rng.gen" then draw s
        else if String.eqb x "Utc" then
          match library_method m v vs with Some p => lift p s | None => Stuck end
        else if mem m ["clone"; "borrow"] then Norm v s
        else if mem m ["recv"; "recv_from"] then receive (x ++ "." ++ m) args vs s
        else ask (x ++ "." ++ m) vs s
    | _ =>
        match lookup_fn pg (type_of v) m with
        | Some _ => if String.eqb (type_of v) "" then Stuck else call_method (type_of v) m e v args vs s
        | None =>
            match vs with
            | [x] =>
                if String.eqb m "push" then
                  match vec_push v x with Some v' => store e v' VUnit s | None => Stuck end
                else if String.eqb m "extend" then
                  match vec_extend v x with Some v' => store e v' VUnit s | None => Stuck end
                else match library_method m v vs with Some p => lift p s | None => foreign m v vs s end
            | [VRange (Some lo) (Some hi) false; x] =>
                if String.eqb m "splice" then
                  match v, to_bytes x with
                  | VBytes b, Some n =>
                      match @splice unit b lo hi n with Ok b' => store e (VBytes b') VUnit s | Panic => Panicked | _ => Stuck end
                  | _, _ => Stuck
                  end
                else Stuck
            | _ =>
                match map_update m v vs with
                | Some (v', r) => store e v' r s
                | None =>
                    if String.eqb m "sort" then eval: r, s <- consult "sort" [v] s; store e r VUnit s
                    else match typed_parse m targs v with
                         | Some p => lift p s
                         | None =>
                             match library_method m v vs with
                             | Some p => eval: r, s <- lift p s; Norm (match targs with [t] => coerce pg t r | _ => r end) s
                             | None => foreign m v vs s
                             end
                         end
                end
            end
        end
    end.

  (** a method call whose first or second argument is a closure [f] *)
  Definition higher_order (e : expr) (m : string) (v : value) (first : list value) (f : list value -> state -> out) (s : state) : out :=
    let f1 x := f [x] in
    match v, first with
    | VList l, [] =>
        if String.eqb m "map" then map_loop f1 l s
        else if String.eqb m "filter" then filter_loop f1 l s
        else if String.eqb m "find" then find_loop f1 l s
        else if String.eqb m "retain" then eval: r, s <- filter_loop f1 l s; store e r VUnit s
        else Stuck
    | VList l, [d] => if String.eqb m "fold" then fold_loop (fun acc x => f [acc; x]) l d s else Stuck
    | VRange _ _ _, [] =>
        if String.eqb m "map" then match items_of v with Some l => map_loop f1 l s | None => Stuck end else Stuck
    | VBytes b, [] => if String.eqb m "split" then split_loop f1 b [] s else Stuck
    | VCtor "" "Some" [x], [] => if String.eqb m "map" then eval: y, s <- f [x] s; Norm (vsome y) s else Stuck
    | VCtor "" "None" [], [] => if String.eqb m "map" then Norm vnone s else Stuck
    | VCtor "" "Some" [x], [_] => if String.eqb m "map_or" then f [x] s else Stuck
    | VCtor "" "None" [], [d] => if String.eqb m "map_or" then Norm d s else Stuck
    | VCtor "" "Ok" [x], [] => if String.eqb m "unwrap_or_else" then Norm x s else Stuck
    | VCtor "" "Err" [x], [] => if String.eqb m "unwrap_or_else" then f [x] s else Stuck
    | _, _ => Stuck
    end.

  Definition call_path (p : list string) (targs : list ty) (args : list expr) (vs : list value) (s : state) : out :=
    match p with
    | [x] =>
        if mem x ["Ok"; "Err"; "Some"] then
          match vs with [v] => Norm (VCtor "" x [v]) s | _ => Stuck end
        else match lookup_struct pg x with
             | Some _ => Norm (VCtor x x vs) s
             | None =>
                 match library_fn (cx_hash_error C) p targs vs with
                 | Some r => lift r s
                 | None => if String.eqb x "sleep" then ask x vs s else call_fn "" x args vs s
                 end
             end
    | [t; x] =>
        let t := type_name t in
        if is_variant t x then Norm (VCtor t x vs) s
        else match lookup_fn pg t x with
             | Some _ => call_fn t x args vs s
             | None =>
                 match library_fn (cx_hash_error C) p targs vs with
                 | Some r => lift r s
                 | None =>
                     match lookup_enum pg t, vs with
                     | Some variants, [VInt _ n] =>
                         if String.eqb x "try_from" then
                           Norm (match variant_of n variants with
                                 | Some c => vok (VCtor t c [])
                                 | None => verr (VError [])
                                 end) s
                         else Stuck
                     | _, _ => if path_eqb p ["UdpSocket"; "bind"] then ask "UdpSocket::bind" vs s
                               else if path_eqb p ["File"; "open"] then ask "File::open" vs s
                               else if path_eqb p ["File"; "create"] then ask "File::create" vs s
                               else if path_eqb p ["Options"; "new"] then ask "Options::new" vs s
                               else if path_eqb p ["env"; "args"] then ask "env::args" vs s
                               else if path_eqb p ["process"; "exit"] then ask "process::exit" vs s
                               else if path_eqb p ["Utc"; "now"] then ask "Utc::now" vs s
                               else if path_eqb p ["oneshot"; "channel"] then Norm (VTuple [VExt "sender"; VExt "receiver"]) s
                               else Stuck
                     end
                 end
             end
    | _ => match library_fn (cx_hash_error C) p targs vs with Some r => lift r s | None => Stuck end
    end.
  Definition read_path (p : list string) (s : state) : out :=
    match p with
    | [x] =>
        match assoc x (st_vars s) with
        | Some v => Norm v s
        | None => if String.eqb x "None" then Norm vnone s
                  else if String.eqb x "Utc" then Norm (VExt "Utc") s
                  else call_fn "" x [] [] s
        end
    | [t; x] =>
        let t := type_name t in
        if is_variant t x then Norm (VCtor t x []) s else call_fn t x [] [] s
    | _ => Stuck
    end.
  Definition bound_of (v : option value) : option (option N) :=
    match v with None => Some None | Some (VInt _ n) => Some (Some n) | _ => None end.

  (** one step: [ev] evaluates the parts *)
  Definition eval_step (ev : state -> expr -> out) (s : state) (e : expr) : out :=
    match e with
    | ENum n => Norm (VInt Lit n) s
    | EStr x => Norm (VStr (bytes_of_string x)) s
    | EBool b => Norm (VBool b) s
    | EPath p _ => read_path p s
    | ECall f args =>
        match f with
        | EPath p targs =>
            match args with
            | [EAsync (EBlock [SExpr b] None)] =>
                (* the task runs on its own, with the values the variables have now *)
                if path_eqb p ["tokio"; "spawn"] then
                  match b with
                  | EAwait (ECall (EPath q _) es) => eval_list ev s es (fun vs s => tell ("spawn " ++ name_of q) vs s)
                  | EMethod (EAwait (EMethod e m [] es)) _ [] [] =>
                      (* [e.m(…).await.unwrap()]; the value is the task, to be awaited *)
                      eval: v, s <- ev s e;
                      eval_list ev s es (fun vs s =>
                        eval: _, s <- tell ("spawn " ++ type_of v ++ "::" ++ m) (v :: vs) s; Norm (VExt "task") s)
                  | _ => Stuck
                  end
                else Stuck
            | [d; e] =>
                if path_eqb p ["timeout"] then
                  eval: v, s <- ev s d;
                  timed v s (ev s e)
                else eval_list ev s args (fun vs s => call_path p targs args vs s)
            | _ => eval_list ev s args (fun vs s => call_path p targs args vs s)
            end
        | _ => Stuck
        end
    | EMethod e m targs args =>
        eval: v, s <- ev s e;
        match args with
        | [EClosure ps body] => higher_order e m v [] (apply_closure ps (fun s => ev s body)) s
        | [a; EClosure ps body] =>
            eval: w, s <- ev s a; higher_order e m v [w] (apply_closure ps (fun s => ev s body)) s
        | [EPath [t; x] ts] =>
            if String.eqb m "map" then higher_order e m v [] (fun vs s => call_path [t; x] ts [] vs s) s
            else eval_list ev s args (fun vs s => method e m targs args v vs s)
        | _ => eval_list ev s args (fun vs s => method e m targs args v vs s)
        end
    | EField e f => eval: v, s <- ev s e; lift_opt (field v f) s
    | EIndex e i => eval: v, s <- ev s e; eval: w, s <- ev s i; lift (index_value v w) s
    | ERange lo hi incl =>
        eval_opt ev s lo (fun a s => eval_opt ev s hi (fun b s =>
          match bound_of a, bound_of b with
          | Some a, Some b => Norm (VRange a b incl) s
          | _, _ => Stuck
          end))
    | EUn op e =>
        eval: v, s <- ev s e;
        if mem op ["&"; "&mut"; "*"] then Norm v s
        else if String.eqb op "!" then match v with VBool b => Norm (VBool (negb b)) s | _ => Stuck end
        else Stuck
    | EBin op a b =>
        if String.eqb op "&&" then
          eval: v, s <- ev s a;
          match v with VBool true => ev s b | VBool false => Norm v s | _ => Stuck end
        else if String.eqb op "||" then
          eval: v, s <- ev s a;
          match v with VBool true => Norm v s | VBool false => ev s b | _ => Stuck end
        else
          eval: v, s <- ev s a; eval: w, s <- ev s b; lift (bin_op (cx_profile C) op v w) s
    | ECast e t => eval: v, s <- ev s e; lift (cast pg t v) s
    | ETry e =>
        eval: v, s <- ev s e;
        match v with
        | VCtor "" c [x] => if mem c ["Ok"; "Some"] then Norm x s
                            else if String.eqb c "Err" then Retd v s else Stuck
        | _ => Stuck
        end
    | EAwait e => ev s e
    | ETuple es => eval_list ev s es (fun vs s => Norm (VTuple vs) s)
    | EList es => eval_list ev s es (fun vs s => Norm (VList vs) s)
    | ERepeat e n =>
        eval: v, s <- ev s e; eval: w, s <- ev s n;
        match w with VInt _ n => Norm (VList (repeat v (N.to_nat n))) s | _ => Stuck end
    | EFormat ps =>
        eval_list ev s ps (fun vs s =>
          match join_texts vs with
          | Some b => Norm (VStr b) s
          | None => Stuck
          end)
    | EShow debug e => eval: v, s <- ev s e; lift_opt (option_map VStr (show_value pg debug v)) s
    | EMacro x es =>
        if mem x ["error"; "info"; "debug"] then Norm VUnit s
        else if mem x ["panic"; "unimplemented"] then Panicked
        else if mem x ["assert"; "assert_eq"] then eval_list ev s es (fun vs s => asserted vs s)
        else eval_list ev s es (fun vs s => ask (x ++ "!") vs s)
    | EStruct p fs =>
        let t := type_name (name_of p) in
        match lookup_struct pg t with
        | None => Stuck
        | Some decl =>
            eval_fields ev pg t decl s fs []
        end
    | EIf c a b =>
        eval: v, s <- ev s c;
        match v with
        | VBool true => ev s a
        | VBool false => match b with Some b => ev s b | None => Norm VUnit s end
        | _ => Stuck
        end
    | EIfLet p e a b =>
        eval: v, s <- ev s e;
        match pmatch p v with
        | MYes bs => pop_out s (ev (push_vars bs s) a)
        | MNo => match b with Some b => ev s b | None => Norm VUnit s end
        | MStuck => Stuck
        end
    | EMatch e arms =>
        match e with
        | EMethod e "try_into" [] [] =>
            eval: v, s <- ev s e;
            match array_length (st_vars s) arms with
            | None => Stuck
            | Some n => eval: w, s <- lift (try_into n v) s; eval_arms ev s w arms
            end
        | EMethod m0 "get_mut" [] [k] =>
            eval: v, s <- ev s m0; eval: w, s <- ev s k;
            match v, w with
            | VList l, VStr k =>
                match map_get k l with
                | Some x => eval_borrow ev s x (fun x' r s => store m0 (VList (map_insert k x' l)) r s) arms
                | None => eval_arms ev s vnone arms
                end
            | _, _ => Stuck
            end
        | _ => eval: v, s <- ev s e; eval_arms ev s v arms
        end
    | EBlock ss e =>
        pop_out s (eval_stmts ev pg e s ss)
    | EClosure _ _ => Stuck
    | EReturn o => eval_opt ev s o (fun v s => Retd (match v with Some v => v | None => VUnit end) s)
    | EContinue => Cont s
    | EAssign p e => eval: v, s <- ev s e; store p v VUnit s
    | EOpAssign op p e =>
        eval: v, s <- ev s p; eval: w, s <- ev s e;
        eval: r, s <- lift (bin_op (cx_profile C) op v w) s; store p r VUnit s
    | EWhile c b => while_loop fuel (fun s => ev s c) (fun s => ev s b) s
    | EFor p e b =>
        eval: v, s <- ev s e;
        match items_of v with
        | Some l => for_loop (for_body p (fun s => ev s b)) l s
        | None => Stuck
        end
    | ELoop b => while_loop fuel (fun s => Norm (VBool true) s) (fun s => ev s b) s
    | EAsync _ => Stuck
    | ESelect arms =>
        (* the first branch goes on until it is through or has to wait when the other is ready *)
        match arms with
        | [(p, e, b); (PWild, e', b')] =>
            raced (ev s e)
              (fun v s => match pmatch p v with MYes bs => pop_out s (ev (push_vars bs s) b) | _ => Stuck end)
              (fun w =>
                 eval: v, s <- ev (State (st_vars s) w) e';
                 match v with VExt x => eval: _, s <- ask (x ++ ".await") [] s; ev s b' | _ => Stuck end)
        | _ => Stuck
        end
    end.
  Fixpoint eval (s : state) (e : expr) {struct e} : out := eval_step eval s e.
End Eval.

(** ** Calls
    The bound limits the depth of calls and the iterations of [while]. *)
Fixpoint values_rev (l : list (string * value)) (acc : list value) : list value :=
  match l with [] => acc | (_, v) :: l' => values_rev l' (v :: acc) end.
Definition param_values (n : nat) (s : state) : list value :=
  values_rev (drop (minus (count (st_vars s)) n) (st_vars s)) [].
Definition finish (pg : program) (n : nat) (ret : option ty) (o : out) : rout :=
  match o with
  | Norm v s | Retd v s => RVal (coerce_opt pg ret v) (param_values n s) (st_world s)
  | Wait w => RWait w
  | Panicked => RPanic
  | NoFuel => RNoFuel
  | _ => RStuck
  end.
Fixpoint run (C : cx) (fuel : nat) (t x : string) (args : list value) (w : world) {struct fuel} : rout :=
  match fuel with
  | O => RNoFuel
  | S n =>
      match lookup_fn (cx_program C) t x with
      | None => RStuck
      | Some f =>
          let ps := match f_self f with Some _ => ("self", TyName ["Self"] []) :: f_params f | None => f_params f end in
          match bind_params ps (cx_program C) args with
          | None => RStuck
          | Some bs =>
              finish (cx_program C) (count bs) (f_ret f)
                     (eval C n t (run C n) (push_vars bs (State [] w)) (f_body f))
          end
      end
  end.
