(** * Independent specification of Rust source text (C69, C70)

    How a text is divided into tokens, and when two texts are the same code.  A token is the text it
    consists of: a word (letters, digits, underscore), a comment up to the end of its line
    without trailing blanks, a string literal with its quotes, or a single other character. *)
From Coq Require Import String List NArith Bool.
From Verif Require Import Prelude Accessors CodeGen.
Import ListNotations.
Local Open Scope N_scope.
Local Open Scope list_scope.

Definition token := text.
Definition tok (s : string) : token := text_of_string s.

Definition word_char (c : N) : bool :=
  ((97 <=? c) && (c <=? 122)) || ((65 <=? c) && (c <=? 90)) || ((48 <=? c) && (c <=? 57)) || (c =? 95)
  || (128 <=? c).
Definition blank_char (c : N) : bool := (c =? 32) || (c =? 10) || (c =? 9) || (c =? 13).

(** what has been read of the current token, newest character first *)
Inductive mode := Between | InWord (w : text) | AfterSlash | InComment (c : text) | InString (s : text) (escaped : bool).
Fixpoint trim_left (t : text) : text :=
  match t with [] => [] | c :: t' => if blank_char c then trim_left t' else t end.
(** the token that ends when the text ends here *)
Definition finish_token (m : mode) : list token :=
  match m with
  | Between => []
  | InWord w => [rev w]
  | AfterSlash => [[47]]
  | InComment c => [rev (trim_left c)]
  | InString s _ => [rev s]
  end.
(** a character outside words, comments and literals *)
Definition begin_token (c : N) : list token * mode :=
  if blank_char c then ([], Between)
  else if word_char c then ([], InWord [c])
  else if c =? 47 then ([], AfterSlash)
  else if c =? 34 then ([], InString [c] false)
  else ([[c]], Between).
(** the tokens that are complete when [c] has been read, and what is begun *)
Definition read_char (m : mode) (c : N) : list token * mode :=
  match m with
  | Between => begin_token c
  | InWord w =>
      if word_char c then ([], InWord (c :: w))
      else let '(ts, m') := begin_token c in (rev w :: ts, m')
  | AfterSlash =>
      if c =? 47 then ([], InComment [47; 47])
      else let '(ts, m') := begin_token c in ([47] :: ts, m')
  | InComment k => if c =? 10 then ([rev (trim_left k)], Between) else ([], InComment (c :: k))
  | InString s escaped =>
      if escaped then ([], InString (c :: s) false)
      else if c =? 92 then ([], InString (c :: s) true)
      else if c =? 34 then ([rev (c :: s)], Between)
      else ([], InString (c :: s) false)
  end.
Fixpoint tokens_from (m : mode) (t : text) : list token :=
  match t with
  | [] => finish_token m
  | c :: t' => let '(ts, m') := read_char m c in ts ++ tokens_from m' t'
  end.
Definition tokens (t : text) : list token := tokens_from Between t.

(** A formatter may add or drop a comma before a closing bracket. *)
Definition closing (t : token) : bool := text_eqb t (tok ")") || text_eqb t (tok "]") || text_eqb t (tok "}").
Fixpoint drop_final_commas (ts : list token) : list token :=
  match ts with
  | [] => []
  | t :: ts' =>
      match ts' with
      | t' :: _ => if text_eqb t (tok ",") && closing t' then drop_final_commas ts' else t :: drop_final_commas ts'
      | [] => [t]
      end
  end.
(** It also sorts the imports, and unused ones are removed; imports run from [use] to the
    semicolon. *)
Fixpoint without_imports (inside : bool) (ts : list token) : list token :=
  match ts with
  | [] => []
  | t :: ts' =>
      if inside then without_imports (negb (text_eqb t (tok ";"))) ts'
      else if text_eqb t (tok "use") then without_imports true ts'
      else t :: without_imports false ts'
  end.
Definition code (t : text) : list token := drop_final_commas (without_imports false (tokens t)).
(** Two texts are the same code. *)
Definition same_code (a b : text) : Prop := code a = code b.

(** The imported paths, [use a::{b, c};] being [a::b] and [a::c]; [prefix] is the path so far and
    [names] that inside the braces, newest token first. *)
Fixpoint imports_from (state : option (list token * option (list token))) (ts : list token) : list (list token) :=
  match ts with
  | [] => []
  | t :: ts' =>
      match state with
      | None => imports_from (if text_eqb t (tok "use") then Some ([], None) else None) ts'
      | Some (prefix, None) =>
          if text_eqb t (tok ";") then rev prefix :: imports_from None ts'
          else if text_eqb t (tok "{") then imports_from (Some (prefix, Some [])) ts'
          else imports_from (Some (t :: prefix, None)) ts'
      | Some (prefix, Some name) =>
          if text_eqb t (tok ",") || text_eqb t (tok "}") then
            rev (name ++ prefix) :: imports_from (Some (prefix, Some [])) ts'
          else if text_eqb t (tok ";") then imports_from None ts'
          else imports_from (Some (prefix, Some (t :: name))) ts'
      end
  end.
Definition imports (t : text) : list (list token) := imports_from None (tokens t).

(** The items of a text: each runs from [fn], [const] or [type] to the next brace or semicolon, so that it is
    the declaration without the body of the function. *)
Definition item_keyword (t : token) : bool := text_eqb t (tok "fn") || text_eqb t (tok "const") || text_eqb t (tok "type").
Definition item_end (t : token) : bool := text_eqb t (tok "{") || text_eqb t (tok ";").
Fixpoint items_from (item : option (list token)) (ts : list token) : list (list token) :=
  match ts with
  | [] => []
  | t :: ts' =>
      match item with
      | None => items_from (if item_keyword t then Some [t] else None) ts'
      | Some i => if item_end t then rev (t :: i) :: items_from None ts' else items_from (Some (t :: i)) ts'
      end
  end.
Definition items (t : text) : list (list token) := items_from None (tokens t).
(** those that begin with the given keyword *)
Definition items_of (keyword : string) (t : text) : list (list token) :=
  filter (fun i => match i with k :: _ => text_eqb k (tok keyword) | [] => false end) (items t).

(** ** Identifiers made from names (C70)

    Only ASCII names. *)
Definition ascii_text (n : text) : Prop := Forall (fun c => c < 128) n.
Definition lower (c : N) : bool := (97 <=? c) && (c <=? 122).
Definition upper (c : N) : bool := (65 <=? c) && (c <=? 90).
Definition digit_char (c : N) : bool := (48 <=? c) && (c <=? 57).
Definition alnum (c : N) : bool := lower c || upper c || digit_char c.
Definition small (c : N) : N := if upper c then c + 32 else c.
Definition capital (c : N) : N := if lower c then c - 32 else c.
(** The letters and digits of the name, each converted; an underscore comes before one that is not
    the first ([seen]) if it does not directly follow another ([prev]), or if it is not a small letter and
    the character before or after it is. *)
Fixpoint underscored (conv : N -> N) (seen : bool) (prev : N) (n : text) : text :=
  match n with
  | [] => []
  | c :: n' =>
      if alnum c then
        (if seen && (negb (alnum prev)
                     || negb (lower c) && (lower prev || match n' with x :: _ => lower x | [] => false end))
         then [95] else [])
        ++ conv c :: underscored conv true c n'
      else underscored conv seen c n'
  end.

(** A legal Rust identifier. *)
Definition rust_keywords : list text := map text_of_string
  ["as"; "break"; "const"; "continue"; "crate"; "else"; "enum"; "extern"; "false"; "fn"; "for"; "if"; "impl"; "in";
   "let"; "loop"; "match"; "mod"; "move"; "mut"; "pub"; "ref"; "return"; "self"; "Self"; "static"; "struct"; "super";
   "trait"; "true"; "type"; "unsafe"; "use"; "where"; "while"; "async"; "await"; "dyn"; "abstract"; "become"; "box";
   "do"; "final"; "macro"; "override"; "priv"; "typeof"; "unsized"; "virtual"; "yield"; "try"]%string.
Definition rust_identifier (t : text) : Prop :=
  ~ In t rust_keywords /\
  exists c r, t = c :: r /\ (lower c = true \/ upper c = true \/ (c = 95 /\ r <> []))
    /\ Forall (fun c => alnum c = true \/ c = 95) r.

(** ** The declarations that belong to an attribute (C71)

    [x] is its name in snake case, [v] the name of the type of its values.  The documentation of each kind says what
    a value is. *)
(** the parameter after the packet, and what the function returns *)
Definition add_signature (k : kind) (v : text) : text :=
  match k with
  | KString => tok ", value: &str)"
  | KTaggedString => tok ", tag: Option<&Tag>, value: &str)"
  | KUserPassword => tok ", value: &[u8]) -> Result<(), AVPError>"
  | KTunnelPassword => tok ", tag: Option<&Tag>, value: &[u8]) -> Result<(), AVPError>"
  | KOctets | KConcatOctets => tok ", value: &[u8])"
  | KFixedOctets _ => tok ", value: &[u8]) -> Result<(), AVPError>"
  | KIpaddr => tok ", value: &Ipv4Addr)"
  | KIpv6addr => tok ", value: &Ipv6Addr)"
  | KIpv4Prefix | KIpv6Prefix => tok ", value: &[u8]) -> Result<(), AVPError>"
  | KDate => tok ", value: &DateTime<Utc>)"
  | KInteger => tok ", value: u32)"
  | KTaggedInteger => tok ", tag: Option<&Tag>, value: u32)"
  | KValueInteger => tok ", value: " ++ v ++ tok ")"
  | KTaggedValueInteger => tok ", tag: Option<&Tag>, value: " ++ v ++ tok ")"
  | KShort => tok ", value: u16)"
  | KVsa => []
  end.
(** the type of a value that has been looked up *)
Definition value_of (k : kind) (v : text) : text :=
  match k with
  | KString => tok "String"
  | KTaggedString => tok "(String, Option<Tag>)"
  | KTunnelPassword => tok "(Vec<u8>, Tag)"
  | KUserPassword | KOctets | KConcatOctets | KFixedOctets _ | KIpv4Prefix | KIpv6Prefix => tok "Vec<u8>"
  | KIpaddr => tok "Ipv4Addr"
  | KIpv6addr => tok "Ipv6Addr"
  | KDate => tok "DateTime<Utc>"
  | KInteger => tok "u32"
  | KTaggedInteger => tok "(u32, Tag)"
  | KValueInteger => v
  | KTaggedValueInteger => tok "(" ++ v ++ tok ", Tag)"
  | KShort => tok "u16"
  | KVsa => []
  end.
(** whether looking up can fail because of the octets of the value *)
Definition fallible (k : kind) : bool :=
  match k with KOctets | KConcatOctets | KFixedOctets _ => false | _ => true end.
Definition declaration_delete (x : text) : text := tok "fn delete_" ++ x ++ tok "(packet: &mut Packet) {".
Definition declaration_add (x v : text) (k : kind) : text :=
  tok "fn add_" ++ x ++ tok "(packet: &mut Packet" ++ add_signature k v ++ tok " {".
Definition declaration_lookup (x v : text) (k : kind) : text :=
  tok "fn lookup_" ++ x ++ tok "(packet: &Packet) -> Option<" ++
  (if fallible k then tok "Result<" ++ value_of k v ++ tok ", AVPError>" else value_of k v) ++ tok "> {".
Definition declaration_lookup_all (x v : text) (k : kind) : text :=
  tok "fn lookup_all_" ++ x ++ tok "(packet: &Packet) -> " ++
  (if fallible k then tok "Result<Vec<" ++ value_of k v ++ tok ">, AVPError>" else tok "Vec<" ++ value_of k v ++ tok ">")
  ++ tok " {".
(** Vendor-Specific has only [delete], a concatenated attribute no [lookup_all]. *)
Definition declarations_fn (x v : text) (k : kind) : list text :=
  declaration_delete x ::
  match k with
  | KVsa => []
  | KConcatOctets => [declaration_add x v k; declaration_lookup x v k]
  | _ => [declaration_add x v k; declaration_lookup x v k; declaration_lookup_all x v k]
  end.
(** [X] is the name of the attribute in capitals, [d] its number *)
Definition declaration_number (X d : text) : text := tok "const " ++ X ++ tok "_TYPE: AVPType = " ++ d ++ tok ";".
(** a type of values, in the module where it is first used *)
Definition declaration_type (v : text) : text := tok "type " ++ v ++ tok " = u32;".
(** a value: [V] and [X] are the names of the type and of the value in capitals *)
Definition declaration_value (V X : text) (module : option text) (v d : text) : text :=
  tok "const " ++ V ++ tok "_" ++ X ++ tok ": " ++
  (match module with Some m => m ++ tok "::" | None => [] end) ++ v ++ tok " = " ++ d ++ tok ";".
(** names with which identifiers can be made *)
Definition spelled (n : text) : Prop := ascii_text n /\ exists c, In c n /\ alnum c = true.
