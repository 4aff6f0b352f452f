(** * The crate Inflector, as used by code-generator/src/main.rs

    Three functions of Inflector 0.11.4 that turn a name of a dictionary into a Rust identifier
    (main.rs:272, 274, 218, 231-246).  The crate is a dependency and not part of /repo; its functions
    [to_case_snake_like] and [to_case_camel_like] are transcribed here from the published source.
    C69 compares their results with every identifier in the committed rfc*.rs files.

    Rust's [char] predicates are fixed for ASCII; for other characters they are tables, which are an
    argument ([unicode]). *)
From Coq Require Import List NArith Bool.
From Verif Require Import Prelude CodeGen.
Import ListNotations.
Local Open Scope N_scope.
Local Open Scope list_scope.

(** [char::is_alphanumeric], [is_lowercase], [is_uppercase], [is_numeric] outside ASCII *)
Record unicode := Unicode {
  u_alphanumeric : N -> bool; u_lowercase : N -> bool; u_uppercase : N -> bool; u_numeric : N -> bool }.

Definition ascii_lower (c : N) : bool := (97 <=? c) && (c <=? 122).
Definition ascii_upper (c : N) : bool := (65 <=? c) && (c <=? 90).
Definition is_alphanumeric (U : unicode) (c : N) : bool :=
  if c <? 128 then ascii_lower c || ascii_upper c || is_digit c else u_alphanumeric U c.
Definition is_lowercase (U : unicode) (c : N) : bool :=
  if c <? 128 then ascii_lower c else u_lowercase U c.
Definition is_uppercase (U : unicode) (c : N) : bool :=
  if c <? 128 then ascii_upper c else u_uppercase U c.
Definition is_numeric (U : unicode) (c : N) : bool :=
  if c <? 128 then is_digit c else u_numeric U c.
Definition to_ascii_uppercase (c : N) : N := if ascii_lower c then c - 32 else c.
Definition to_ascii_lowercase (c : N) : N := if ascii_upper c then c + 32 else c.
(** [char::len_utf8] *)
Definition len_utf8 (c : N) : N :=
  if c <? 0x80 then 1 else if c <? 0x800 then 2 else if c <? 0x10000 then 3 else 4.

(** [trim_right]: without the trailing characters that are not alphanumeric *)
Fixpoint drop_while (f : N -> bool) (s : text) : text :=
  match s with
  | [] => []
  | c :: s' => if f c then drop_while f s' else s
  end.
Definition trim_right (U : unicode) (s : text) : text :=
  rev (drop_while (fun c => negb (is_alphanumeric U c)) (rev s)).

(** [char_is_uppercase]: also true of digits and of everything else but a-z *)
Definition char_is_uppercase (c : N) : bool := c =? to_ascii_uppercase c.
(** [s.chars().nth(i).unwrap_or('A').is_lowercase()]; 'A' is not lower case *)
Definition nth_is_lowercase (U : unicode) (s : text) (i : N) : bool :=
  match nth_error s (N.to_nat i) with Some c => is_lowercase U c | None => false end.
(** [next_or_previous_char_is_lowercase]; [i] is an offset in octets but is used to count
    characters, as in the crate *)
Definition next_or_previous_char_is_lowercase (U : unicode) (s : text) (i : N) : bool :=
  nth_is_lowercase U s (i + 1) || nth_is_lowercase U s (i - 1).
(** [requires_seperator]; [i >= 1] if [first_character] is false, so that [i - 1] does not underflow *)
Definition requires_separator (U : unicode) (i c : N) (first_character : bool) (s : text) : bool :=
  negb first_character && char_is_uppercase c && next_or_previous_char_is_lowercase U s i.

(** the loop of [to_case_snake_like] with [replace_with = "_"]; [conv] is [to_ascii_lowercase] for
    the case "lower" and [to_ascii_uppercase] otherwise; [s] is the whole string, [i] the offset of
    [rest] in it *)
Fixpoint snake_loop (U : unicode) (conv : N -> N) (s : text) (i : N) (first_character : bool)
  (rest : text) : text :=
  match rest with
  | [] => []
  | c :: rest' =>
      let next := snake_loop U conv s (i + len_utf8 c) in
      if negb (is_alphanumeric U c) then
        if first_character then next true rest' else 95 :: next true rest'
      else if requires_separator U i c first_character s then 95 :: conv c :: next false rest'
      else conv c :: next false rest'
  end.
Definition to_case_snake_like (U : unicode) (conv : N -> N) (s : text) : text :=
  snake_loop U conv s 0 true (trim_right U s).
(** [to_snake_case], [to_screaming_snake_case] *)
Definition to_snake_case (U : unicode) (s : text) : text := to_case_snake_like U to_ascii_lowercase s.
Definition to_screaming_snake_case (U : unicode) (s : text) : text := to_case_snake_like U to_ascii_uppercase s.

(** [last_char_lower_current_is_upper_or_new_word] *)
Definition starts_word (U : unicode) (new_word : bool) (last_char c : N) : bool :=
  new_word || (is_lowercase U last_char && is_uppercase U c && negb (last_char =? 32)).
(** the loop of [to_case_camel_like] with the options of [to_pascal_case]: no injected character,
    not inverted *)
Fixpoint pascal_loop (U : unicode) (new_word found_real_char : bool) (last_char : N) (rest : text) : text :=
  match rest with
  | [] => []
  | c :: rest' =>
      if negb (is_alphanumeric U c) && found_real_char then pascal_loop U true found_real_char last_char rest'
      else if negb found_real_char && negb (is_alphanumeric U c) then
        pascal_loop U new_word found_real_char last_char rest'
      else if is_numeric U c then c :: pascal_loop U true true last_char rest'
      else if starts_word U new_word last_char c then
        to_ascii_uppercase c :: pascal_loop U false true last_char rest'
      else to_ascii_lowercase c :: pascal_loop U new_word true c rest'
  end.
Definition to_pascal_case (U : unicode) (s : text) : text :=
  pascal_loop U true false 32 (trim_right U s).
