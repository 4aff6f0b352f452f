(** * [String::from_utf8] (std), used at radius/src/core/avp.rs:603,626,639.

    Models core::str::validations::run_utf8_validation: which byte strings are accepted, and the
    Utf8Error (valid_up_to, error_len) of the first failure, with its Display text. *)
From Coq Require Import String List NArith Bool Strings.Byte.
From Verif Require Import Prelude.
Import ListNotations.
Local Open Scope N_scope.

Definition in_range (lo hi : N) (b : byte) : bool := (lo <=? b2n b) && (b2n b <=? hi).
Definition is_cont (b : byte) : bool := in_range 0x80 0xBF b.

(** core::str::validations::utf8_char_width *)
Definition utf8_width (b : byte) : N :=
  if in_range 0x00 0x7F b then 1
  else if in_range 0xC2 0xDF b then 2
  else if in_range 0xE0 0xEF b then 3
  else if in_range 0xF0 0xF4 b then 4
  else 0.

(** Second byte check of 3-byte and 4-byte sequences. *)
Definition utf8_second3 (first b : byte) : bool :=
  if b2n first =? 0xE0 then in_range 0xA0 0xBF b
  else if b2n first =? 0xED then in_range 0x80 0x9F b
  else is_cont b.
Definition utf8_second4 (first b : byte) : bool :=
  if b2n first =? 0xF0 then in_range 0x90 0xBF b
  else if b2n first =? 0xF4 then in_range 0x80 0x8F b
  else is_cont b.

(** [Utf8Error { valid_up_to, error_len }] *)
Record utf8_error := Utf8Error { valid_up_to : N; error_len : option N }.

(** [None] = valid; [idx] is the index of the head of [bs] in the whole input. *)
Fixpoint utf8_run (idx : N) (bs : bytes) : option utf8_error :=
  match bs with
  | [] => None
  | b0 :: r0 =>
      let w := utf8_width b0 in
      let err l := Some (Utf8Error idx l) in
      if w =? 1 then utf8_run (idx + 1) r0
      else if w =? 2 then
        match r0 with
        | [] => err None
        | b1 :: r1 => if is_cont b1 then utf8_run (idx + 2) r1 else err (Some 1)
        end
      else if w =? 3 then
        match r0 with
        | [] => err None
        | b1 :: r1 =>
            if utf8_second3 b0 b1 then
              match r1 with
              | [] => err None
              | b2 :: r2 => if is_cont b2 then utf8_run (idx + 3) r2 else err (Some 2)
              end
            else err (Some 1)
        end
      else if w =? 4 then
        match r0 with
        | [] => err None
        | b1 :: r1 =>
            if utf8_second4 b0 b1 then
              match r1 with
              | [] => err None
              | b2 :: r2 =>
                  if is_cont b2 then
                    match r2 with
                    | [] => err None
                    | b3 :: r3 => if is_cont b3 then utf8_run (idx + 4) r3 else err (Some 3)
                    end
                  else err (Some 2)
              end
            else err (Some 1)
        end
      else err (Some 1)
  end.

(** Display of Utf8Error (and of FromUtf8Error, which delegates). *)
Definition utf8_error_display (e : utf8_error) : string :=
  match error_len e with
  | Some n => "invalid utf-8 sequence of " ++ dec n ++ " bytes from index " ++ dec (valid_up_to e)
  | None => "incomplete utf-8 byte sequence from index " ++ dec (valid_up_to e)
  end.

(** [String::from_utf8(v)]: the string is represented by its bytes. *)
Definition from_utf8 (bs : bytes) : res utf8_error bytes :=
  match utf8_run 0 bs with None => Ok bs | Some e => Err e end.
