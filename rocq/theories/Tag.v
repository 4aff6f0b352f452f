(** * radius/src/core/tag.rs *)
From Coq Require Import NArith Bool Strings.Byte.
From Verif Require Import Prelude.
Local Open Scope N_scope.

(** radius/src/core/tag.rs:1 *)
Definition UNUSED_TAG_VALUE : byte := x00.

(** radius/src/core/tag.rs:3-8 *)
Record tag := Tag { tag_value : byte }.

(** radius/src/core/tag.rs:11-13, 15-19, 21-23 *)
Definition tag_new (v : byte) : tag := Tag v.
Definition tag_new_unused : tag := Tag UNUSED_TAG_VALUE.
Definition tag_get_value (t : tag) : byte := tag_value t.
(** radius/src/core/tag.rs:25-27 *)
Definition tag_is_zero (t : tag) : bool := b2n (tag_value t) =? 0.
(** radius/src/core/tag.rs:29-31 *)
Definition tag_is_valid_value (t : tag) : bool :=
  (1 <=? b2n (tag_value t)) && (b2n (tag_value t) <=? 0x1f).
