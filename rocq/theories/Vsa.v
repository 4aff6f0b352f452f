(** * radius/src/core/vsa.rs *)
From Coq Require Import List NArith ZArith Bool Strings.Byte.
From Verif Require Import Prelude.
Import ListNotations.
Local Open Scope N_scope.

(** [i32::to_be_bytes]: two's complement *)
Definition i32_be (v : Z) : bytes := u32_be (Z.to_N (v mod 4294967296)).

(** vsa.rs:20-25 *)
Record string_vsa := StringVSA {
  sv_vendor_id : bytes; sv_vendor_type : byte; sv_length : byte; sv_value : bytes }.
(** vsa.rs:28, 30-45: [(2 + value.len()) as u8] *)
Definition string_vsa_new (vendor_id : Z) (vendor_type : byte) (value : bytes) : string_vsa :=
  StringVSA (i32_be vendor_id) vendor_type (n2b (2 + len value)) value.
(** vsa.rs:49-51, 53-55 *)
Definition string_vsa_len (v : string_vsa) : N := b2n (sv_length v).
Definition string_vsa_is_empty (v : string_vsa) : bool := b2n (sv_length v) =? 0.
(** vsa.rs:71-80 *)
Definition string_vsa_message (v : string_vsa) : bytes :=
  sv_vendor_id v ++ [sv_vendor_type v; sv_length v] ++ sv_value v.

(** vsa.rs:85-91 *)
Record tagged_string_vsa := TaggedStringVSA {
  tv_vendor_id : bytes; tv_vendor_type : byte; tv_length : byte; tv_tag : byte;
  tv_value : bytes }.
(** vsa.rs:94, 96-112 *)
Definition tagged_string_vsa_new (vendor_id : Z) (vendor_type tag : byte) (value : bytes)
  : tagged_string_vsa :=
  TaggedStringVSA (i32_be vendor_id) vendor_type (n2b (3 + len value)) tag value.
(** vsa.rs:116-118, 120-122 *)
Definition tagged_string_vsa_len (v : tagged_string_vsa) : N := b2n (tv_length v).
Definition tagged_string_vsa_is_empty (v : tagged_string_vsa) : bool := b2n (tv_length v) =? 0.
(** vsa.rs:138-147 *)
Definition tagged_string_vsa_message (v : tagged_string_vsa) : bytes :=
  tv_vendor_id v ++ [tv_vendor_type v; tv_length v; tv_tag v] ++ tv_value v.

(** [&impl VSA] *)
Inductive vsa := VString (v : string_vsa) | VTagged (v : tagged_string_vsa).
Definition vsa_len (v : vsa) : N :=
  match v with VString v => string_vsa_len v | VTagged v => tagged_string_vsa_len v end.
Definition vsa_is_empty (v : vsa) : bool :=
  match v with VString v => string_vsa_is_empty v | VTagged v => tagged_string_vsa_is_empty v end.
Definition vsa_message (v : vsa) : bytes :=
  match v with VString v => string_vsa_message v | VTagged v => tagged_string_vsa_message v end.
