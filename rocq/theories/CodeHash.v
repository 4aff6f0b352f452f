(** * The hash library of a build *)
From Coq Require Import String List.
From Verif Require Import Prelude CodeRun.

(** the hash library does not fail; the md5 crate never does *)
Definition hashes (he : bytes -> option string) (f : feature) : Prop := f = Openssl -> forall b, he b = None.
