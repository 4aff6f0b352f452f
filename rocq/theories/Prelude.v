(** * Shared vocabulary of the model: bytes, results, slices, machine integers.

    This file models the pieces of the Rust language and of [std] that the crate uses.
    Definitions only; lemmas are in [PreludeFacts]. *)
From Coq Require Import String List NArith ZArith Bool Strings.Byte Decimal DecimalString.
Import ListNotations.
Local Open Scope N_scope.

(** [Vec<u8>] / [&[u8]]. *)
Definition bytes := list byte.

(** [b as usize] and [n as u8] (truncating cast) for a [u8] b. *)
Definition b2n (b : byte) : N := Byte.to_N b.
Definition n2b (n : N) : byte :=
  match Byte.of_N (n mod 256) with Some b => b | None => x00 end.

(** [slice.len()]. *)
Definition len {A} (l : list A) : N := N.of_nat (List.length l).

(** Result of running a function: [Ok]/[Err] are the two values of [Result]; [Panic] is an
    unwinding panic (failed slice bound, index, unwrap, debug overflow); [OutOfFuel] is
    "the loop is still running" and is shown unreachable where it occurs. *)
Inductive res (E A : Type) : Type :=
| Ok (a : A)
| Err (e : E)
| Panic
| OutOfFuel.
Arguments Ok {E A} a.
Arguments Err {E A} e.
Arguments Panic {E A}.
Arguments OutOfFuel {E A}.

Definition bind {E A B} (m : res E A) (k : A -> res E B) : res E B :=
  match m with
  | Ok a => k a
  | Err e => Err e
  | Panic => Panic
  | OutOfFuel => OutOfFuel
  end.
Notation "'do' x <- m ; k" := (bind m (fun x => k))
  (at level 200, x pattern, m at level 100, k at level 200, right associativity).

(** [match m { Ok(v) => v, Err(e) => return Err(f(e)) }] *)
Definition map_err {E E' A} (f : E -> E') (m : res E A) : res E' A :=
  match m with
  | Ok a => Ok a
  | Err e => Err (f e)
  | Panic => Panic
  | OutOfFuel => OutOfFuel
  end.

Definition is_ok {E A} (m : res E A) : bool := match m with Ok _ => true | _ => false end.

(** Compilation profile: arithmetic overflow panics in debug builds and wraps in release. *)
Inductive profile := Debug | Release.

(** [a + b] on an unsigned machine integer with modulus [m]. *)
Definition uadd {E} (p : profile) (m a b : N) : res E N :=
  if a + b <? m then Ok (a + b)
  else match p with Debug => Panic | Release => Ok ((a + b) mod m) end.

(** [bs[i]]; panics when out of bounds. *)
Definition index {E} (bs : bytes) (i : N) : res E byte :=
  match nth_error bs (N.to_nat i) with Some b => Ok b | None => Panic end.
(** [bs[a..]], [bs[..b]], [bs[a..b]]; panic when out of bounds. *)
Definition slice_from {E} (bs : bytes) (a : N) : res E bytes :=
  if a <=? len bs then Ok (skipn (N.to_nat a) bs) else Panic.
Definition slice_to {E} (bs : bytes) (b : N) : res E bytes :=
  if b <=? len bs then Ok (firstn (N.to_nat b) bs) else Panic.
Definition slice {E} (bs : bytes) (a b : N) : res E bytes :=
  if (a <=? b) && (b <=? len bs)
  then Ok (firstn (N.to_nat (b - a)) (skipn (N.to_nat a) bs)) else Panic.
(** [v.splice(a..b, new)] for its effect on [v]; panics when out of bounds. *)
Definition splice {E} (bs : bytes) (a b : N) (new : bytes) : res E bytes :=
  if (a <=? b) && (b <=? len bs)
  then Ok (firstn (N.to_nat a) bs ++ new ++ skipn (N.to_nat b) bs) else Panic.

(** [Vec<u8> == Vec<u8>]. *)
Fixpoint bytes_eqb (a b : bytes) : bool :=
  match a, b with
  | [], [] => true
  | x :: a', y :: b' => Byte.eqb x y && bytes_eqb a' b'
  | _, _ => false
  end.

(** [u16::to_be_bytes], [u32::to_be_bytes]; the argument is below 2^16, 2^32. *)
Definition u16_be (n : N) : bytes := [n2b (n / 256); n2b n].
Definition u32_be (n : N) : bytes :=
  [n2b (n / 16777216); n2b (n / 65536); n2b (n / 256); n2b n].

(** [slice.try_into::<[u8; 2]>()] + [u16::from_be_bytes]; [None] is [TryFromSliceError]. *)
Definition u16_from_be (bs : bytes) : option N :=
  match bs with [a; b] => Some (b2n a * 256 + b2n b) | _ => None end.
Definition u32_from_be (bs : bytes) : option N :=
  match bs with
  | [a; b; c; d] => Some (((b2n a * 256 + b2n b) * 256 + b2n c) * 256 + b2n d)
  | _ => None
  end.
(** [TryFromSliceError] as displayed by std. *)
Definition try_from_slice_error : string := "could not convert slice to array".

(** [d ^ p] on u8. *)
Definition byte_xor (a b : byte) : byte := n2b (N.lxor (b2n a) (b2n b)).
(** [a.iter().zip(b).map(|(d, p)| d ^ p).collect()]: stops at the shorter one. *)
Fixpoint xor_zip (a b : bytes) : bytes :=
  match a, b with
  | x :: a', y :: b' => byte_xor x y :: xor_zip a' b'
  | _, _ => []
  end.

(** [slice.chunks(n)], n > 0. *)
Fixpoint chunks_aux (fuel n : nat) (l : bytes) : list bytes :=
  match fuel, l with
  | _, [] => []
  | O, _ => []
  | S f, _ => firstn n l :: chunks_aux f n (skipn n l)
  end.
Definition chunks (n : nat) (l : bytes) : list bytes := chunks_aux (List.length l) n l.

(** [dec.split(|b| *b == 0).next()]: the part before the first zero byte. *)
Fixpoint before_first_zero (l : bytes) : bytes :=
  match l with
  | [] => []
  | b :: l' => if Byte.eqb b x00 then [] else b :: before_first_zero l'
  end.

(** [vec![0; n]] *)
Definition zeros (n : nat) : bytes := repeat x00 n.

(** [{}] formatting of an unsigned integer. *)
Definition dec (n : N) : string := NilZero.string_of_uint (N.to_uint n).

(** [str] constants as bytes and back. *)
Definition bytes_of_string (s : string) : bytes := list_byte_of_string s.
Definition string_of_bytes (bs : bytes) : string := string_of_list_byte bs.
