(** * MD5 (RFC 1321), concretely.

    Models the external functions [md5::compute] (crate md5, used at
    radius/src/core/packet.rs:210,318,365 and radius/src/core/avp.rs:221,236,402,419,736,863) and
    [openssl::hash::hash(MessageDigest::md5(), _)] when it succeeds.
    Checked against the RFC test suite in [Md5Test]. *)
From Coq Require Import List NArith Strings.Byte.
From Verif Require Import Prelude.
Import ListNotations.
Local Open Scope N_scope.

Definition w32 (x : N) : N := x mod 4294967296.
Definition not32 (x : N) : N := 4294967295 - x.
Definition rotl32 (x c : N) : N := w32 (N.lor (N.shiftl x c) (N.shiftr x (32 - c))).

(** RFC 1321 section 3.4: the table T[1..64]. *)
Definition md5_T : list N := [
 0xd76aa478; 0xe8c7b756; 0x242070db; 0xc1bdceee; 0xf57c0faf; 0x4787c62a; 0xa8304613; 0xfd469501;
 0x698098d8; 0x8b44f7af; 0xffff5bb1; 0x895cd7be; 0x6b901122; 0xfd987193; 0xa679438e; 0x49b40821;
 0xf61e2562; 0xc040b340; 0x265e5a51; 0xe9b6c7aa; 0xd62f105d; 0x02441453; 0xd8a1e681; 0xe7d3fbc8;
 0x21e1cde6; 0xc33707d6; 0xf4d50d87; 0x455a14ed; 0xa9e3e905; 0xfcefa3f8; 0x676f02d9; 0x8d2a4c8a;
 0xfffa3942; 0x8771f681; 0x6d9d6122; 0xfde5380c; 0xa4beea44; 0x4bdecfa9; 0xf6bb4b60; 0xbebfbc70;
 0x289b7ec6; 0xeaa127fa; 0xd4ef3085; 0x04881d05; 0xd9d4d039; 0xe6db99e5; 0x1fa27cf8; 0xc4ac5665;
 0xf4292244; 0x432aff97; 0xab9423a7; 0xfc93a039; 0x655b59c3; 0x8f0ccc92; 0xffeff47d; 0x85845dd1;
 0x6fa87e4f; 0xfe2ce6e0; 0xa3014314; 0x4e0811a1; 0xf7537e82; 0xbd3af235; 0x2ad7d2bb; 0xeb86d391 ].

(** Rotation amounts per round. *)
Definition md5_S (i : nat) : N :=
  nth (Nat.modulo i 4)
      (nth (Nat.div i 16) [[7; 12; 17; 22]; [5; 9; 14; 20]; [4; 11; 16; 23]; [6; 10; 15; 21]] []) 0.

(** Word index used at step i. *)
Definition md5_g (i : nat) : nat :=
  match Nat.div i 16 with
  | 0%nat => i
  | 1%nat => Nat.modulo (5 * i + 1) 16
  | 2%nat => Nat.modulo (3 * i + 5) 16
  | _ => Nat.modulo (7 * i) 16
  end.

Definition md5_f (i : nat) (b c d : N) : N :=
  match Nat.div i 16 with
  | 0%nat => N.lor (N.land b c) (N.land (not32 b) d)
  | 1%nat => N.lor (N.land b d) (N.land c (not32 d))
  | 2%nat => N.lxor (N.lxor b c) d
  | _ => N.lxor c (N.lor b (not32 d))
  end.

Definition md5_state := (N * N * N * N)%type.

Definition md5_step (m : list N) (st : md5_state) (i : nat) : md5_state :=
  let '(a, b, c, d) := st in
  let f := w32 (md5_f i b c d + a + nth i md5_T 0 + nth (md5_g i) m 0) in
  (d, w32 (b + rotl32 f (md5_S i)), b, c).

Definition md5_block (st : md5_state) (m : list N) : md5_state :=
  let '(a, b, c, d) := st in
  let '(a', b', c', d') := fold_left (md5_step m) (seq 0 64) st in
  (w32 (a + a'), w32 (b + b'), w32 (c + c'), w32 (d + d')).

Fixpoint le_words (bs : bytes) : list N :=
  match bs with
  | b0 :: b1 :: b2 :: b3 :: r =>
      (b2n b0 + 256 * b2n b1 + 65536 * b2n b2 + 16777216 * b2n b3) :: le_words r
  | _ => []
  end.

Definition u32_le (n : N) : bytes :=
  [n2b n; n2b (n / 256); n2b (n / 65536); n2b (n / 16777216)].

(** RFC 1321 sections 3.1, 3.2: padding and length. *)
Definition md5_pad (bs : bytes) : bytes :=
  let l := len bs in
  let z := (119 - l mod 64) mod 64 in
  let bits := 8 * l in
  bs ++ [x80] ++ zeros (N.to_nat z) ++ u32_le (w32 bits) ++ u32_le (w32 (bits / 4294967296)).

Definition md5_init : md5_state := (0x67452301, 0xefcdab89, 0x98badcfe, 0x10325476).

Definition md5 (bs : bytes) : bytes :=
  let '(a, b, c, d) :=
    fold_left md5_block (map le_words (chunks 64 (md5_pad bs))) md5_init in
  u32_le a ++ u32_le b ++ u32_le c ++ u32_le d.
