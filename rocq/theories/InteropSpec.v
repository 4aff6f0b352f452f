(** * Independent specifications of the interoperability properties (C56, C63, C64) *)
From Coq Require Import String List NArith ZArith Bool Strings.Byte.
From Verif Require Import Prelude Md5 AvpSpec.
Import ListNotations.
Local Open Scope N_scope.

(** [pw] is the part of [plain] before its first NUL octet, or all of it if there is none *)
Definition up_to_nul (plain pw : bytes) : Prop :=
  ~ In x00 pw /\ (plain = pw \/ exists rest, plain = pw ++ x00 :: rest).

(** RFC 2868 section 3.5: the value of a Tunnel-Password attribute for the password [pw]. The
    plain text is one octet with the length of the password, the password, and null padding up to
    a multiple of 16 octets; it is hidden with b1 = MD5(S + R + A), where A is the salt, whose most
    significant bit is set. The whole attribute has at most 255 octets. *)
Definition rfc2868_tunnel_password (secret auth : bytes) (tag_field : byte) (pw value : bytes) : Prop :=
  exists s0 s1 blocks cs k,
    value = tag_field :: s0 :: s1 :: concat cs /\ 0x80 <= b2n s0
    /\ len pw <= 239
    /\ Forall (fun p => len p = 16) blocks
    /\ concat blocks = n2b (len pw) :: pw ++ repeat x00 k /\ N.of_nat k < 16
    /\ hidden_blocks secret (auth ++ [s0; s1]) blocks cs.

(** RFC 2865 section 5.2: the value of a User-Password attribute for the plain text [blocks]
    (the password and its null padding) *)
Definition rfc2865_hidden (secret auth : bytes) (blocks : list bytes) (value : bytes) : Prop :=
  exists cs, value = concat cs /\ Forall (fun p => len p = 16) blocks /\ hidden_blocks secret auth blocks cs.

(** bit number [i] of an octet string, the most significant bit of the first octet being number 0 *)
Definition prefix_bit (octets : bytes) (i : N) : bool :=
  N.testbit (b2n (nth (N.to_nat (i / 8)) octets x00)) (7 - i mod 8).
(** RFC 3162 section 2.3 ([max] = 16) and RFC 6572 section 4.3 ([max] = 4): a prefix attribute is a
    reserved octet, the number of bits of the prefix, and at most [max] octets of the prefix, in
    which all bits outside of the prefix are zero *)
Definition rfc_prefix (max bits : N) (pre value : bytes) : Prop :=
  value = x00 :: n2b bits :: pre /\ len pre <= max /\ bits <= 8 * max
  /\ forall i, bits <= i -> prefix_bit pre i = false.
