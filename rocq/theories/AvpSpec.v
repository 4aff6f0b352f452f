(** * Independent specifications of the attribute-value properties (C15-C26).

    Only data types, MD5, [b2n]/[n2b] (octet <-> number, [n2b] modulo 256) and [len] are used. *)
From Coq Require Import String List NArith ZArith Bool Strings.Byte.
From Verif Require Import Prelude Md5 Tag Avp.
Import ListNotations.
Local Open Scope N_scope.

(** the number written in network byte order *)
Definition be_value (bs : bytes) : N := fold_left (fun acc b => 256 * acc + b2n b) bs 0.

(** Unicode scalar values and their UTF-8 encoding (RFC 3629 section 3) *)
Definition scalar (c : N) : Prop := c < 0xD800 \/ (0xE000 <= c /\ c < 0x110000).
Definition utf8_char (c : N) : bytes :=
  if c <? 0x80 then [n2b c]
  else if c <? 0x800 then [n2b (0xC0 + c / 64); n2b (0x80 + c mod 64)]
  else if c <? 0x10000 then
    [n2b (0xE0 + c / 4096); n2b (0x80 + c / 64 mod 64); n2b (0x80 + c mod 64)]
  else
    [n2b (0xF0 + c / 262144); n2b (0x80 + c / 4096 mod 64); n2b (0x80 + c / 64 mod 64);
     n2b (0x80 + c mod 64)].
Definition utf8_text (cs : list N) : bytes := flat_map utf8_char cs.
(** the contents of a Rust [str] *)
Definition is_str (bs : bytes) : Prop := exists cs, Forall scalar cs /\ bs = utf8_text cs.

(** bitwise exclusive or of two octet strings of equal length *)
Definition xor_octets (a b : bytes) : bytes :=
  map (fun p => n2b (N.lxor (b2n (fst p)) (b2n (snd p)))) (combine a b).

(** RFC 2865 section 5.2: the password is cut into 16-octet blocks, the last one padded with
    nulls (a single block of nulls for the empty password). *)
Definition password_blocks (pw : bytes) (blocks : list bytes) : Prop :=
  Forall (fun p => len p = 16) blocks /\ blocks <> []
  /\ exists k, concat blocks = pw ++ repeat x00 k /\ (N.of_nat k < 16 \/ pw = []) /\ N.of_nat k <= 16.

(** b1 = MD5(S + RA), c1 = p1 xor b1; b2 = MD5(S + c1), c2 = p2 xor b2; ... *)
Inductive hidden_blocks (secret : bytes) : bytes -> list bytes -> list bytes -> Prop :=
| hb_nil prev : hidden_blocks secret prev [] []
| hb_cons prev p c ps cs :
    c = xor_octets p (md5 (secret ++ prev)) ->
    hidden_blocks secret c ps cs ->
    hidden_blocks secret prev (p :: ps) (c :: cs).

(** a call that returned a [Result] (it neither panicked nor kept running) *)
Definition returns {E A} (r : res E A) : Prop :=
  (exists v, r = Ok v) \/ (exists e, r = Err e).

(** RFC 2868 section 3.1: tags *)
Definition tag_octet (t : option tag) : N := match t with None => 0 | Some t => b2n (tag_value t) end.
