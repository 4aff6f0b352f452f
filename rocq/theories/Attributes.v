(** * radius/src/core/attributes.rs *)
From Coq Require Import String List NArith Bool Strings.Byte.
From Verif Require Import Prelude Avp.
Import ListNotations.
Local Open Scope N_scope.

(** attributes.rs:4 *)
Definition attributes := list avp.

(** attributes.rs:11-31: the [while] loop; [i], [attrs] are its variables.
    Simplification: [usize] additions [i + 1], [i + 2], [i + length] do not overflow (buffers
    are far below 2^64 bytes). *)
Fixpoint attributes_decode_loop (fuel : nat) (bs : bytes) (i : N) (attrs : attributes)
  : res string attributes :=
  if negb (i <? len bs) then Ok attrs
  else
    match fuel with
    | O => OutOfFuel
    | S fuel' =>
        do tail <- slice_from bs i;
        if len tail <? 2 then Err "short buffer"%string
        else
          do lb <- index bs (i + 1);
          let length := b2n lb in
          do tail <- slice_from bs i;
          if (len tail <? length) || negb ((2 <=? length) && (length <=? 255)) then
            Err "invalid attribute length"%string
          else
            do typ <- index bs i;
            do value <- (if 2 <? length then slice bs (i + 2) (i + length) else Ok []);
            attributes_decode_loop fuel' bs (i + length) (attrs ++ [AVP typ value])
    end.

(** attributes.rs:7-34 *)
Definition attributes_decode (bs : bytes) : res string attributes :=
  attributes_decode_loop (List.length bs) bs 0 [].

(** attributes.rs:36-38 *)
Definition attributes_add (attrs : attributes) (a : avp) : attributes := attrs ++ [a].
(** attributes.rs:40-42 *)
Definition attributes_extend (attrs : attributes) (avps : list avp) : attributes := attrs ++ avps.
(** attributes.rs:44-46 *)
Definition attributes_del (attrs : attributes) (typ : byte) : attributes :=
  filter (fun a => negb (Byte.eqb (avp_typ a) typ)) attrs.
(** attributes.rs:48-50 *)
Definition attributes_lookup (attrs : attributes) (typ : byte) : option avp :=
  find (fun a => Byte.eqb (avp_typ a) typ) attrs.
(** attributes.rs:52-54 *)
Definition attributes_lookup_all (attrs : attributes) (typ : byte) : list avp :=
  filter (fun a => Byte.eqb (avp_typ a) typ) attrs.

(** attributes.rs:59-67: the [for] loop; [2 + attr_len as u8] is u8 arithmetic *)
Fixpoint attributes_encode_loop (p : profile) (attrs : attributes) (encoded : bytes)
  : res string bytes :=
  match attrs with
  | [] => Ok encoded
  | a :: rest =>
      let attr_len := len (avp_value a) in
      if 253 <? attr_len then Err "attribute is too large"%string
      else
        do l <- uadd p 256 2 (b2n (n2b attr_len));
        attributes_encode_loop p rest (encoded ++ [avp_typ a] ++ [n2b l] ++ avp_value a)
  end.
(** attributes.rs:56-70 *)
Definition attributes_encode (p : profile) (attrs : attributes) : res string bytes :=
  attributes_encode_loop p attrs [].
