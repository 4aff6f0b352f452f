(** * The functions of a generated module, with its constants and type names put in

    They are the templates of CodeAccessors.v, which are run there. *)
From Coq Require Import String Ascii List NArith Bool Strings.Byte Lia ZifyBool ZifyNat ZifyN.
From Verif Require Import Prelude PreludeFacts Accessors CodeGen Inflect GenText Rust RustEval RustModule GenLex CodeAccessors GenTree GenItems GenModule.
Import ListNotations.
Local Open Scope string_scope.
Local Open Scope N_scope.
Local Open Scope list_scope.

Definition the_variables : list string :=
  ["packet"; "value"; "tag"; "v"; "vec"; "avp"; "avps"; "acc"; "chunk"; "t"; "None"].
Definition the_types : list string :=
  ["AVPType"; "Packet"; "Tag"; "AVPError"; "str"; "u8"; "u16"; "u32"; "String"; "Ipv4Addr"; "Ipv6Addr"; "Utc"].
Definition value_kind (k : kind) : bool := match k with KValueInteger | KTaggedValueInteger => true | _ => false end.
Section Inline.
Context (consts : list (string * (ty * expr))) (types : list (string * ty)) (T Y : string) (typ : N).
Hypothesis Ht : typ < 256.
Hypothesis HT : assoc T consts = Some (named "AVPType", ENum typ).
Hypothesis Hv : Forall (fun x => assoc x consts = None) the_variables.
Hypothesis Hy : Forall (fun x => assoc x types = None) the_types.
Notation put := (inline_fn consts types).
Lemma typ_back : b2n (n2b typ) = typ.
Proof. now apply b2n_n2b_small. Qed.
Ltac start :=
  unfold the_variables, the_types in *;
  repeat match goal with H : Forall _ (_ :: _) |- _ => let A := fresh "A" in let B := fresh "B" in apply Forall_inv in H as A; apply Forall_inv_tail in H as B; clear H end.
Ltac reduce := cbv beta iota zeta delta -[assoc N.ltb String.append dec b2n n2b].
Ltac put_in := reduce; repeat (progress repeat first [rewrite HT | match goal with H : assoc _ _ = _ |- _ => rewrite H end | rewrite typ_back]; reduce).
Lemma inline_delete x : put (raw_delete (var T) x) = fn_delete x (n2b typ).
Proof. start. put_in. reflexivity. Qed.
Lemma inline_add k x : k <> KVsa -> (value_kind k = true -> assoc Y types = Some (named "u32")) ->
  put (raw_add (var T) (named Y) k x) = fn_add k x (n2b typ).
Proof.
  intros K HY. start. destruct k; try (now destruct K); try (specialize (HY eq_refl)); put_in; reflexivity.
Qed.
Lemma inline_lookup k x : k <> KVsa -> (value_kind k = true -> assoc Y types = Some (named "u32")) ->
  put (raw_lookup (var T) (named Y) k x) = fn_lookup k x (n2b typ).
Proof.
  intros K HY. start. destruct k; try (now destruct K); try (specialize (HY eq_refl)); put_in; reflexivity.
Qed.
Lemma inline_lookup_all k x : has_all k = true -> (value_kind k = true -> assoc Y types = Some (named "u32")) ->
  put (raw_lookup_all (var T) (named Y) k x) = fn_lookup_all k x (n2b typ).
Proof.
  intros K HY. start. destruct k; try discriminate K; try (specialize (HY eq_refl)); put_in; reflexivity.
Qed.
End Inline.
