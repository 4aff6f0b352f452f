(** * Reading the generated text: items other than functions *)
From Coq Require Import String Ascii List NArith Bool Strings.Byte Lia ZifyBool ZifyNat ZifyN.
From Verif Require Import Prelude Rust CodeAccessors GenTree.
Import ListNotations.
Local Open Scope string_scope.
Local Open Scope N_scope.
Local Open Scope list_scope.

Lemma step_const g x l : p_items (S (S g)) false (TId "pub" :: TId "const" :: TId x :: TP ":" :: l)
  = match p_ty (S g) l with
    | Some (t, r) =>
        match expect_p "=" r with
        | Some r =>
            match p_expr (S g) false r with
            | Some (e, r) =>
                match expect_p ";" r with
                | Some r => before [([], IConst x t e)] (p_items (S g) false r)
                | None => None
                end
            | None => None
            end
        | None => None
        end
    | None => None
    end.
Proof. reflexivity. Qed.
Lemma step_type g x l : p_items (S (S g)) false (TId "pub" :: TId "type" :: TId x :: TP "=" :: l)
  = match p_ty (S g) l with
    | Some (t, r) => match expect_p ";" r with Some r => before [([], IType x t)] (p_items (S g) false r) | None => None end
    | None => None
    end.
Proof. reflexivity. Qed.
Lemma step_use g l : p_items (S (S g)) false (TId "use" :: l) = p_items (S g) false (skip_to ";" l).
Proof. reflexivity. Qed.
(** [X: t = n;], the type being read from the tokens [ts] *)
Lemma reads_const x ts t v : (forall n rest, p_ty (100 + n) (ts ++ TP "=" :: rest) = Some (t, TP "=" :: rest)) ->
  reads 1 (TId "pub" :: TId "const" :: TId x :: TP ":" :: ts ++ [TP "="; TNum v; TP ";"]) [([], IConst x t (ENum v))].
Proof.
  intros H n rest. change (1 + (100 + n))%nat with (S (S (99 + n))). cbn [app]. rewrite <- app_assoc. cbn [app]. rewrite step_const.
  change (S (99 + n)) with (100 + n)%nat. rewrite H. cbn [expect_p is_p]. change (String.eqb "=" "=") with true. cbv iota.
  replace (p_expr (100 + n) false (TNum v :: TP ";" :: rest)) with (Some (ENum v, TP ";" :: rest)) by (vm_compute; reflexivity).
  cbn [expect_p is_p]. change (String.eqb ";" ";") with true. reflexivity.
Qed.
Lemma named_ty y : capitalised y = true -> forall n rest, p_ty (S n) (TId y :: TP "=" :: rest) = Some (named y, TP "=" :: rest).
Proof.
  revert y. apply (by_letter (fun y => forall n rest, p_ty (S n) (TId y :: TP "=" :: rest) = Some (named y, TP "=" :: rest))).
  unfold letters; cbn [list_ascii_of_string]; repeat (apply Forall_cons; [intros ? ? ?|]); [..|apply Forall_nil]. all: vm_compute; reflexivity.
Qed.
Lemma path_ty f x r : x <> "dyn" -> x <> "impl" -> p_ty (S f) (TId x :: TP "::" :: r)
  = match p_ty f r with
    | Some (t, r) => match t with TyName p a => Some (TyName (x :: p) a, r) | _ => None end
    | None => None
    end.
Proof.
  intros D I. destruct x as [|[[] [] [] [] [] [] [] []] x]; try reflexivity.
  - destruct x as [|[[] [] [] [] [] [] [] []] x]; try reflexivity. destruct x as [|[[] [] [] [] [] [] [] []] x]; try reflexivity.
    destruct x as [|[[] [] [] [] [] [] [] []] x]; try reflexivity. destruct x as [|? x]; [now destruct I|reflexivity].
  - destruct x as [|[[] [] [] [] [] [] [] []] x]; try reflexivity. destruct x as [|[[] [] [] [] [] [] [] []] x]; try reflexivity.
    destruct x as [|? x]; [now destruct D|reflexivity].
Qed.
