(** * Running the functions of main.rs that choose what is written for an attribute *)
From Coq Require Import String List NArith ZArith Bool Arith Strings.Byte Lia ZifyBool ZifyNat ZifyN.
From Verif Require Import Prelude PreludeFacts AvpSpec Accessors CodeGen Inflect GenText Rust RustEval CodeRun RustFacts CodeTactics Utf8Text SourceGen GenRun GenTemplates.
Import ListNotations.
Local Open Scope string_scope.
Local Open Scope N_scope.
Local Open Scope list_scope.

Definition scalar_entry (e : text * list radius_value) : Prop :=
  Forall scalar (fst e) /\ Forall (fun v => Forall scalar (rv_name v)) (snd e).
Definition attribute_chunks (U : unicode) (name : text) (typ : N) (k : kind) : list bytes :=
  let f := filling_for U name typ k in
  utf8_text (format f common_template)
  :: match k with KVsa => [] | _ => [utf8_text (format f (template_of k))] end.
Lemma attribute_chunks_text U name typ k :
  concat (attribute_chunks U name typ k) = utf8_text (attribute_text U name typ k).
Proof.
  unfold attribute_chunks, attribute_text, format. rewrite flat_map_app, utf8_text_app.
  destruct k; cbn [concat template_of]; rewrite ?app_nil_r; reflexivity.
Qed.
Lemma has_text_names name m : Forall scalar name -> Forall scalar_entry m ->
  has_text (utf8_text name) (map (fun e => v_string (fst e)) m) = existsb (fun e => text_eqb name (fst e)) m.
Proof.
  intros S F. induction F as [|[k vs] m [K _] F IH]; [reflexivity|].
  unfold v_string in *. cbn [map has_text existsb fst] in *. rewrite utf8_eqb by assumption. destruct (text_eqb name k); [reflexivity|exact IH].
Qed.
Lemma wrote_app path a b w : wrote path (a ++ b) w = wrote path b (wrote path a w).
Proof. revert w. induction a as [|x a IH]; intro w; [reflexivity|]. apply IH. Qed.

(** up to an expression that has been given a name *)
Ltac not_named :=
  lazymatch goal with
  | |- ?l = _ => focus l ltac:(fun o =>
      lazymatch o with eval _ _ _ _ _ ?e => tryif is_var e then fail else idtac | _ => idtac end)
  end.
Ltac not_arms :=
  lazymatch goal with
  | |- ?l = _ => focus l ltac:(fun o => lazymatch o with eval_arms _ _ _ _ => fail | _ => idtac end)
  end.
(** the arm of a [match] that is taken, at once *)
Ltac arm :=
  lazymatch goal with
  | |- ?l = _ => focus l ltac:(fun o =>
      lazymatch o with
      | eval_arms ?ev ?s ?v ?arms =>
          let r := eval lazy beta iota zeta delta [eval_arms pmatch matched_and join_list String.eqb Ascii.eqb Bool.eqb name_of value_type_name] in o in
          change o with r
      end)
  end.

(** a loop that writes, and may panic *)
Fixpoint chunks_of {A} (f : A -> option (list bytes)) (l : list A) : option (list bytes) :=
  match l with
  | [] => Some []
  | a :: l' => match f a with
               | Some c => match chunks_of f l' with Some r => Some (c ++ r) | None => None end
               | None => None
               end
  end.
Lemma writing_loop {A} (g : A -> value) (f : A -> option (list bytes)) body path vars (P : A -> Prop) l :
  Forall P l ->
  (forall a w, P a -> body (g a) (State vars w)
   = match f a with Some c => Norm VUnit (State vars (wrote path c w)) | None => Panicked end) ->
  forall w, for_loop body (map g l) (State vars w)
  = match chunks_of f l with Some c => Norm VUnit (State vars (wrote path c w)) | None => Panicked end.
Proof.
  intros F B. induction F as [|a l Pa F IH]; intro w; [reflexivity|].
  cbn [map for_loop chunks_of]. rewrite B by exact Pa. destruct (f a) as [c|]; [|reflexivity].
  cbn [next_round]. rewrite IH. destruct (chunks_of f l) as [r|]; [|reflexivity]. now rewrite wrote_app.
Qed.

Section Attributes.
  Context (p : profile) (rnd : nat -> byte) (he : bytes -> option string) (U : unicode) (od : N -> bool)
          (ans : list event -> string -> list value -> option value) (path : bytes).
  Context (L : libraries U od ans) (W : writable path ans).
  Let C := gen_cx p rnd he ans.

  Lemma raw_snake s : Forall scalar s -> ans [] "to_snake_case" [VStr (utf8_text s)] = Some (VStr (utf8_text (to_snake_case U s))).
  Proof. exact (lib_snake _ _ _ L s). Qed.
  Lemma raw_screaming s : Forall scalar s ->
    ans [] "to_screaming_snake_case" [VStr (utf8_text s)] = Some (VStr (utf8_text (to_screaming_snake_case U s))).
  Proof. exact (lib_screaming _ _ _ L s). Qed.
  Lemma raw_pascal s : Forall scalar s -> ans [] "to_pascal_case" [VStr (utf8_text s)] = Some (VStr (utf8_text (to_pascal_case U s))).
  Proof. exact (lib_pascal _ _ _ L s). Qed.
  Ltac begin :=
    intros; match goal with |- run _ ?n _ _ _ _ = _ => destruct n as [|n]; [lia|] end;
    unfold C, gen_cx, v_file, v_string in *; unfold writable in W.
  Ltac library :=
    lazymatch goal with
    | |- ?l = _ => focus l ltac:(fun o =>
        lazymatch o with
        | match ans _ _ _ with _ => _ end =>
            first [ rewrite raw_snake by assumption | rewrite raw_screaming by assumption
                  | rewrite raw_pascal by assumption | rewrite W ]; cbv beta iota
        end)
    end.
  Ltac gsteps1 := repeat first [the_format | library | step].

  Lemma run_common n name i typ w : (n > 0)%nat -> Forall scalar name ->
    run C n "" "generate_common_attribute_code" [v_file path; v_string name; v_string i; VInt U8 typ] w
    = RVal VUnit [v_file path; v_string name; v_string i; VInt U8 typ]
        (wrote path [utf8_text (format (Filling (to_snake_case U name) i typ 0 []) common_template)] w).
  Proof.
    begin. assert (H1 : forallb (pieces_of [Method; TypeId; TypeValue]) common_template = true) by reflexivity.
    plain_step.
    match goal with |- context [EFormat ?ps] => change (EFormat ps) with (EFormat (map piece_expr common_template)) end.
    gsteps1. reflexivity.
  Qed.

  Ltac to_named := repeat (not_named; first [the_format | library | step]).
  Ltac call R :=
    lazymatch goal with
    | |- ?l = _ => focus l ltac:(fun o =>
        lazymatch o with
        | after_call (run ?C0 ?n0 ?t ?x ?args ?w) ?k =>
            let H := fresh in pose proof R as H;
            unfold C, gen_cx, v_file, v_string in H; rewrite H; clear H
        end)
    end.
  Ltac template_named x :=
    lazymatch x with
    | "generate_string_attribute_code" => constr:(string_template)
    | "generate_tagged_string_attribute_code" => constr:(tagged_string_template)
    | "generate_user_password_attribute_code" => constr:(user_password_template)
    | "generate_tunnel_password_attribute_code" => constr:(tunnel_password_template)
    | "generate_octets_attribute_code" => constr:(octets_template)
    | "generate_concat_octets_attribute_code" => constr:(concat_octets_template)
    | "generate_ipaddr_attribute_code" => constr:(ipaddr_template)
    | "generate_ipv4_prefix_attribute_code" => constr:(ipv4_prefix_template)
    | "generate_ipv6addr_attribute_code" => constr:(ipv6addr_template)
    | "generate_ipv6_prefix_attribute_code" => constr:(ipv6_prefix_template)
    | "generate_date_attribute_code" => constr:(date_template)
    | "generate_integer_attribute_code" => constr:(integer_template)
    | "generate_tagged_integer_attribute_code" => constr:(tagged_integer_template)
    | "generate_short_attribute_code" => constr:(short_template)
    | "generate_fixed_length_octets_attribute_code" => constr:(fixed_length_octets_template)
    | "generate_value_defined_integer_attribute_code" => constr:(value_defined_integer_template)
    | "generate_tagged_value_defined_integer_attribute_code" => constr:(tagged_value_defined_integer_template)
    end.
  Ltac write_template :=
    lazymatch goal with
    | |- ?l = _ => focus l ltac:(fun o =>
        lazymatch o with
        | after_call (run ?C0 ?n0 ?t ?x ?args ?w) ?k =>
            let ps := template_named x in
            lazymatch args with
            | [_; VStr (utf8_text ?m); VStr (utf8_text ?i)] =>
                call (run_template p rnd he ans path W n0 x ps m i w ltac:(lia) eq_refl eq_refl)
            | [_; VStr (utf8_text ?m); VStr (utf8_text ?i); VInt Lit ?k] =>
                call (run_template_literal p rnd he ans path W n0 x ps m i k w ltac:(lia) eq_refl eq_refl)
            | [_; VStr (utf8_text ?m); VStr (utf8_text ?i); VInt Usize ?k] =>
                call (run_template_length p rnd he ans path W n0 x ps m i k w ltac:(lia) eq_refl eq_refl)
            | [_; VStr (utf8_text ?m); VStr (utf8_text ?i); VStr (utf8_text ?t)] =>
                call (run_template_type p rnd he ans path W n0 x ps m i t w ltac:(lia) eq_refl eq_refl)
            end
        end)
    end.
  Lemma run_attribute n a m w : (n > 1)%nat -> Forall scalar (ra_name a) -> Forall scalar_entry m ->
    run C n "" "generate_attribute_code" [v_file path; v_attribute a; v_names m] w
    = match attribute_kind a (existsb (fun e => text_eqb (ra_name a) (fst e)) m) with
      | Ok k => RVal VUnit [v_file path; v_attribute a; v_names m] (wrote path (attribute_chunks U (ra_name a) (ra_typ a) k) w)
      | _ => RPanic
      end.
  Proof.
    intros N S F. rewrite <- (has_text_names (ra_name a) m S F). clear F. destruct a as [name typ vt fixed con tag].
    unfold v_attribute, v_names, v_value_type. generalize (map (fun e : text * list radius_value => v_string (fst e)) m). intro names.
    unfold v_string in *. cbn [ra_name ra_typ ra_value_type ra_fixed_octets_length ra_concat_octets ra_has_tag] in *.
    destruct n as [|[|n]]; [lia|lia|]. unfold C, gen_cx, v_file, v_string in *. unfold writable in W.
    plain_step. match goal with |- context [EMatch ?e ?arms] => remember (EMatch e arms) as body eqn:B end.
    to_named.
    replace (utf8_text (to_screaming_snake_case U name) ++ bytes_of_string "_TYPE" ++ [])
      with (utf8_text (to_screaming_snake_case U name ++ lit_text "_TYPE")) by (rewrite utf8_text_app, app_nil_r; reflexivity).
    call (run_common (Datatypes.S n) name (to_screaming_snake_case U name ++ lit_text "_TYPE") typ w ltac:(lia) S).
    to_named. subst body.
    remember (wrote path [utf8_text (format (Filling (to_snake_case U name) (to_screaming_snake_case U name ++ lit_text "_TYPE") typ 0 []) common_template)] w) as w1 eqn:W1.
    repeat (not_arms; step).
    destruct vt; arm; destruct tag.
    8: destruct fixed as [fixed|]; unfold v_size.
    all: repeat first [arm | write_template | library | step].
    all: subst w1; try reflexivity.
    all: cbn [attribute_kind ra_has_tag ra_value_type]; match goal with H : has_text _ _ = _ |- _ => rewrite H; reflexivity end.
  Qed.

End Attributes.
