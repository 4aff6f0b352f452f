(** * Running parse_dict_file of main.rs *)
From Coq Require Import String List NArith ZArith Bool Arith Strings.Byte Lia ZifyBool ZifyNat ZifyN.
From Verif Require Import Prelude PreludeFacts AvpSpec Accessors CodeGen Inflect GenText Rust RustEval CodeRun RustFacts CodeTactics Utf8Text SourceGen GenRun GenTemplates GenAttributes GenDict GenHeader.
Import ListNotations.
Local Open Scope string_scope.
Local Open Scope N_scope.
Local Open Scope list_scope.

Lemma len_cons5 (a b c d e : value) l : (5 <=? len (a :: b :: c :: d :: e :: l)) = true.
Proof. unfold len. cbn [length]. lia. Qed.
Lemma len_cons4 (a b c d : value) l : (len (a :: b :: c :: d :: l) <? 4) = false.
Proof. unfold len. cbn [length]. lia. Qed.
Lemma comma_bytes : bytes_of_string "," = [x2c].
Proof. reflexivity. Qed.
Local Hint Rewrite len_cons5 len_cons4 comma_bytes : vals.
Lemma split_comma_values t : Forall scalar t -> map VStr (split_text x2c (utf8_text t) []) = map (fun i : text => VStr (utf8_text i)) (split_comma t).
Proof. intro S. change (@nil byte) with (utf8_text (rev [])). now rewrite split_comma_utf8, map_map. Qed.
(** a loop that changes variables *)
Lemma state_loop {A B} (g : A -> value) (vars : B -> list (string * value)) (f : B -> A -> B) body (P : A -> Prop) l w :
  Forall P l ->
  (forall b a k, P a -> next_round (body (g a) (State (vars b) w)) k = k (State (vars (f b a)) w)) ->
  forall b, for_loop body (map g l) (State (vars b) w) = Norm VUnit (State (vars (fold_left f l b)) w).
Proof.
  intros F H. induction F as [|a l Pa F IH]; intro b; [reflexivity|].
  cbn [map for_loop fold_left]. rewrite H by exact Pa. apply IH.
Qed.
Lemma scalar_split_comma t : Forall scalar t -> forall r, Forall scalar r -> Forall (Forall scalar) (split_comma_from r t).
Proof.
  induction 1 as [|c t S _ IH]; intros r R; cbn [split_comma_from].
  - constructor; [now apply Forall_rev|constructor].
  - destruct (c =? 44); [constructor; [now apply Forall_rev|]|]; apply IH; now constructor.
Qed.

Section Parse.
  Context (p : profile) (rnd : nat -> byte) (he : bytes -> option string) (U : unicode) (od : N -> bool)
          (ans : list event -> string -> list value -> option value).
  Context (L : libraries U od ans).
  Let C := gen_cx p rnd he ans.

  (** ** The types of attributes *)
  Definition v_type_result (o : option value_type) : value :=
    match o with Some t => vok (v_value_type t) | None => verr VUnit end.
  Lemma run_from_str n s w : (n > 0)%nat -> Forall scalar s ->
    run C n "RadiusAttributeValueType" "from_str" [v_string s] w
    = RVal (v_type_result (value_type_from_str s)) [v_string s] w.
  Proof.
    intros N S. destruct n as [|n]; [lia|]. unfold C, gen_cx, v_string.
    unfold value_type_from_str. cbv zeta. rewrite <- !(utf8_eqb_lit s) by (assumption || reflexivity).
    plain_step. steps.
    all: repeat match goal with H : bytes_eqb _ _ = _ |- _ => rewrite H; clear H end; reflexivity.
  Qed.

  Definition v_path (path : bytes) : value := VCtor "Path" "Path" [VStr path].
  Definition v_lines (lines : list text) : value := VList (map (fun l => vok (v_string l)) lines).
  (** what the environment answers about a file with the given lines *)
  Definition readable (path : bytes) (lines : list text) : Prop :=
    (forall tr, ans tr "File::open" [v_path path] = Some (vok (v_file path))) /\
    (forall tr, ans tr "File::lines" [VStr path] = Some (v_lines lines)).
  Definition read_events (path : bytes) (lines : list text) (w : world) : world :=
    World (w_random w)
      (Event "File::lines" [VStr path] (Some (v_lines lines)) :: Event "File::open" [v_path path] (Some (vok (v_file path))) :: w_trace w).
  Lemma run_read_lines n path lines w : (n > 0)%nat -> readable path lines ->
    run C n "" "read_lines" [v_path path] w = RVal (vok (v_lines lines)) [v_path path] (read_events path lines w).
  Proof.
    intros N [O R]. destruct n as [|n]; [lia|]. unfold C, gen_cx, v_path, v_lines, v_file, vok, read_events in *.
    repeat first [rewrite O | rewrite R | step]. reflexivity.
  Qed.

  (** ** The parts of the loop over the lines *)
  Definition nowhere : expr := EBool false.
  Definition parse_body : expr :=
    Eval vm_compute in match lookup_fn generator_program "" "parse_dict_file" with Some f => f_body f | None => nowhere end.
  Definition line_body : expr :=
    Eval vm_compute in match parse_body with EBlock ss _ => match last ss (SExpr nowhere) with SExpr (EFor _ _ b) => b | _ => nowhere end | _ => nowhere end.
  Definition arm_of (i : nat) (e : expr) : expr :=
    match e with EBlock _ (Some (EMatch _ arms)) => snd (nth i arms (PWild, nowhere)) | _ => nowhere end.
  Definition statement (i : nat) (e : expr) : expr :=
    match e with EBlock ss _ => match nth i ss (SExpr nowhere) with SExpr e => e | SLet _ _ e => e | _ => nowhere end | _ => nowhere end.
  Definition attribute_arm : expr := Eval vm_compute in arm_of 0 line_body.
  Definition value_arm : expr := Eval vm_compute in arm_of 1 line_body.
  Definition options_part : expr := Eval vm_compute in statement 3 attribute_arm.
  Definition type_part : expr := Eval vm_compute in statement 4 attribute_arm.
  Definition push_part : expr := Eval vm_compute in statement 5 attribute_arm.

  Context (path : bytes) (lines : list text).
  Definition outer (attrs : list radius_attribute) (values : value_map) : list (string * value) :=
    [("lines", VList (map (fun l : text => VCtor "" "Ok" [v_string l]) lines));
     ("radius_attribute_to_values", v_value_map values);
     ("radius_attributes", VList (map v_attribute attrs));
     ("fixed_length_octets_re", VCtor "Regex" "Regex" [VStr (bytes_of_string "^octets\[(\d+)]$")]);
     ("trailing_comment_re", VCtor "Regex" "Regex" [VStr (bytes_of_string "\s*?#.+?$")]);
     ("ws_re", VCtor "Regex" "Regex" [VStr (bytes_of_string "\s+")]);
     ("line_filter_re", VCtor "Regex" "Regex" [VStr (bytes_of_string "^(?:#.*|)$")]);
     ("dict_file_path", VCtor "Path" "Path" [VStr path])].
  Definition in_line (line : text) (items : list text) (kind : text) (attrs : list radius_attribute) (values : value_map)
    : list (string * value) :=
    ("kind", v_string kind) :: ("items", VList (map v_string items)) :: ("line", v_string line)
    :: ("line_result", VCtor "" "Ok" [v_string line]) :: outer attrs values.
  Definition v_encryption (o : option encryption_type) : value :=
    match o with
    | Some EncUserPassword => vsome (VCtor "EncryptionType" "UserPassword" [])
    | Some EncTunnelPassword => vsome (VCtor "EncryptionType" "TunnelPassword" [])
    | None => vnone
    end.
  Definition in_attribute (o : options) (vars : list (string * value)) : list (string * value) :=
    ("concat_octets", VBool (op_concat o)) :: ("has_tag", VBool (op_has_tag o)) :: ("encryption_type", v_encryption (op_encryption o)) :: vars.

  Ltac bare := unfold C, gen_cx, in_attribute, in_line, outer, v_string, v_encryption, vsome, vnone, vok, verr in *.
  Lemma run_options n line items kind attrs values w : (n > 1)%nat -> Forall (Forall scalar) items ->
    eval C n "" (run C n) (State (in_attribute (Options None false false) (in_line line items kind attrs values)) w) options_part
    = Norm VUnit (State (in_attribute (read_options items) (in_line line items kind attrs values)) w).
  Proof.
    intros N S. unfold options_part.
    destruct items as [|i0 [|i1 [|i2 [|i3 [|i4 more]]]]].
    1-5: bare; cbn [read_options op_concat op_has_tag op_encryption]; steps; reflexivity.
    assert (S4 : Forall scalar i4) by (do 4 apply Forall_inv_tail in S; now apply Forall_inv in S).
    cbn [read_options]. bare. cbn [map].
    steps.
    rewrite (split_comma_values i4 S4).
    match goal with |- context [for_loop ?b ?l ?s] =>
      pose (V := fun o => in_attribute o (in_line line (i0 :: i1 :: i2 :: i3 :: i4 :: more) kind attrs values));
      change s with (State (V (Options None false false)) w);
      rewrite (state_loop (fun i : text => VStr (utf8_text i)) V read_option b (Forall scalar) (split_comma i4) w) end.
    - subst V. bare. steps. reflexivity.
    - now apply scalar_split_comma.
    - intros o t k T. subst V. unfold read_option. rewrite <- !(utf8_eqb_lit t) by (assumption || reflexivity).
      bare. unfold for_body. steps.
      all: repeat match goal with H : bytes_eqb _ _ = _ |- _ => rewrite H; clear H end; destruct o as [[[]|] ? ?]; reflexivity.
  Qed.

  (** the texts of the errors *)
  Definition error_text (e : dict_error) : text :=
    match e with
    | LackedItems => lit_text "the number of items is lacked in a line"
    | InvalidType t => lit_text "invalid type has come => " ++ t
    | UnexpectedKind k => lit_text "unexpected kind has come => " ++ k
    end.
  Lemma raw_octets s : Forall scalar s ->
    ans [] "Regex::captures" [VStr (bytes_of_string "^octets\[(\d+)]$"); VStr (utf8_text s)]
    = Some (match fixed_octets_capture od s with
            | Some ds => VCtor "" "Some" [VList [VStr (utf8_text s); VStr (utf8_text ds)]]
            | None => VCtor "" "None" []
            end).
  Proof. exact (lib_octets _ _ _ L s). Qed.
  Lemma scalar_capture s ds : Forall scalar s -> fixed_octets_capture od s = Some ds -> Forall scalar ds.
  Proof.
    unfold fixed_octets_capture. intro S.
    assert (P : forall q t r, Forall scalar t -> strip_prefix q t = Some r -> Forall scalar r).
    { induction q as [|x q IH]; intros [|y t] r T H; try discriminate; cbn [strip_prefix] in H; [injection H as <-; constructor|now injection H as <-|].
      destruct (x =? y); [|discriminate]. inversion T; subst. eauto. }
    destruct (strip_prefix _ s) as [r|] eqn:E; [|discriminate]. apply P in E; [|exact S]. apply Forall_rev in E.
    destruct (rev r) as [|c rev_ds]; [discriminate|]. inversion E; subst. clear E.
    intro H. assert (ds = rev rev_ds) as ->; [|now apply Forall_rev].
    revert H. destruct (_ && _); repeat (match goal with |- match ?x with _ => _ end = _ -> _ => destruct x end); congruence.
  Qed.
  Lemma parse_usize b : parse_as generator_program (TyName ["usize"] []) (VStr b)
    = match RustEval.parse_uint 18446744073709551616 b with Some n => PVal (VCtor "" "Ok" [VInt Usize n]) | None => PVal (VCtor "" "Err" [VError []]) end.
  Proof. reflexivity. Qed.
  (** what is known about calls, answers and numbers *)
  Ltac given tac :=
    lazymatch goal with
    | |- ?l = _ => focus l ltac:(fun o =>
        lazymatch o with
        | after_call (run _ _ _ _ _ _) _ => tac
        | match ans _ _ _ with _ => _ end => tac; cbv beta iota
        | lift (parse_as _ _ _) _ => tac
        end)
    end.
  Lemma run_type n o line i0 i1 i2 i3 more kind attrs values w : (n > 1)%nat -> Forall scalar i3 ->
    eval C n "" (run C n) (State (in_attribute o (in_line line (i0 :: i1 :: i2 :: i3 :: more) kind attrs values)) w) type_part
    = match read_type od o i3 with
      | Ok (t, f) => Norm (VTuple [v_value_type t; v_size f]) (State (in_attribute o (in_line line (i0 :: i1 :: i2 :: i3 :: more) kind attrs values)) w)
      | Err e => Retd (verr (v_string (error_text e))) (State (in_attribute o (in_line line (i0 :: i1 :: i2 :: i3 :: more) kind attrs values)) w)
      | _ => Panicked
      end.
  Proof.
    intros N S. unfold type_part, read_type.
    pose proof (fun w => run_from_str n i3 w ltac:(lia) S) as F. unfold v_type_result in F.
    pose proof (raw_octets i3 S) as O.
    destruct o as [enc tag con]. bare. cbn [map op_encryption op_has_tag op_concat].
    unfold v_value_type in F.
    repeat match goal with |- context [VCtor "Regex" "Regex" [VStr (bytes_of_string ?a)]] =>
      lazymatch a with "^octets\[(\d+)]$" => fail | _ => generalize (VCtor "Regex" "Regex" [VStr (bytes_of_string a)]); intro end end.
    generalize (VCtor "Path" "Path" [VStr path]), (VList (map v_attribute attrs)), (v_value_map values),
      (VList (map (fun l : text => VCtor "" "Ok" [VStr (utf8_text l)]) lines)), (VStr (utf8_text line)), (VStr (utf8_text kind)). intros.
    destruct (value_type_from_str i3) as [vt|] eqn:E.
    - repeat (not_arms; first [given ltac:(rewrite F) | step]).
      destruct vt; cbn [value_type_name]; [destruct enc as [[]|]|..]; steps; reflexivity.
    - pose proof (scalar_capture i3) as SC. destruct (fixed_octets_capture od i3) as [ds|].
      + specialize (SC _ S eq_refl). pose proof (parse_uint_utf8 (2 ^ 64 - 1) 18446744073709551616 ds SC eq_refl) as PU.
        repeat first [given ltac:(first [rewrite F | rewrite O | rewrite parse_usize, PU]) | step]; reflexivity.
      + repeat first [given ltac:(first [rewrite F | rewrite O]) | step]. cbn [error_text].
        rewrite utf8_text_app, app_nil_r. reflexivity.
  Qed.
End Parse.
