(** * Reading the generated text: the syntax tree of a template

    What Rust.v's parser makes of the tokens of a template, for all names and numbers put into it. *)
From Coq Require Import String Ascii List NArith Bool Strings.Byte Lia ZifyBool ZifyNat ZifyN.
From Verif Require Import Prelude Accessors CodeGen Inflect GenText Rust GenLex CodeAccessors.
Import ListNotations.
Local Open Scope string_scope.
Local Open Scope N_scope.
Local Open Scope list_scope.

(** ** The templates as syntax trees
    As in CodeAccessors.v, before constants and type names are replaced: [num] is the expression for the number
    of the attribute, [vt] the type of its values. *)
Section Raw.
Context (num : expr) (vt : ty).
(** main.rs:378-397 *)
Definition raw_delete (x : string) : fn :=
  Fn ("delete_" ++ x)%string None [packet_mut] None (EBlock [SExpr (of_packet "delete" [num])] None).
Definition raw_value_ty (k : kind) : ty := match k with KValueInteger | KTaggedValueInteger => vt | _ => value_ty k end.
Definition raw_construct (k : kind) (v : expr) : expr :=
  ECall (EPath ["AVP"; from_name k] [])
    ([num] ++ (if tagged k then [var "tag"] else []) ++ [v] ++ (if keyed k then keys else [])).
Definition raw_add_body (k : kind) : expr :=
  match k with
  | KConcatOctets =>
      EBlock [SExpr (of_packet "extend"
        [EMethod (EMethod (EMethod (var "value") "chunks" [] [ENum 253]) "map" []
          [EClosure [PVar "chunk"] (raw_construct k (var "chunk"))]) "collect" [] []])] None
  | KFixedOctets n =>
      let length := EMethod (var "value") "len" [] [] in
      EBlock
        [SExpr (EIf (EBin "!=" length (ENum n))
           (EBlock [SExpr (EReturn (Some (ECall (var "Err")
              [ECall (EPath ["AVPError"; "InvalidAttributeLengthError"] [])
                 [EMethod (EStr (dec n ++ " bytes")) "to_owned" [] []; length]])))] None) None);
         SExpr (of_packet "add" [raw_construct k (var "value")])]
        (Some (ok (ETuple [])))
  | _ =>
      if fallible k
      then EBlock [SExpr (of_packet "add" [ETry (raw_construct k (var "value"))])] (Some (ok (ETuple [])))
      else EBlock [SExpr (of_packet "add" [raw_construct k (var "value")])] None
  end.
(** main.rs:399-902 *)
Definition raw_add (k : kind) (x : string) : fn :=
  Fn ("add_" ++ x)%string None ([packet_mut] ++ tag_param k ++ [("value", raw_value_ty k)])
     (if fallible k then Some (result_of (TyTuple [])) else None) (raw_add_body k).
Definition raw_found_ty (k : kind) : ty :=
  match k with KValueInteger => vt | KTaggedValueInteger => TyTuple [vt; named "Tag"] | _ => found_ty k end.
Definition raw_lookup_body (k : kind) : expr :=
  let each (e : expr) := EBlock [] (Some (EMethod (of_packet "lookup" [num]) "map" [] [EClosure [PVar "v"] e])) in
  match k with
  | KConcatOctets =>
      EBlock [SLet (PVar "avps") None (of_packet "lookup_all" [num])]
        (Some (EMatch (EMethod (var "avps") "is_empty" [] [])
           [(PBool true, var "None");
            (PBool false, ECall (var "Some")
               [EMethod (EMethod (var "avps") "into_iter" [] []) "fold" []
                  [ECall (EPath ["Vec"; "new"] []) [];
                   EClosure [PVar "acc"; PVar "v"]
                     (EBlock [SExpr (EMethod (var "acc") "extend" [] [convert k "v"])] (Some (var "acc")))]])]))
  | KValueInteger => each (ok (ECast (ETry (convert k "v")) vt))
  | KTaggedValueInteger => each (EBlock [split_tag k "v"] (Some (ok (ETuple [ECast (var "v") vt; var "t"]))))
  | _ => each (convert k "v")
  end.
Definition raw_lookup (k : kind) (x : string) : fn :=
  Fn ("lookup_" ++ x)%string None [packet_ref]
     (Some (option_of (if bare k then raw_found_ty k else result_of (raw_found_ty k)))) (raw_lookup_body k).
Definition raw_lookup_all_body (k : kind) : expr :=
  let push (e : expr) := EMethod (var "vec") "push" [] [e] in
  EBlock
    [SLet (PVar "vec") None (ECall (EPath ["Vec"; "new"] []) []);
     SExpr (EFor (PVar "avp") (of_packet "lookup_all" [num])
       (match k with
        | KTaggedValueInteger => EBlock [split_tag k "avp"] (Some (push (ETuple [ECast (var "v") vt; var "t"])))
        | KValueInteger => EBlock [] (Some (push (ECast (ETry (convert k "avp")) vt)))
        | _ => EBlock [] (Some (push (if bare k then convert k "avp" else ETry (convert k "avp"))))
        end))]
    (Some (if bare k then var "vec" else ok (var "vec"))).
Definition raw_lookup_all (k : kind) (x : string) : fn :=
  Fn ("lookup_all_" ++ x)%string None [packet_ref]
     (Some (if bare k then vec_of (raw_found_ty k) else result_of (vec_of (raw_found_ty k)))) (raw_lookup_all_body k).
End Raw.
(** the functions of an attribute, in the order of the text *)
Definition has_lookup (k : kind) : bool := match k with KVsa => false | _ => true end.
Definition has_all (k : kind) : bool := match k with KVsa | KConcatOctets => false | _ => true end.
Definition raw_fns (k : kind) (x T Y : string) : list fn :=
  [raw_delete (var T) x]
  ++ (if has_lookup k then [raw_add (var T) (named Y) k x; raw_lookup (var T) (named Y) k x] else [])
  ++ (if has_all k then [raw_lookup_all (var T) (named Y) k x] else []).

(** ** Items *)
(** parsing [ts] takes [c] steps and gives the items [is]; 100 is enough for the depth of each *)
Definition before (is : list aitem) (r : option (list aitem * list token)) : option (list aitem * list token) :=
  match r with Some (is', r) => Some (is ++ is', r) | None => None end.
Definition reads (c : nat) (ts : list token) (is : list aitem) : Prop :=
  forall n rest, p_items (c + (100 + n)) false (ts ++ rest) = before is (p_items (100 + n) false rest).
Lemma reads_nil : reads 0 [] [].
Proof. intros n rest. cbn [Nat.add app before]. destruct (p_items _ false rest) as [[is r]|]; reflexivity. Qed.
Lemma reads_app c d ts us is js : reads c ts is -> reads d us js -> reads (c + d) (ts ++ us) (is ++ js).
Proof.
  intros A B n rest. rewrite <- app_assoc. replace (c + d + (100 + n))%nat with (c + (100 + (d + n)))%nat by lia.
  rewrite A. replace (100 + (d + n))%nat with (d + (100 + n))%nat by lia. rewrite B.
  destruct (p_items (100 + n) false rest) as [[? ?]|]; cbn [before]; [|reflexivity]. now rewrite app_assoc.
Qed.
Definition parses_fn (ts : list token) (f : fn) : Prop := forall n rest, p_fn (100 + n) (ts ++ rest) = Some (f, rest).
Lemma step_fn g l : p_items (S (S g)) false (TId "pub" :: TId "fn" :: l)
  = match p_fn (S g) l with Some (f, r) => before [([], IFn f)] (p_items (S g) false r) | None => None end.
Proof. reflexivity. Qed.
Lemma reads_fn ts f : parses_fn ts f -> reads 1 (TId "pub" :: TId "fn" :: ts) [([], IFn f)].
Proof.
  intros H n rest. change (1 + (100 + n))%nat with (S (S (99 + n))). cbn [app]. rewrite step_fn.
  change (S (99 + n)) with (100 + n)%nat. now rewrite H.
Qed.

(** ** Names that begin with a capital letter are not words of the language *)
Definition letters : list ascii := list_ascii_of_string "ABCDEFGHIJKLMNOPQRSTUVWXYZ".
Lemma upper_letter c : is_upper c = true -> In c letters.
Proof.
  destruct c as [[] [] [] [] [] [] [] []]; intro H; try discriminate H; vm_compute; tauto.
Qed.
Definition capitalised (s : string) : bool := match s with String c _ => is_upper c | EmptyString => false end.
Lemma by_letter (P : string -> Prop) : Forall (fun c => forall s, P (String c s)) letters -> forall s, capitalised s = true -> P s.
Proof.
  intros F [|c s] H; [discriminate H|]. cbn in H. apply upper_letter in H. rewrite Forall_forall in F. now apply F.
Qed.

Lemma by_letters (P : string -> string -> Prop) :
  Forall (fun c => Forall (fun d => forall s t, P (String c s) (String d t)) letters) letters ->
  forall s, capitalised s = true -> forall t, capitalised t = true -> P s t.
Proof.
  intros F [|c s] H [|d t] H'; try discriminate. cbn in H, H'. apply upper_letter in H, H'. rewrite Forall_forall in F.
  specialize (F c H). rewrite Forall_forall in F. now apply F.
Qed.

(** ** The tokens of a template, function by function *)
Definition is_pub (t : stoken) : bool := match t with Plain t => is_id "pub" t | _ => false end.
Fixpoint split_pub (ts : list stoken) : list stoken * list (list stoken) :=
  match ts with
  | [] => ([], [])
  | t :: ts => let (a, l) := split_pub ts in if is_pub t then ([], (t :: a) :: l) else (t :: a, l)
  end.
Definition item_tokens (ps : list piece) : list (list stoken) := snd (split_pub (template_tokens false ps)).
Definition the_fixed (k : kind) : N := match k with KFixedOctets n => n | _ => 0 end.
Definition fn_tokens (k : kind) (e : env) (i : nat) : list token :=
  map (the_token e) (tl (tl (nth i (item_tokens (common_template ++ template_of k)) []))).

Ltac by_letters := apply by_letter; unfold letters; cbn [list_ascii_of_string];
  repeat (apply Forall_cons; [intros ?|]); [..|apply Forall_nil].
Ltac the_tokens :=
  match goal with |- context [map (the_token ?e) ?l] => let v := eval vm_compute in l in change l with v end.
Lemma delete_parses k x T typ Y : capitalised T = true ->
  parses_fn (fn_tokens k (Env x T typ (the_fixed k) Y) 1) (raw_delete (var T) x).
Proof.
  assert (E : fn_tokens k (Env x T typ (the_fixed k) Y) 1 = map (the_token (Env x T typ (the_fixed k) Y)) (tl (tl (nth 1 (item_tokens common_template) []))))
    by (unfold fn_tokens; f_equal; destruct k; vm_compute; reflexivity).
  rewrite E. clear E. the_tokens. revert T. by_letters. all: intros n rest; vm_compute; reflexivity.
Qed.
(** Of a template that does not name the type of the values, and of one that does *)
Definition value_defined (k : kind) : bool := match k with KValueInteger | KTaggedValueInteger => true | _ => false end.
Ltac computes := intros ? ?; vm_compute; reflexivity.
Ltac plain_kind := the_tokens; match goal with H : capitalised ?T = true |- _ => revert T H end; by_letters; computes.
Ltac value_kind :=
  the_tokens; match goal with H : capitalised ?T = true, H' : capitalised ?Y = true |- _ => revert T H Y H' end;
  apply by_letters; unfold letters; cbn [list_ascii_of_string];
  repeat (apply Forall_cons; [repeat (apply Forall_cons; [intros ? ?|]); [..|apply Forall_nil]|]); [..|apply Forall_nil]; computes.
Lemma add_parses k x T typ Y : capitalised T = true -> capitalised Y = true -> has_lookup k = true ->
  parses_fn (fn_tokens k (Env x T typ (the_fixed k) Y) 2) (raw_add (var T) (named Y) k x).
Proof.
  intros HT HY L. unfold fn_tokens. destruct k; try discriminate L; cbn [the_fixed].
  all: match goal with |- context [template_of ?k] => let v := eval vm_compute in (value_defined k) in
         lazymatch v with false => clear HY; plain_kind | true => idtac end end.
  all: value_kind.
Qed.
Lemma lookup_parses k x T typ Y : capitalised T = true -> capitalised Y = true -> has_lookup k = true ->
  parses_fn (fn_tokens k (Env x T typ (the_fixed k) Y) 3) (raw_lookup (var T) (named Y) k x).
Proof.
  intros HT HY L. unfold fn_tokens. destruct k; try discriminate L; cbn [the_fixed].
  all: match goal with |- context [template_of ?k] => let v := eval vm_compute in (value_defined k) in
         lazymatch v with false => clear HY; plain_kind | true => idtac end end.
  all: value_kind.
Qed.
Lemma lookup_all_parses k x T typ Y : capitalised T = true -> capitalised Y = true -> has_all k = true ->
  parses_fn (fn_tokens k (Env x T typ (the_fixed k) Y) 4) (raw_lookup_all (var T) (named Y) k x).
Proof.
  intros HT HY L. unfold fn_tokens. destruct k; try discriminate L; cbn [the_fixed].
  all: match goal with |- context [template_of ?k] => let v := eval vm_compute in (value_defined k) in
         lazymatch v with false => clear HY; plain_kind | true => idtac end end.
  all: value_kind.
Qed.
