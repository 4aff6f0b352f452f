(** * Running the interpreter of RustEval.v inside proofs: equations and tactics *)
From Coq Require Import String List NArith ZArith Bool Arith Strings.Byte Lia ZifyBool ZifyNat ZifyN.
From Verif Require Import Prelude PreludeFacts Md5 Utf8 Code Rust RustEval CodeRun.
Import ListNotations.
Local Open Scope string_scope.
Local Open Scope N_scope.
Local Open Scope list_scope.

Lemma eval_eq C fuel self call s e :
  eval C fuel self call s e = eval_step C fuel self call (eval C fuel self call) s e.
Proof. destruct e; reflexivity. Qed.
Lemma run_eq C n t x args w :
  run C (S n) t x args w =
  match lookup_fn (cx_program C) t x with
  | None => RStuck
  | Some f =>
      let ps := match f_self f with Some _ => ("self", TyName ["Self"] []) :: f_params f | None => f_params f end in
      match bind_params ps (cx_program C) args with
      | None => RStuck
      | Some bs =>
          finish (cx_program C) (count bs) (f_ret f)
                 (eval C n t (run C n) (push_vars bs (State [] w)) (f_body f))
      end
  end.
Proof. reflexivity. Qed.

Lemma bytes_of_values_vu8 b : bytes_of_values (u8_values b) = Some b.
Proof. unfold u8_values; induction b; cbn; [easy|]. now rewrite IHb, n2b_b2n. Qed.
Lemma bytes_of_values_nil : bytes_of_values [] = Some [].
Proof. reflexivity. Qed.
Lemma bytes_of_values_u8 n l :
  bytes_of_values (VInt U8 n :: l) = match bytes_of_values l with Some b => Some (n2b n :: b) | None => None end.
Proof. reflexivity. Qed.
Lemma bytes_of_values_lit n l :
  bytes_of_values (VInt Lit n :: l) = match bytes_of_values l with Some b => Some (n2b n :: b) | None => None end.
Proof. reflexivity. Qed.
Lemma bytes_of_values_repeat n k : bytes_of_values (repeat (VInt Lit n) k) = Some (repeat (n2b n) k).
Proof. induction k; cbn; [easy|]. now rewrite IHk. Qed.
Lemma concat_values_nil : concat_values [] = Some [].
Proof. reflexivity. Qed.
Lemma concat_values_bytes b l :
  concat_values (VBytes b :: l) = match concat_values l with Some r => Some (b ++ r) | None => None end.
Proof. reflexivity. Qed.
Lemma concat_values_list a l :
  concat_values (VList a :: l)
  = match bytes_of_values a with
    | Some b => match concat_values l with Some r => Some (b ++ r) | None => None end
    | None => None
    end.
Proof. reflexivity. Qed.

Lemma skipn_1 (x : byte) l : skipn (N.to_nat 1) (x :: l) = l.
Proof. reflexivity. Qed.
Lemma n2b_mod n : n2b (n mod 256) = n2b n.
Proof. apply b2n_inj. rewrite !b2n_n2b. now rewrite N.mod_mod. Qed.
Lemma b2n_mod64 b : b2n b mod 18446744073709551616 = b2n b.
Proof. apply N.mod_small. pose proof (b2n_lt b). lia. Qed.
Lemma eval_list_nil ev s k : eval_list ev s [] k = k [] s. Proof. reflexivity. Qed.
Lemma eval_list_cons ev s e es k :
  eval_list ev s (e :: es) k = bindo (ev s e) (fun v1 s1 => eval_list ev s1 es (fun vs => k (v1 :: vs))).
Proof. reflexivity. Qed.
Lemma eval_opt_some ev s e k : eval_opt ev s (Some e) k = bindo (ev s e) (fun v1 s1 => k (Some v1) s1).
Proof. reflexivity. Qed.
Lemma eval_opt_none ev s k : eval_opt ev s None k = k None s. Proof. reflexivity. Qed.
Lemma eval_fields_cons ev pg t decl s x e fs acc : is_parse e = false ->
  eval_fields ev pg t decl s ((x, e) :: fs) acc
  = bindo (ev s e) (fun v1 s1 => eval_fields ev pg t decl s1 fs ((x, coerce_opt pg (assoc x decl) v1) :: acc)).
Proof. intro H. cbn [eval_fields]. now rewrite H. Qed.
Lemma eval_fields_parse ev pg t decl s x e fs acc :
  eval_fields ev pg t decl s ((x, EMethod (EMethod e "parse" [] []) "unwrap" [] []) :: fs) acc
  = bindo (bindo (ev s e) (fun v1 s1 => lift (parse_field pg (assoc x decl) v1) s1))
          (fun v1 s1 => eval_fields ev pg t decl s1 fs ((x, coerce_opt pg (assoc x decl) v1) :: acc)).
Proof. reflexivity. Qed.
Lemma eval_fields_nil ev pg t decl s acc :
  eval_fields ev pg t decl s [] acc = match order_fields decl acc with Some l => Norm (VStruct t l) s | None => Stuck end.
Proof. reflexivity. Qed.
Lemma eval_stmts_none ev pg s : eval_stmts ev pg None s [] = Norm VUnit s. Proof. reflexivity. Qed.
Lemma eval_stmts_some ev pg e s : eval_stmts ev pg (Some e) s [] = ev s e. Proof. reflexivity. Qed.
Lemma eval_stmts_let ev pg e0 s p t e ss : is_guard e = false ->
  eval_stmts ev pg e0 s (SLet p t e :: ss)
  = bindo (ev s e) (fun v1 s1 =>
      match pmatch p (coerce_opt pg t v1) with MYes bs => eval_stmts ev pg e0 (push_vars bs s1) ss | _ => Stuck end).
Proof. intro H. cbn [eval_stmts]. unfold guarded. now rewrite H. Qed.
Lemma eval_stmts_guard ev pg e0 s p t e ss : is_guard e = true ->
  eval_stmts ev pg e0 s (SLet p t e :: ss)
  = bindo (ev s e) (fun v1 s1 =>
      match pmatch p (coerce_opt pg t v1) with MYes bs => unlock (eval_stmts ev pg e0 (push_vars bs s1) ss) | _ => Stuck end).
Proof. intro H. cbn [eval_stmts]. unfold guarded. now rewrite H. Qed.
Lemma eval_stmts_const ev pg e0 s x t e ss :
  eval_stmts ev pg e0 s (SConst x t e :: ss)
  = bindo (ev s e) (fun v1 s1 => eval_stmts ev pg e0 (push_vars [(x, coerce pg t v1)] s1) ss).
Proof. reflexivity. Qed.
Lemma eval_stmts_expr ev pg e0 s e ss :
  eval_stmts ev pg e0 s (SExpr e :: ss) = bindo (ev s e) (fun v1 s1 => eval_stmts ev pg e0 s1 ss).
Proof. reflexivity. Qed.
Lemma eval_arms_cons ev s v p e arms :
  eval_arms ev s v ((p, e) :: arms)
  = match pmatch p v with
    | MYes bs => pop_out s (ev (push_vars bs s) e)
    | MNo => eval_arms ev s v arms
    | MStuck => Stuck
    end.
Proof. reflexivity. Qed.
Ltac norm_names t :=
  eval lazy beta iota zeta delta [eval_step path_eqb String.eqb Ascii.eqb Bool.eqb mem] in t.
Ltac norm_calls t :=
  eval lazy beta iota zeta delta [call_fn call_method cx_program st_world f_params f_self] in t.
Ltac norm_ho t :=
  eval lazy beta iota zeta delta [higher_order String.eqb Ascii.eqb Bool.eqb] in t.
Ltac norm_glue t :=
  eval lazy beta iota zeta delta [
    String.eqb Ascii.eqb Bool.eqb mem String.append
    name_of path_eqb count minus drop push_rev join_list any assoc
    cx_profile cx_program cx_random cx_hash_error cx_answer
    w_random w_trace st_vars st_world
    VUnit vok verr vsome vnone vu8
    modulus ity_eqb join bin_op int_op uadd_value umul_value usub_value
    byte_of_value to_bytes as_bytes vec_extend vec_push items_of
    index_value order_fields field replace set_field show show_value
    int_type int_ty is_u8 informative coerce coerce_opt like
    widens cast library_fn library_method
    lift_opt push_vars pop_to set_var matched_and pmatch
    array_use array_length try_into bind_params
    apply_closure for_body
    write_place store write_back type_name is_variant ask asserted tell receive draw type_of
    method call_path read_path bound_of join_texts option_map
    values_rev param_values unlock release timed
    map_update typed_parse foreign consult parse_field
    v_bytes v_str v_text v_u32 v_u16 v_usize v_pair v_tag v_ipv4 v_ipv6 v_date v_code v_avp v_avps
    v_attributes v_packet v_string_vsa v_tagged_string_vsa
    f_name f_self f_params f_ret f_body ] in t.

(** what a program declares, computed *)
Ltac looked_up t :=
  let r := eval vm_compute in t in
  lazymatch r with
  | Some _ => r
  | None => r
  end.
Ltac lookups t :=
  lazymatch t with
  | context C [lookup_fn ?P ?x ?y] => let r := looked_up (lookup_fn P x y) in let t' := context C [r] in lookups t'
  | context C [lookup_struct ?P ?x] => let r := looked_up (lookup_struct P x) in let t' := context C [r] in lookups t'
  | context C [lookup_enum ?P ?x] => let r := looked_up (lookup_enum P x) in let t' := context C [r] in lookups t'
  | context C [lookup_text ?P ?x ?y] => let r := looked_up (lookup_text P x y) in let t' := context C [r] in lookups t'
  | context C [lookup_type ?P ?x] => let r := looked_up (lookup_type P x) in let t' := context C [r] in lookups t'
  | _ => t
  end.
Ltac norm_all t :=
  let t1 := norm_glue t in
  let t2 := lookups t1 in
  lazymatch t2 with t1 => t1 | _ => norm_all t2 end.
(** where evaluation is going on in a term *)
Ltac focus t tac :=
  lazymatch t with
  | bindo ?o _ => focus o tac
  | pop_out _ ?o => focus o tac
  | leave_closure ?o => focus o tac
  | next_round ?o _ => focus o tac
  | unlock ?o => focus o tac
  | no_exit ?o => focus o tac
  | timed _ _ _ ?o => focus o tac
  | raced ?o _ _ => focus o tac
  | finish _ _ _ ?o => focus o tac
  | ?o => tac o
  end.
Ltac changed a b := tryif constr_eq a b then fail else idtac.

(** a condition that is decided by what is known, or a case distinction *)
Ltac decide_bool b :=
  first
    [ match goal with H : b = _ |- _ => rewrite H end
    | let r := eval hnf in b in lazymatch r with true => change b with true | false => change b with false end
    | let H := fresh in assert (H : b = true) by lia; rewrite H; clear H
    | let H := fresh in assert (H : b = false) by lia; rewrite H; clear H
    | let H := fresh "B" in destruct b eqn:H ]; cbv beta iota.
Ltac scrutinee x :=
  lazymatch x with
  | context [match ?y with _ => _ end] => scrutinee y
  | code_debug ?c => destruct c eqn:?; cbn [code_debug]
  | splice _ _ _ _ => unfold splice
  | ?y =>
      lazymatch type of y with
      | string => fail "string" y
      | bool => decide_bool y
      | value => fail "value" y
      | out => fail "out" y
      | option _ =>
          let r := lazymatch goal with H : y = ?r |- _ => r | _ => eval hnf in y end in
          lazymatch goal with H : y = _ |- _ => rewrite H | _ =>
          lazymatch r with
          | Some _ => change y with r
          | None => change y with r
          | _ => let H := fresh "D" in destruct y eqn:H
          end end; cbv beta iota
      | _ => let H := fresh "D" in destruct y eqn:H; cbv beta iota
      end
  end.

(** the context of an outcome *)
Ltac leave o :=
  lazymatch goal with
  | |- context [bindo o ?k] =>
      lazymatch o with
      | Norm ?v ?s => let r := eval lazy beta iota in (k v s) in change (bindo o k) with r
      | _ => change (bindo o k) with o
      end
  | |- context [pop_out ?s0 o] =>
      lazymatch o with
      | Norm ?v ?s => let r := norm_all (pop_to s0 s) in change (pop_out s0 o) with (Norm v r)
      | Retd ?v ?s => let r := norm_all (pop_to s0 s) in change (pop_out s0 o) with (Retd v r)
      | Cont ?s => let r := norm_all (pop_to s0 s) in change (pop_out s0 o) with (Cont r)
      | _ => change (pop_out s0 o) with o
      end
  | |- context [leave_closure o] =>
      lazymatch o with
      | Retd ?v ?s => change (leave_closure o) with (Norm v s)
      | _ => change (leave_closure o) with o
      end
  | |- context [next_round o ?k] =>
      lazymatch o with
      | Norm ?v ?s => change (next_round o k) with (k s)
      | Cont ?s => change (next_round o k) with (k s)
      | _ => change (next_round o k) with o
      end
  | |- context [no_exit o] =>
      lazymatch o with
      | Retd _ _ => change (no_exit o) with Stuck
      | Cont _ => change (no_exit o) with Stuck
      | _ => change (no_exit o) with o
      end
  | |- context [unlock o] =>
      let r := norm_all (unlock o) in change (unlock o) with r
  | |- context [timed ?C ?d ?s o] =>
      let r := norm_all (timed C d s o) in change (timed C d s o) with r
  | |- context [raced o ?a ?b] =>
      lazymatch o with
      | Norm ?v ?s => let r := eval lazy beta iota in (a v s) in change (raced o a b) with r
      | Wait ?w => let r := eval lazy beta iota in (b w) in change (raced o a b) with r
      | _ => change (raced o a b) with o
      end
  | |- context [finish ?pg ?n ?t o] =>
      lazymatch o with
      | Norm ?v ?s =>
          let rv := norm_all (coerce_opt pg t v) in let ps := norm_all (param_values n s) in let w := norm_all (st_world s) in
          change (finish pg n t o) with (RVal rv ps w)
      | Retd ?v ?s =>
          let rv := norm_all (coerce_opt pg t v) in let ps := norm_all (param_values n s) in let w := norm_all (st_world s) in
          change (finish pg n t o) with (RVal rv ps w)
      | _ => let r := eval lazy beta iota delta [finish] in (finish pg n t o) in change (finish pg n t o) with r
      end
  end.

(** loops *)
Lemma map_loop_nil f s : map_loop f [] s = Norm (VList []) s. Proof. reflexivity. Qed.
Lemma map_loop_cons f x l s :
  map_loop f (x :: l) s
  = bindo (f x s) (fun y s1 => bindo (map_loop f l s1) (fun ys s2 =>
      match ys with VList r => Norm (VList (y :: r)) s2 | _ => Stuck end)).
Proof. reflexivity. Qed.
Lemma for_loop_nil b s : for_loop b [] s = Norm VUnit s. Proof. reflexivity. Qed.
Lemma for_loop_cons b x l s : for_loop b (x :: l) s = next_round (b x s) (for_loop b l). Proof. reflexivity. Qed.
Lemma while_loop_eq n c b s :
  while_loop n c b s
  = bindo (c s) (fun v s1 =>
      match v with
      | VBool false => Norm VUnit s1
      | VBool true => match n with O => NoFuel | S m => next_round (b s1) (while_loop m c b) end
      | _ => Stuck
      end).
Proof. destruct n; reflexivity. Qed.
Lemma filter_loop_map {A} (g : A -> value) (p : A -> bool) f l s :
  (forall a, f (g a) s = Norm (VBool (p a)) s) ->
  filter_loop f (map g l) s = Norm (VList (map g (filter p l))) s.
Proof.
  intro H. induction l as [|a l IH]; [reflexivity|].
  cbn [map filter_loop bindo]. rewrite H. cbn [bindo]. rewrite IH. cbn [bindo].
  cbn [filter]. now destruct (p a).
Qed.
Lemma find_loop_map {A} (g : A -> value) (p : A -> bool) f l s :
  (forall a, f (g a) s = Norm (VBool (p a)) s) ->
  find_loop f (map g l) s = Norm (match find p l with Some a => vsome (g a) | None => vnone end) s.
Proof.
  intro H. induction l as [|a l IH]; [reflexivity|].
  cbn [map find_loop]. rewrite H. cbn [bindo].
  cbn [find]. now destruct (p a).
Qed.
Lemma map_loop_map {A} (g h : A -> value) f l s :
  (forall a, f (g a) s = Norm (h a) s) ->
  map_loop f (map g l) s = Norm (VList (map h l)) s.
Proof.
  intro H. induction l as [|a l IH]; [reflexivity|].
  cbn [map map_loop bindo]. rewrite H. cbn [bindo]. now rewrite IH.
Qed.

(** [a.iter().zip(b).map(|(d, p)| d ^ p)] *)
Lemma xor_loop f a b s :
  (forall x y, f (VTuple [vu8 x; vu8 y]) s = Norm (vu8 (byte_xor x y)) s) ->
  map_loop f (zip_values (u8_values a) (u8_values b)) s = Norm (VList (u8_values (xor_zip a b))) s.
Proof.
  intro H. revert b; induction a as [|x a IH]; intros [|y b]; try reflexivity.
  cbn [u8_values map zip_values map_loop]. rewrite H. cbn [bindo].
  fold (u8_values a) (u8_values b). now rewrite IH.
Qed.
Lemma xor_loop_lit f a n k s :
  (forall x, f (VTuple [vu8 x; VInt Lit n]) s = Norm (vu8 (byte_xor x (n2b n))) s) ->
  map_loop f (zip_values (u8_values a) (repeat (VInt Lit n) k)) s = Norm (VList (u8_values (xor_zip a (repeat (n2b n) k)))) s.
Proof.
  intro H. revert k; induction a as [|x a IH]; intros [|k]; try reflexivity.
  cbn [u8_values map zip_values map_loop repeat]. rewrite H. cbn [bindo].
  fold (u8_values a). now rewrite IH.
Qed.
(** [l.split(|b| *b == 0).next()] *)
Lemma split_loop_zero f l piece s :
  (forall x, f (vu8 x) s = Norm (VBool (Byte.eqb x x00)) s) ->
  exists r, split_loop f l piece s = Norm (VList (VBytes (piece ++ before_first_zero l) :: r)) s.
Proof.
  intro H.
  assert (T : forall l p, exists r, split_loop f l p s = Norm (VList r) s).
  { intro l0. induction l0 as [|x l0 IH]; intro p; [eexists; reflexivity|].
    cbn [split_loop]. rewrite H; cbn [bindo]. destruct (Byte.eqb x x00); [|apply IH].
    destruct (IH []) as [r ->]. cbn [bindo]. eexists; reflexivity. }
  revert piece; induction l as [|x l IH]; intro p.
  - exists []. cbn. now rewrite app_nil_r.
  - cbn [split_loop before_first_zero]. rewrite H; cbn [bindo]. destruct (Byte.eqb x x00).
    + destruct (T l []) as [r ->]. cbn [bindo]. rewrite app_nil_r. eexists; reflexivity.
    + destruct (IH (p ++ [x])) as [r ->]. rewrite <- app_assoc. eexists; reflexivity.
Qed.

#[global] Hint Rewrite n2b_b2n (@app_nil_r byte) bytes_of_values_repeat bytes_of_values_vu8 bytes_of_values_nil bytes_of_values_u8 bytes_of_values_lit
  concat_values_nil concat_values_bytes concat_values_list skipn_1 : vals.
Ltac simplify_values := progress autorewrite with vals; cbv beta iota.
(** the same, only in a part of the goal *)
Ltac simplify_in x :=
  let H := fresh in
  eassert (H : x = _) by (progress autorewrite with vals; reflexivity);
  rewrite H; clear H; cbv beta iota.

(** a call whose effect is known, rewritten in a goal of its own *)
Ltac known_call c :=
  let H := fresh in
  eassert (H : c = _) by (progress autorewrite with code; reflexivity);
  rewrite H; clear H.
(** one step of evaluation on the left of the goal *)
Ltac plain_step :=
  lazymatch goal with
  | |- run ?C (S ?n) ?t ?x ?args ?w = _ =>
      rewrite (run_eq C n t x args w);
      let f := norm_all (lookup_fn (cx_program C) t x) in
      change (lookup_fn (cx_program C) t x) with f; cbv beta iota zeta;
      match goal with |- context [bind_params ?ps ?pg args] =>
        let b := norm_all (bind_params ps pg args) in change (bind_params ps pg args) with b end;
      cbv beta iota;
      match goal with |- context [push_vars ?bs ?s] =>
        let s' := norm_all (push_vars bs s) in change (push_vars bs s) with s' end;
      cbv beta iota delta [f_ret f_body]
  | |- ?l = _ =>
      focus l ltac:(fun o =>
        lazymatch o with
        | Norm _ _ => leave o
        | Retd _ _ => leave o
        | Cont _ => leave o
        | Wait _ => leave o
        | Panicked => leave o
        | Stuck => leave o
        | NoFuel => leave o
        | eval ?C ?f ?t ?k ?s ?e =>
            let r := norm_names (eval_step C f t k (eval C f t k) s e) in
            rewrite (eval_eq C f t k s e); change (eval_step C f t k (eval C f t k) s e) with r
        | eval_stmts _ _ _ (push_vars ?bs ?s) _ =>
            let s' := norm_all (push_vars bs s) in change (push_vars bs s) with s'
        | eval_list ?ev ?s [] ?k => rewrite (eval_list_nil ev s k); cbv beta
        | eval_list ?ev ?s (?e :: ?es) ?k => rewrite (eval_list_cons ev s e es k)
        | eval_opt ?ev ?s None ?k => rewrite (eval_opt_none ev s k); cbv beta
        | eval_opt ?ev ?s (Some ?e) ?k => rewrite (eval_opt_some ev s e k)
        | eval_fields ?ev ?pg ?t ?decl ?s ((?x, ?e) :: ?fs) ?acc =>
            first [ rewrite (eval_fields_cons ev pg t decl s x e fs acc eq_refl) | rewrite eval_fields_parse ]
        | eval_fields ?ev ?pg ?t ?decl ?s [] ?acc =>
            rewrite (eval_fields_nil ev pg t decl s acc)
        | eval_stmts ?ev ?pg None ?s [] => rewrite (eval_stmts_none ev pg s)
        | eval_stmts ?ev ?pg (Some ?e) ?s [] => rewrite (eval_stmts_some ev pg e s)
        | eval_stmts ?ev ?pg ?e0 ?s (SLet ?p ?t ?e :: ?ss) => 
            first [ rewrite (eval_stmts_let ev pg e0 s p t e ss eq_refl) | rewrite (eval_stmts_guard ev pg e0 s p t e ss eq_refl) ]
        | eval_stmts ?ev ?pg ?e0 ?s (SConst ?x ?t ?e :: ?ss) => rewrite (eval_stmts_const ev pg e0 s x t e ss)
        | eval_stmts ?ev ?pg ?e0 ?s (SExpr ?e :: ?ss) => rewrite (eval_stmts_expr ev pg e0 s e ss)
        | eval_arms ?ev ?s ?v ((?p, ?e) :: ?arms) => rewrite (eval_arms_cons ev s v p e arms)
        | lift (PVal ?v) ?s => change o with (Norm v s)
        | lift PPanic ?s => change o with Panicked
        | lift PStuck ?s => change o with Stuck
        | lift (of_res ?f ?r) ?s =>
            unfold index, slice, slice_from, slice_to, splice, uadd; unfold of_res at 1
        | lift (match ?x with _ => _ end) ?s => first [simplify_in x | scrutinee x]
        | lift ?p ?s => let p' := norm_all p in changed p p'; change p with p'
        | call_fn _ _ _ _ _ _ _ => let r0 := norm_calls o in let r1 := lookups r0 in let r := norm_calls r1 in change o with r
        | call_method _ _ _ _ _ _ _ _ _ => let r0 := norm_calls o in let r1 := lookups r0 in let r := norm_calls r1 in change o with r
        | higher_order _ _ _ _ _ _ => let r := norm_ho o in change o with r
        | match ?x with _ => _ end =>
            let x' := norm_all x in
            tryif constr_eq x x' then (first [simplify_in x | scrutinee x]) else (change x with x'; cbv beta iota)
        | after_call (run ?C ?n ?t ?x ?args ?w) _ => known_call (run C n t x args w)
        | after_call (v_result _ _ ?r _ _) _ =>
            lazymatch r with
            | match ?x with _ => _ end => scrutinee x
            | _ => first [match goal with H : r = _ |- _ => rewrite H end | let H := fresh "D" in destruct r eqn:H]
            end; cbv beta iota delta [v_result]
        | after_call (RWait ?w) _ => change o with (Wait w)
        | after_call RPanic _ => change o with Panicked
        | after_call RNoFuel _ => change o with NoFuel
        | after_call (RVal ?v ?ps ?w) ?k =>
            let r := norm_all (k v ps w) in change o with r
        | after_call ?c _ => known_call c
        | map_loop _ _ _ => fail
        | filter_loop _ _ _ => fail
        | find_loop _ _ _ => fail
        | fold_loop _ _ _ _ => fail
        | split_loop _ _ _ _ => fail
        | for_loop _ _ _ => fail
        | while_loop _ _ _ _ => fail
        | _ => let r := norm_all o in changed o r; change o with r
        end)
  end.
Ltac step :=
  lazymatch goal with
  | |- context [bytes_of_values _] => first [simplify_values | plain_step]
  | _ => plain_step
  end.
Ltac steps := repeat step.
