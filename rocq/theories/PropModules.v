(** * C76: the source text of the rfc*.rs modules, run

    Sources.v is the text of the 24 modules of radius/src/core that hold the accessors of the attributes;
    RustModule.v takes a function out of a module, with the constants and type names of the module put in.
    The theorems say that the accessors of Rfc.v, about which the other properties are proved, are what the
    text of the modules means. *)
From Coq Require Import String List NArith ZArith Bool Arith Strings.Byte Lia Permutation.
From Verif Require Import Prelude Md5 Utf8 Tag Code Avp Attributes Vsa Packet Accessors Rfc AccessorFacts
  Rust RustEval RustModule SourceCore Sources CodeRun CodeHash CodeAccessors CodeModules PropCode.
Import ListNotations.
Local Open Scope string_scope.
Local Open Scope N_scope.
Local Open Scope list_scope.

(** ** Specification *)
(** calling function [x] of module [m] of the source text ends in this way (see [does] in PropCode.v) *)
Definition module_does (c : cx) (m x : string) (args : list value) (w : world) (r : rout) : Prop :=
  exists fn, function_of (parse_modules source_lines) m x = Some fn
  /\ exists k, forall n, (k <= n)%nat -> enter c n fn args w = r.
Definition delete_name (e : entry) : string := "delete_" ++ e_name e.
Definition add_name (e : entry) : string :=
  match e_kind e with KVsa => "add_vsa_attribute" | _ => "add_" ++ e_name e end.
Definition lookup_name (e : entry) : string := "lookup_" ++ e_name e.
Definition lookup_all_name (e : entry) : string := "lookup_all_" ++ e_name e.
(** the octets of the random generator in the argument are those the generator gives *)
Definition salted (rng : nat -> byte) (w : world) (k : kind) : kin k -> Prop :=
  match k return kin k -> Prop with
  | KTunnelPassword => fun '(r0, r1, _, _) => r0 = rng (w_random w) /\ r1 = rng (S (w_random w))
  | _ => fun _ => True
  end.
(** a vendor-specific attribute fits into memory *)
Definition fits (k : kind) : kin k -> Prop :=
  match k return kin k -> Prop with
  | KVsa => fun v =>
      match v with
      | VString v => len (sv_vendor_id v) < 2 ^ 62 /\ len (sv_value v) < 2 ^ 62
      | VTagged v => len (tv_vendor_id v) < 2 ^ 62 /\ len (tv_value v) < 2 ^ 62
      end
  | _ => fun _ => True
  end.
(** the world after [add_x]: a tunnel password takes two random octets, unless the authenticator is too long *)
Definition after_add (k : kind) (p : packet) (w : world) : world :=
  match k with
  | KTunnelPassword => if 240 <? len (packet_get_authenticator p) then w else World (2 + w_random w) (w_trace w)
  | _ => w
  end.
(** the functions the attributes have *)
Definition names (e : entry) : list string :=
  [delete_name e; add_name e]
  ++ (match e_lookup e with Some _ => [lookup_name e] | None => [] end)
  ++ (match e_lookup_all e with Some _ => [lookup_all_name e] | None => [] end).

(** ** Proofs *)
Lemma does_intro c e t args w r k : In e entries -> In t (templates e) ->
  (forall n, (k <= n)%nat -> enter c n t args w = r) -> module_does c (e_module e) (f_name t) args w r.
Proof.
  intros He Ht H. exists t. split; [|now exists k]. rewrite <- modules_ok. now apply templates_found.
Qed.
Lemma is_templated e : In e entries -> templated e.
Proof. intro H. apply (proj1 (Forall_forall _ _) entries_templated _ H). Qed.
Lemma has_lookup e l : template_lookup (e_kind e) (e_type e) = Some l ->
  In (fn_lookup (e_kind e) (e_name e) (e_type e)) (templates e).
Proof.
  unfold templates. cbv zeta. intro H. apply in_or_app; right. apply in_or_app; left.
  destruct (e_kind e); try (now left); discriminate H.
Qed.
Lemma has_lookup_all e l : template_lookup_all (e_kind e) (e_type e) = Some l ->
  In (fn_lookup_all (e_kind e) (e_name e) (e_type e)) (templates e) /\ one (e_kind e) = true.
Proof.
  unfold templates. cbv zeta. intro H. split.
  - apply in_or_app; right. apply in_or_app; right. destruct (e_kind e); try (now left); discriminate H.
  - destruct (e_kind e); try reflexivity; discriminate H.
Qed.
Lemma program f : program_from crate_files f = crate_program f.
Proof. symmetry. apply crate_program_ok. Qed.
Section Run.
Context (pr : profile) (rng : nat -> byte) (he : bytes -> option string)
        (ans : list event -> string -> list value -> option value).
Notation C f := (Cx pr (crate_program f) rng he ans).
Lemma enter_add_all f n k x typ p v w : hashes he f -> salted rng w k v -> fits k v -> (3 <= n)%nat ->
  enter (C f) n (fn_add k x typ) (v_packet p :: v_in k v) w
  = added k (template_add k typ p v) (v_in k v) (after_add k p w).
Proof.
  intros Hf Hs Hv Hn. destruct (simple k) eqn:E.
  - rewrite enter_add by assumption. destruct k; try discriminate E; reflexivity.
  - destruct k; try discriminate E.
    + destruct v as [[[r0 r1] t] v]. destruct Hs as [-> ->]. now apply enter_add_tunnel_password.
    + now apply enter_add_fixed.
    + now apply enter_add_concat.
    + now apply enter_add_vsa.
Qed.
Lemma enter_lookup_any f n k x typ p w l : hashes he f -> (4 <= n)%nat -> template_lookup k typ = Some l ->
  enter (C f) n (fn_lookup k x typ) [v_packet p] w = looked k (l p) p w.
Proof.
  intros Hf Hn Hl. destruct (one k) eqn:E; [now apply enter_lookup|].
  destruct k; try discriminate E; [now apply enter_lookup_concat|discriminate Hl].
Qed.
End Run.

(** ** C76 *)
Theorem C76_source_delete : forall pr f rng he ans w e p, In e entries ->
  module_does (source pr f rng he ans) (e_module e) (delete_name e) [v_packet p] w
    (RVal VUnit [v_packet (e_delete e p)] w).
Proof.
  intros pr f rng he ans w e p He. rewrite (proj1 (is_templated e He)).
  apply (does_intro _ e (fn_delete (e_name e) (e_type e)) _ _ _ 3 He); [now left|].
  intros n Hn. unfold source. rewrite program. now apply enter_delete.
Qed.
Theorem C76_source_add : forall pr f rng he ans w e p v, In e entries ->
  (f = Openssl -> forall b, he b = None) ->
  salted rng w (e_kind e) v -> fits (e_kind e) v ->
  module_does (source pr f rng he ans) (e_module e) (add_name e) (v_packet p :: v_in (e_kind e) v) w
    (added (e_kind e) (e_add e p v) (v_in (e_kind e) v) (after_add (e_kind e) p w)).
Proof.
  intros pr f rng he ans w e p v He Hf Hs Hv. rewrite (proj1 (proj2 (is_templated e He))).
  apply (does_intro _ e (fn_add (e_kind e) (e_name e) (e_type e)) _ _ _ 3 He); [right; now left|].
  intros n Hn. unfold source. rewrite program. now apply enter_add_all.
Qed.
Theorem C76_source_lookup : forall pr f rng he ans w e p l, In e entries ->
  (f = Openssl -> forall b, he b = None) ->
  e_lookup e = Some l ->
  module_does (source pr f rng he ans) (e_module e) (lookup_name e) [v_packet p] w (looked (e_kind e) (l p) p w).
Proof.
  intros pr f rng he ans w e p l He Hf Hl. destruct (is_templated e He) as (_ & _ & T & _). rewrite Hl in T.
  destruct (template_lookup (e_kind e) (e_type e)) as [l'|] eqn:Hl'; [|contradiction]. rewrite T.
  apply (does_intro _ e (fn_lookup (e_kind e) (e_name e) (e_type e)) _ _ _ 4 He).
  - apply (has_lookup e _ Hl').
  - intros n Hn. unfold source. rewrite program. now apply enter_lookup_any.
Qed.
Theorem C76_source_lookup_all : forall pr f rng he ans w e p l, In e entries ->
  (f = Openssl -> forall b, he b = None) ->
  e_lookup_all e = Some l ->
  module_does (source pr f rng he ans) (e_module e) (lookup_all_name e) [v_packet p] w (looked_all (e_kind e) (l p) p w).
Proof.
  intros pr f rng he ans w e p l He Hf Hl. destruct (is_templated e He) as (_ & _ & _ & T). rewrite Hl in T.
  destruct (template_lookup_all (e_kind e) (e_type e)) as [l'|] eqn:Hl'; [|contradiction]. rewrite T.
  apply (does_intro _ e (fn_lookup_all (e_kind e) (e_name e) (e_type e)) _ _ _ 4 He).
  - apply (has_lookup_all e _ Hl').
  - intros n Hn. unfold source. rewrite program. apply enter_lookup_all; try assumption. apply (has_lookup_all e _ Hl').
Qed.
(** there are no other functions in the modules, and no function twice *)
Fixpoint remove1 (x : string) (l : list string) : option (list string) :=
  match l with
  | [] => None
  | y :: l => if String.eqb x y then Some l else option_map (cons y) (remove1 x l)
  end.
Lemma remove1_sound x l : forall r, remove1 x l = Some r -> Permutation l (x :: r).
Proof.
  induction l as [|y l IH]; intros r H; [discriminate|]. cbn [remove1] in H.
  destruct (String.eqb_spec x y) as [->|_]; [injection H as ->; reflexivity|].
  destruct (remove1 x l) as [r'|]; [|discriminate]. injection H as <-.
  rewrite (IH r' eq_refl). constructor.
Qed.
Fixpoint permuted (a b : list string) : bool :=
  match a with
  | [] => match b with [] => true | _ => false end
  | x :: a => match remove1 x b with Some b => permuted a b | None => false end
  end.
Lemma permuted_sound a : forall b, permuted a b = true -> Permutation a b.
Proof.
  induction a as [|x a IH]; intros b H; cbn [permuted] in H; [destruct b; [constructor|discriminate]|].
  destruct (remove1 x b) as [b'|] eqn:E; [|discriminate]. rewrite (remove1_sound _ _ _ E). constructor. now apply IH.
Qed.
Fixpoint distinct (l : list string) : bool :=
  match l with [] => true | x :: l => negb (existsb (String.eqb x) l) && distinct l end.
Lemma distinct_sound l : distinct l = true -> NoDup l.
Proof.
  induction l as [|x l IH]; intro H; [constructor|]. cbn [distinct] in H. apply andb_prop in H as [H1 H2].
  constructor; [|auto]. intro X. apply negb_true_iff in H1.
  rewrite <- not_true_iff_false in H1. apply H1, existsb_exists. exists x. split; [assumption|apply String.eqb_refl].
Qed.
Definition checked (m : string) : bool :=
  permuted (map f_name (functions_of modules m)) (flat_map names (filter (fun e => String.eqb (e_module e) m) entries))
  && distinct (map f_name (functions_of modules m)).
Lemma all_checked : forallb checked (map fst modules) = true.
Proof. vm_compute. reflexivity. Qed.
Lemma all_modules : forallb (fun e => existsb (String.eqb (e_module e)) (map fst modules)) entries = true.
Proof. vm_compute. reflexivity. Qed.
Theorem C76_source_functions : forall m,
  Permutation (map f_name (functions_of (parse_modules source_lines) m))
              (flat_map names (filter (fun e => String.eqb (e_module e) m) entries))
  /\ NoDup (map f_name (functions_of (parse_modules source_lines) m)).
Proof.
  intro m. rewrite <- modules_ok.
  destruct (existsb (String.eqb m) (map fst modules)) eqn:E.
  - apply existsb_exists in E as (m' & Hm & E). apply String.eqb_eq in E as <-.
    assert (X := proj1 (forallb_forall _ _) all_checked _ Hm). apply andb_prop in X as [X1 X2].
    split; [now apply permuted_sound|now apply distinct_sound].
  - assert (F : functions_of modules m = []).
    { unfold functions_of. destruct (find _ modules) as [x|] eqn:Fd; [|reflexivity]. exfalso.
      apply find_some in Fd as [Hx Ex]. apply String.eqb_eq in Ex.
      rewrite <- not_true_iff_false in E. apply E, existsb_exists. exists (fst x). split; [now apply in_map|].
      rewrite Ex. apply String.eqb_refl. }
    rewrite F. assert (N : filter (fun e => String.eqb (e_module e) m) entries = []).
    { assert (X := proj1 (forallb_forall _ _) all_modules). revert X. generalize entries as l.
      induction l as [|e l IH]; intro X; [reflexivity|]. cbn [filter].
      destruct (String.eqb_spec (e_module e) m) as [M|_]; [|apply IH; intros; apply X; now right].
      specialize (X e (or_introl eq_refl)). cbv beta in X. rewrite M in X. congruence. }
    rewrite N. split; constructor.
Qed.

(** ** Examples *)
(** [modules] is [parse_modules source_lines], computed *)
Definition run_module (m x : string) (args : list value) : rout :=
  match function_of modules m x with
  | Some fn => enter (source Debug Md5Crate (fun _ => x2a) (fun _ => None) (fun _ _ _ => None)) 8 fn args (World 0 [])
  | None => RStuck
  end.
Definition empty_request : packet := packet_new (fun _ => x07) AccessRequest (bytes_of_string "secret").
Definition added_packet (r : rout) : value := match r with RVal _ (p :: _) _ => p | _ => VUnit end.
Definition returned (r : rout) : value := match r with RVal v _ _ => v | _ => VUnit end.
(** a user name is added and found; another attribute is not *)
Example run_user_name :
  let p := added_packet (run_module "rfc2865" "add_user_name" [v_packet empty_request; v_text "alice"]) in
  returned (run_module "rfc2865" "lookup_user_name" [p]) = vsome (vok (v_text "alice"))
  /\ returned (run_module "rfc2865" "lookup_nas_identifier" [p]) = vnone
  /\ returned (run_module "rfc2865" "lookup_all_user_name" [p]) = vok (VList [v_text "alice"]).
Proof. vm_compute. repeat split. Qed.
(** 300 octets of an EAP message go into two attributes and come back whole *)
Example run_eap_message :
  let m := repeat x41 300 in
  let p := added_packet (run_module "rfc2869" "add_eap_message" [v_packet empty_request; v_bytes m]) in
  returned (run_module "rfc2869" "lookup_eap_message" [p]) = vsome (v_bytes m)
  /\ p = v_packet (packet_extend empty_request [AVP (n2b 79) (repeat x41 253); AVP (n2b 79) (repeat x41 47)]).
Proof. vm_compute. repeat split. Qed.
(** a password of a tunnel is hidden and comes back with its tag; random octets are drawn *)
Example run_tunnel_password :
  let r := run_module "rfc2868" "add_tunnel_password" [v_packet empty_request; v_option v_tag (Some (Tag x05)); v_bytes (bytes_of_string "hunter2")] in
  (match r with RVal v _ w => v = vok VUnit /\ w_random w = 2%nat | _ => False end)
  /\ returned (run_module "rfc2868" "lookup_tunnel_password" [added_packet r])
     = vsome (vok (VTuple [v_bytes (bytes_of_string "hunter2"); v_tag (Tag x05)])).
Proof. vm_compute. repeat split. Qed.
(** octets of the wrong length are refused and the packet stays as it was *)
Example run_fixed_octets :
  run_module "rfc2869" "add_arap_password" [v_packet empty_request; v_bytes [x01]]
  = RVal (verr (v_avp_error (InvalidAttributeLengthError "16 bytes" 1))) [v_packet empty_request; v_bytes [x01]] (World 0 []).
Proof. vm_compute. reflexivity. Qed.

(** * Assumptions *)
Print Assumptions C76_source_delete.
Print Assumptions C76_source_add.
Print Assumptions C76_source_lookup.
Print Assumptions C76_source_lookup_all.
Print Assumptions C76_source_functions.
