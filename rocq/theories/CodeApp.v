(** * The functions of the crate, as the examples call them *)
From Coq Require Import String List NArith ZArith Bool Arith Strings.Byte Strings.Ascii Lia ZifyBool ZifyNat ZifyN.
From Verif Require Import Prelude PreludeFacts Md5 Utf8 Utf8Facts Tag Code Avp AvpFacts Attributes Vsa Packet Addr Display Accessors Rfc Server Client ExampleApp
  Rust RustEval RustModule RustLink Sources SourceApp CodeRun CodeHash RustFacts CodeTactics CodeBase CodeAttributes CodePacket CodeNet CodeClient CodeServer CodeListen CodeAccessors CodeModules PropModules.
Import ListNotations.
Local Open Scope string_scope.
Local Open Scope N_scope.
Local Open Scope list_scope.

(** the types of the programs that implement traits of the crate *)
Definition server_objects : list (string * string) := [("MyRequestHandler", "handler"); ("MySecretProvider", "provider")].
(** the functions and constants of the modules with these names *)
Definition modules_from (files : list (string * list string)) (names : list string) : list (string * list fn) :=
  map (fun m => (fst m, match parse (snd m) with Some i => module_fns i ++ module_constants i | None => [] end))
      (filter (fun m => existsb (String.eqb (fst m)) names) files).
(** computed once *)
Definition used_modules : list (string * list fn) := Eval vm_compute in modules_from source_lines ["rfc2865"].
Lemma used_modules_ok : used_modules = modules_from source_lines ["rfc2865"].
Proof. vm_compute. reflexivity. Qed.
Definition server_own : RustEval.program := Eval vm_compute in program_from [source_example_server] Md5Crate.
Definition client_own : RustEval.program := Eval vm_compute in program_from [source_example_client] Md5Crate.
Lemma server_own_ok f : server_own = program_from [source_example_server] f. Proof. destruct f; vm_compute; reflexivity. Qed.
Lemma client_own_ok f : client_own = program_from [source_example_client] f. Proof. destruct f; vm_compute; reflexivity. Qed.

Section Linked.
Context (pr : profile) (rng : nat -> byte) (he : bytes -> option string)
        (ans : list event -> string -> list value -> option value)
        (own : RustEval.program) (objects : list (string * string)).
Notation C f := (Cx pr (crate_program f) rng he ans).
Notation L f := (Link (C f) used_modules own objects).
Ltac crate := intros; match goal with f : feature |- _ => destruct f end;
  (erewrite linked_crate by (eassumption || (vm_compute; reflexivity))).
Ltac modul := intros; match goal with f : feature |- _ => destruct f end;
  (erewrite linked_module by (eassumption || (vm_compute; reflexivity))).

Lemma linked_lookup_user_name f n p w : lookup_fn own "rfc2865" "lookup_user_name" = None -> hashes he f -> (4 <= n)%nat ->
  linked (L f) n "rfc2865" "lookup_user_name" [v_packet p] w = looked KString (rfc2865_lookup_user_name p) p w.
Proof.
  modul; change (Fn "lookup_user_name" _ _ _ _) with (fn_lookup KString "user_name" x01);
  now apply enter_lookup_any.
Qed.
Lemma linked_lookup_user_password f n p w : lookup_fn own "rfc2865" "lookup_user_password" = None -> hashes he f -> (4 <= n)%nat ->
  linked (L f) n "rfc2865" "lookup_user_password" [v_packet p] w = looked KUserPassword (rfc2865_lookup_user_password p) p w.
Proof.
  modul; change (Fn "lookup_user_password" _ _ _ _) with (fn_lookup KUserPassword "user_password" x02);
  now apply enter_lookup_any.
Qed.
Lemma linked_add_user_name f n p v w : lookup_fn own "rfc2865" "add_user_name" = None -> hashes he f -> (3 <= n)%nat ->
  linked (L f) n "rfc2865" "add_user_name" [v_packet p; v_str v] w = RVal VUnit [v_packet (rfc2865_add_user_name p v); v_str v] w.
Proof.
  modul; change (Fn "add_user_name" _ _ _ _) with (fn_add KString "user_name" x01);
  now refine (enter_add_all pr rng he ans _ n KString "user_name" x01 p v w _ I I _).
Qed.
Lemma linked_add_user_password f n p v w : lookup_fn own "rfc2865" "add_user_password" = None -> hashes he f -> (3 <= n)%nat ->
  linked (L f) n "rfc2865" "add_user_password" [v_packet p; v_bytes v] w = added KUserPassword (rfc2865_add_user_password p v) [v_bytes v] w.
Proof.
  modul; change (Fn "add_user_password" _ _ _ _) with (fn_add KUserPassword "user_password" x02);
  now refine (enter_add_all pr rng he ans _ n KUserPassword "user_password" x02 p v w _ I I _).
Qed.
Lemma linked_get_packet f n r w : lookup_fn own "Request" "get_packet" = None -> (1 <= n)%nat ->
  linked (L f) n "Request" "get_packet" [v_request r] w = RVal (v_packet (rq_packet r)) [v_request r] w.
Proof. crate; now apply run_request_get_packet. Qed.
Lemma linked_get_remote_addr f n r w : lookup_fn own "Request" "get_remote_addr" = None -> (1 <= n)%nat ->
  linked (L f) n "Request" "get_remote_addr" [v_request r] w = RVal (v_addr (rq_remote_addr r)) [v_request r] w.
Proof. crate; now apply run_request_get_remote_addr. Qed.
Lemma linked_make_response_packet f n p c w : lookup_fn own "Packet" "make_response_packet" = None -> (1 <= n)%nat ->
  linked (L f) n "Packet" "make_response_packet" [v_packet p; v_code c] w
  = RVal (v_packet (packet_make_response_packet p c)) [v_packet p; v_code c] w.
Proof. crate; now apply run_packet_make_response_packet. Qed.
Lemma linked_encode f n p w : lookup_fn own "Packet" "encode" = None -> hashes he f -> (3 <= n)%nat ->
  linked (L f) n "Packet" "encode" [v_packet p] w = v_result v_packet_error v_bytes (packet_encode pr p) [v_packet p] w.
Proof. crate; now apply encode_any. Qed.
Lemma linked_packet_new f n c secret w : lookup_fn own "Packet" "new" = None -> (2 <= n)%nat ->
  linked (L f) n "Packet" "new" [v_code c; v_bytes secret] w
  = RVal (v_packet (packet_new (fun k => rng (k + w_random w)%nat) c secret)) [v_code c; v_bytes secret] (drawn 17 w).
Proof. crate; now apply run_packet_new. Qed.
End Linked.

(** a function of the program, entered *)
Ltac linked_start :=
  intros; match goal with n : nat |- _ => destruct n as [|n]; [lia|] end;
  try match goal with f : feature |- _ => destruct f end;
  match goal with |- linked ?L (S ?n) ?t ?x ?args ?w = _ =>
    let r := eval vm_compute in (lookup_fn (lk_own L) t x) in
    lazymatch r with Some ?fn => rewrite (linked_own L n t x args w fn eq_refl) end;
    match goal with |- context [bind_params ?ps ?pg args] =>
      let ps' := eval cbv in ps in
      change (bind_params ps pg args) with (bind_params ps' pg args);
      let b := norm_all (bind_params ps' pg args) in change (bind_params ps' pg args) with b end;
    cbv beta iota;
    match goal with |- context [push_vars ?bs ?s] =>
      let s' := norm_all (push_vars bs s) in change (push_vars bs s) with s' end;
    cbv beta iota delta [f_ret f_body]
  end;
  match goal with |- context [lk_cx ?L] => let c := eval cbv beta iota delta [lk_cx lk_crate lk_own lk_modules cx_profile cx_random cx_hash_error cx_answer cx_program] in (lk_cx L) in
    change (lk_cx L) with c end; cbn [cx_program].
(** what [send_to] answers: the number of octets, an error, or nothing yet *)
Definition sent_reply (s : option (value + value)) : option value :=
  match s with Some (inl v) => Some (vok v) | Some (inr e) => Some (verr e) | None => None end.
(** what the program declares, found by the virtual machine *)
Ltac vm_lookup t :=
  let r := eval vm_compute in t in
  let H := fresh in assert (H : t = r) by (vm_cast_no_check (eq_refl r)); rewrite H; clear H.
Ltac vm_lookups :=
  repeat match goal with
  | |- context [lookup_fn ?P ?x ?y] => vm_lookup (lookup_fn P x y)
  | |- context [lookup_struct ?P ?x] => vm_lookup (lookup_struct P x)
  | |- context [lookup_enum ?P ?x] => vm_lookup (lookup_enum P x)
  | |- context [lookup_text ?P ?x ?y] => vm_lookup (lookup_text P x y)
  | |- context [lookup_type ?P ?x] => vm_lookup (lookup_type P x)
  end; cbv beta iota.
(** the outcomes of lookups and of the environment *)
Ltac app_step :=
  lazymatch goal with
  | |- ?l = _ =>
      first
      [ focus l ltac:(fun o =>
        lazymatch o with
        | after_call (looked ?k ?r ?p ?w) _ =>
            let D := fresh "D" in
            first [ match goal with H : r = _ |- _ => rewrite H end | destruct r as [[?|?| |]|] eqn:D ];
            cbv beta iota delta [looked bare v_out]
        | after_call (added ?k ?r ?args ?w) _ =>
            let D := fresh "D" in let q := fresh "q" in let x := fresh "x" in
            destruct r as [q x] eqn:D; destruct x; cbv beta iota delta [added fallible fst snd]
        | after_call (linked _ ?m ?t ?x ?a ?w) _ =>
            match goal with
            | H : forall (n : nat) (w' : world), _ -> linked _ n t x a w' = _ |- _ => rewrite (H m w) by lia
            | H : forall (n : nat), _ -> linked _ n t x a w = _ |- _ => rewrite (H m) by lia
            end;
            cbv beta iota delta [looked bare v_out added fallible fst snd]
        | after_call (match ?x with _ => _ end) _ => scrutinee x
        | after_call (RVal ?v ?ps ?w) ?k =>
            let r := norm_glue (k v ps w) in change o with r; vm_lookups
        | call_fn _ _ _ _ _ _ _ => let r := norm_calls o in change o with r; vm_lookups
        | call_method _ _ _ _ _ _ _ _ _ => let r := norm_calls o in change o with r; vm_lookups
        | call_path _ _ _ _ _ _ _ _ => let r := norm_glue o in changed o r; change o with r; vm_lookups
        | finish _ _ _ _ => fail
        | Norm _ _ => fail
        | Retd _ _ => fail
        | eval _ _ _ _ _ _ => fail
        | match ?x with _ => _ end =>
            first
            [ let x' := norm_glue x in changed x x'; change x with x'; vm_lookups
            | lazymatch x with ?f ?tr ?op ?l => match goal with H : forall tr' l', f tr' op l' = _ |- _ => rewrite (H tr l); cbv beta iota end end
            | lazymatch type of x with option value =>
                match goal with H : forall _, _ = sent_reply _ |- _ => rewrite H end;
                match goal with |- context [sent_reply ?y] =>
                  let D := fresh "D" in destruct y as [[?|?]|] eqn:D end;
                cbv beta iota delta [sent_reply]
              end ]
        end)
      | step ]
  end.
Ltac app_steps := repeat app_step.
