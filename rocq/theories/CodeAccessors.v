(** * The accessor functions of the rfc*.rs modules, run

    The modules are generated from one template per kind of attribute.  First the templates as
    syntax trees, in which the number of the attribute is a literal; then what running each of
    them on a packet does.  RustModules.v compares the templates with the text of the modules. *)
From Coq Require Import String List NArith ZArith Bool Arith Strings.Byte Lia ZifyBool ZifyNat ZifyN.
From Verif Require Import Prelude PreludeFacts Md5 Utf8 Utf8Facts Tag Code Avp AvpFacts Attributes Vsa Packet Openssl OpensslFacts PropOpenssl Accessors Rust RustEval RustModule CodeRun CodeHash RustFacts CodeTactics CodeBase CodeAttributes CodePacket CodeEncode CodeAvp CodePassword.
Import ListNotations.
Local Open Scope string_scope.
Local Open Scope N_scope.
Local Open Scope list_scope.

(** ** The templates as syntax trees; the lines are those of code-generator/src/main.rs *)
Definition var (x : string) : expr := EPath [x] [].
Definition named (t : string) : ty := TyName [t] [].
Definition option_of (t : ty) : ty := TyName ["Option"] [t].
Definition result_of (t : ty) : ty := TyName ["Result"] [t; named "AVPError"].
Definition vec_of (t : ty) : ty := TyName ["Vec"] [t].
Definition octets : ty := TySlice (named "u8").
Definition number (typ : byte) : expr := ECast (ENum (b2n typ)) (named "AVPType").
Definition packet_mut : string * ty := ("packet", TyRef true (named "Packet")).
Definition packet_ref : string * ty := ("packet", TyRef false (named "Packet")).
Definition of_packet (m : string) (args : list expr) : expr := EMethod (var "packet") m [] args.
Definition ok (e : expr) : expr := ECall (var "Ok") [e].
(** what the password functions are given of the packet *)
Definition keys : list expr := [of_packet "get_secret" []; of_packet "get_authenticator" []].

(** main.rs:378-397 *)
Definition fn_delete (x : string) (typ : byte) : fn :=
  Fn ("delete_" ++ x)%string None [packet_mut] None (EBlock [SExpr (of_packet "delete" [number typ])] None).

(** the constructor a template calls: main.rs:399-902 *)
Definition from_name (k : kind) : string :=
  match k with
  | KString => "from_string" | KTaggedString => "from_tagged_string" | KUserPassword => "from_user_password"
  | KTunnelPassword => "from_tunnel_password" | KOctets | KFixedOctets _ | KConcatOctets | KVsa => "from_bytes"
  | KIpaddr => "from_ipv4" | KIpv4Prefix => "from_ipv4_prefix" | KIpv6addr => "from_ipv6"
  | KIpv6Prefix => "from_ipv6_prefix" | KDate => "from_date" | KInteger | KValueInteger => "from_u32"
  | KTaggedInteger | KTaggedValueInteger => "from_tagged_u32" | KShort => "from_u16"
  end.
Definition tagged (k : kind) : bool :=
  match k with KTaggedString | KTunnelPassword | KTaggedInteger | KTaggedValueInteger => true | _ => false end.
Definition keyed (k : kind) : bool := match k with KUserPassword | KTunnelPassword => true | _ => false end.
(** [add_x] returns a [Result] *)
Definition fallible (k : kind) : bool :=
  match k with KUserPassword | KTunnelPassword | KFixedOctets _ | KIpv4Prefix | KIpv6Prefix => true | _ => false end.
(** the lookups return octets without a [Result] *)
Definition bare (k : kind) : bool := match k with KOctets | KFixedOctets _ | KConcatOctets => true | _ => false end.
Definition value_ty (k : kind) : ty :=
  match k with
  | KString | KTaggedString => TyRef false (named "str")
  | KUserPassword | KTunnelPassword | KOctets | KFixedOctets _ | KConcatOctets | KIpv4Prefix | KIpv6Prefix => TyRef false octets
  | KIpaddr => TyRef false (named "Ipv4Addr")
  | KIpv6addr => TyRef false (named "Ipv6Addr")
  | KDate => TyRef false (TyName ["DateTime"] [named "Utc"])
  | KInteger | KTaggedInteger | KValueInteger | KTaggedValueInteger => named "u32"
  | KShort => named "u16"
  | KVsa => TyRef false (named "VSA")
  end.
Definition tag_param (k : kind) : list (string * ty) :=
  if tagged k then [("tag", option_of (TyRef false (named "Tag")))] else [].
(** [AVP::from_…(X_TYPE, …)] *)
Definition construct (k : kind) (typ : byte) (v : expr) : expr :=
  ECall (EPath ["AVP"; from_name k] [])
    ([number typ] ++ (if tagged k then [var "tag"] else []) ++ [v] ++ (if keyed k then keys else [])).
Definition add_body (k : kind) (typ : byte) : expr :=
  match k with
  | KConcatOctets =>
      EBlock [SExpr (of_packet "extend"
        [EMethod (EMethod (EMethod (var "value") "chunks" [] [ENum 253]) "map" []
          [EClosure [PVar "chunk"] (construct k typ (var "chunk"))]) "collect" [] []])] None
  | KFixedOctets n =>
      let length := EMethod (var "value") "len" [] [] in
      EBlock
        [SExpr (EIf (EBin "!=" length (ENum n))
           (EBlock [SExpr (EReturn (Some (ECall (var "Err")
              [ECall (EPath ["AVPError"; "InvalidAttributeLengthError"] [])
                 [EMethod (EStr (dec n ++ " bytes")) "to_owned" [] []; length]])))] None) None);
         SExpr (of_packet "add" [construct k typ (var "value")])]
        (Some (ok (ETuple [])))
  | KVsa =>
      EBlock [SExpr (of_packet "add" [construct k typ (EUn "&" (EMethod (var "value") "message" [] []))])] None
  | _ =>
      if fallible k
      then EBlock [SExpr (of_packet "add" [ETry (construct k typ (var "value"))])] (Some (ok (ETuple [])))
      else EBlock [SExpr (of_packet "add" [construct k typ (var "value")])] None
  end.
Definition fn_add (k : kind) (x : string) (typ : byte) : fn :=
  Fn (match k with KVsa => "add_vsa_attribute" | _ => "add_" ++ x end)%string None
     ([packet_mut] ++ tag_param k ++ [("value", value_ty k)])
     (if fallible k then Some (result_of (TyTuple [])) else None) (add_body k typ).

Definition to_name (k : kind) : string :=
  match k with
  | KString => "encode_string" | KTaggedString => "encode_tagged_string" | KUserPassword => "encode_user_password"
  | KTunnelPassword => "encode_tunnel_password" | KOctets | KFixedOctets _ | KConcatOctets | KVsa => "encode_bytes"
  | KIpaddr => "encode_ipv4" | KIpv4Prefix => "encode_ipv4_prefix" | KIpv6addr => "encode_ipv6"
  | KIpv6Prefix => "encode_ipv6_prefix" | KDate => "encode_date" | KInteger | KValueInteger => "encode_u32"
  | KTaggedInteger | KTaggedValueInteger => "encode_tagged_u32" | KShort => "encode_u16"
  end.
Definition found_ty (k : kind) : ty :=
  match k with
  | KString => named "String"
  | KTaggedString => TyTuple [named "String"; option_of (named "Tag")]
  | KTunnelPassword => TyTuple [vec_of (named "u8"); named "Tag"]
  | KUserPassword | KOctets | KFixedOctets _ | KConcatOctets | KIpv4Prefix | KIpv6Prefix => vec_of (named "u8")
  | KIpaddr => named "Ipv4Addr"
  | KIpv6addr => named "Ipv6Addr"
  | KDate => TyName ["DateTime"] [named "Utc"]
  | KInteger | KValueInteger => named "u32"
  | KTaggedInteger | KTaggedValueInteger => TyTuple [named "u32"; named "Tag"]
  | KShort => named "u16"
  | KVsa => TyTuple []
  end.
Definition convert (k : kind) (x : string) : expr := EMethod (var x) (to_name k) [] (if keyed k then keys else []).
(** [let (v, t) = ….encode_tagged_u32()?] *)
Definition split_tag (k : kind) (x : string) : stmt :=
  SLet (PTuple [PVar "v"; PVar "t"]) None (ETry (convert k x)).
Definition as_u32 (e : expr) : expr := ECast e (named "u32").
Definition lookup_body (k : kind) (typ : byte) : expr :=
  let each (e : expr) := EBlock [] (Some (EMethod (of_packet "lookup" [number typ]) "map" [] [EClosure [PVar "v"] e])) in
  match k with
  | KConcatOctets =>
      EBlock [SLet (PVar "avps") None (of_packet "lookup_all" [number typ])]
        (Some (EMatch (EMethod (var "avps") "is_empty" [] [])
           [(PBool true, var "None");
            (PBool false, ECall (var "Some")
               [EMethod (EMethod (var "avps") "into_iter" [] []) "fold" []
                  [ECall (EPath ["Vec"; "new"] []) [];
                   EClosure [PVar "acc"; PVar "v"]
                     (EBlock [SExpr (EMethod (var "acc") "extend" [] [convert k "v"])] (Some (var "acc")))]])]))
  | KValueInteger => each (ok (as_u32 (ETry (convert k "v"))))
  | KTaggedValueInteger => each (EBlock [split_tag k "v"] (Some (ok (ETuple [as_u32 (var "v"); var "t"]))))
  | _ => each (convert k "v")
  end.
Definition fn_lookup (k : kind) (x : string) (typ : byte) : fn :=
  Fn ("lookup_" ++ x)%string None [packet_ref]
     (Some (option_of (if bare k then found_ty k else result_of (found_ty k)))) (lookup_body k typ).
Definition lookup_all_body (k : kind) (typ : byte) : expr :=
  let push (e : expr) := EMethod (var "vec") "push" [] [e] in
  EBlock
    [SLet (PVar "vec") None (ECall (EPath ["Vec"; "new"] []) []);
     SExpr (EFor (PVar "avp") (of_packet "lookup_all" [number typ])
       (match k with
        | KTaggedValueInteger => EBlock [split_tag k "avp"] (Some (push (ETuple [as_u32 (var "v"); var "t"])))
        | KValueInteger => EBlock [] (Some (push (as_u32 (ETry (convert k "avp")))))
        | _ => EBlock [] (Some (push (if bare k then convert k "avp" else ETry (convert k "avp"))))
        end))]
    (Some (if bare k then var "vec" else ok (var "vec"))).
Definition fn_lookup_all (k : kind) (x : string) (typ : byte) : fn :=
  Fn ("lookup_all_" ++ x)%string None [packet_ref]
     (Some (if bare k then vec_of (found_ty k) else result_of (vec_of (found_ty k)))) (lookup_all_body k typ).

(** ** The values *)
Definition v_vsa (v : vsa) : value :=
  match v with VString v => v_string_vsa v | VTagged v => v_tagged_string_vsa v end.
(** the arguments of [add_x] besides the packet; the random octets of a tunnel password are not arguments *)
Definition v_in (k : kind) : kin k -> list value :=
  match k return kin k -> list value with
  | KString => fun v => [v_str v]
  | KTaggedString => fun '(t, v) => [v_option v_tag t; v_str v]
  | KUserPassword | KOctets | KFixedOctets _ | KConcatOctets | KIpv4Prefix | KIpv6Prefix => fun v => [v_bytes v]
  | KTunnelPassword => fun '(_, _, t, v) => [v_option v_tag t; v_bytes v]
  | KIpaddr => fun v => [v_ipv4 v]
  | KIpv6addr => fun v => [v_ipv6 v]
  | KDate => fun v => [v_date v]
  | KInteger | KValueInteger => fun v => [v_u32 v]
  | KTaggedInteger | KTaggedValueInteger => fun '(t, v) => [v_option v_tag t; v_u32 v]
  | KShort => fun v => [v_u16 v]
  | KVsa => fun v => [v_vsa v]
  end.
Definition v_out (k : kind) : kout k -> value :=
  match k return kout k -> value with
  | KString => v_str
  | KTaggedString => v_pair v_str (v_option v_tag)
  | KUserPassword | KOctets | KFixedOctets _ | KConcatOctets | KIpv4Prefix | KIpv6Prefix => v_bytes
  | KTunnelPassword => v_pair v_bytes v_tag
  | KIpaddr => v_ipv4
  | KIpv6addr => v_ipv6
  | KDate => v_date
  | KInteger | KValueInteger => v_u32
  | KTaggedInteger | KTaggedValueInteger => v_pair v_u32 v_tag
  | KShort => v_u16
  | KVsa => fun x => match x with end
  end.
(** how a call of [add_x] ends: the packet it leaves and what it returns *)
Definition added (k : kind) (r : packet * res avp_error unit) (args : list value) (w : world) : rout :=
  match snd r with
  | Ok _ => RVal (if fallible k then vok VUnit else VUnit) (v_packet (fst r) :: args) w
  | Err e => RVal (verr (v_avp_error e)) (v_packet (fst r) :: args) w
  | Panic => RPanic
  | OutOfFuel => RNoFuel
  end.
Definition looked (k : kind) (r : option (res avp_error (kout k))) (p : packet) (w : world) : rout :=
  match r with
  | None => RVal vnone [v_packet p] w
  | Some (Ok x) => RVal (vsome (if bare k then v_out k x else vok (v_out k x))) [v_packet p] w
  | Some (Err e) => RVal (vsome (verr (v_avp_error e))) [v_packet p] w
  | Some Panic => RPanic
  | Some OutOfFuel => RNoFuel
  end.
Definition looked_all (k : kind) (r : res avp_error (list (kout k))) (p : packet) (w : world) : rout :=
  match r with
  | Ok l => RVal (if bare k then VList (map (v_out k) l) else vok (VList (map (v_out k) l))) [v_packet p] w
  | Err e => RVal (verr (v_avp_error e)) [v_packet p] w
  | Panic => RPanic
  | OutOfFuel => RNoFuel
  end.

(** ** What the functions of the core do, for a packet and an attribute in general *)
Section Code.
Context (pr : profile) (rng : nat -> byte) (he : bytes -> option string)
        (ans : list event -> string -> list value -> option value).
Notation C f := (Cx pr (crate_program f) rng he ans).
Lemma from_user_password_any f n t p secret ra w : hashes he f -> (1 <= n)%nat ->
  run (C f) n "AVP" "from_user_password" [vu8 t; v_bytes p; v_bytes secret; v_bytes ra] w
  = v_result v_avp_error v_avp (avp_from_user_password t p secret ra) [vu8 t; v_bytes p; v_bytes secret; v_bytes ra] w.
Proof.
  intros H Hn; destruct f; [now apply run_from_user_password_md5|].
  rewrite run_from_user_password_openssl, from_user_password_ssl by easy.
  now rewrite (proj1 (proj2 (proj2 (proj2 (C50_same_functions (hash_of he) (hash_of_md5 he) (hash_of_total he (H eq_refl))))))).
Qed.
Lemma from_tunnel_password_any f n t tg p secret ra w : hashes he f -> (2 <= n)%nat ->
  run (C f) n "AVP" "from_tunnel_password" [vu8 t; v_option v_tag tg; v_bytes p; v_bytes secret; v_bytes ra] w
  = v_result v_avp_error v_avp
      (avp_from_tunnel_password (rng (w_random w)) (rng (S (w_random w))) t tg p secret ra)
      [vu8 t; v_option v_tag tg; v_bytes p; v_bytes secret; v_bytes ra]
      (if 240 <? len ra then w else CodePassword.drawn 2 w).
Proof.
  intros H Hn; destruct f; [now apply run_from_tunnel_password_md5|].
  rewrite run_from_tunnel_password_openssl, from_tunnel_password_ssl by easy.
  now rewrite (proj1 (proj2 (proj2 (proj2 (proj2 (proj2 (C50_same_functions (hash_of he) (hash_of_md5 he) (hash_of_total he (H eq_refl))))))))).
Qed.
Lemma encode_user_password_any f n a secret ra w : hashes he f -> (1 <= n)%nat ->
  run (C f) n "AVP" "encode_user_password" [v_avp a; v_bytes secret; v_bytes ra] w
  = v_result v_avp_error v_bytes (avp_encode_user_password a secret ra) [v_avp a; v_bytes secret; v_bytes ra] w.
Proof.
  intros H Hn; destruct a as [t v]; destruct f; [now apply run_encode_user_password_md5|].
  rewrite run_encode_user_password_openssl, encode_user_password_ssl by easy.
  now rewrite (proj1 (proj2 (proj2 (proj2 (proj2 (C50_same_functions (hash_of he) (hash_of_md5 he) (hash_of_total he (H eq_refl)))))))).
Qed.
Lemma encode_tunnel_password_any f n a secret ra w : hashes he f -> (1 <= n)%nat ->
  run (C f) n "AVP" "encode_tunnel_password" [v_avp a; v_bytes secret; v_bytes ra] w
  = v_result v_avp_error (v_pair v_bytes v_tag) (avp_encode_tunnel_password a secret ra) [v_avp a; v_bytes secret; v_bytes ra] w.
Proof.
  intros H Hn; destruct a as [t v]; destruct f; [now apply run_encode_tunnel_password_md5|].
  rewrite run_encode_tunnel_password_openssl, encode_tunnel_password_ssl by easy.
  now rewrite (proj2 (proj2 (proj2 (proj2 (proj2 (proj2 (C50_same_functions (hash_of he) (hash_of_md5 he) (hash_of_total he (H eq_refl))))))))).
Qed.
Ltac any H := intros; match goal with a : avp |- _ => destruct a end; apply H; assumption.
Lemma encode_u32_any f n a w : (3 <= n)%nat ->
  run (C f) n "AVP" "encode_u32" [v_avp a] w = v_result v_avp_error v_u32 (avp_encode_u32 a) [v_avp a] w.
Proof. any run_encode_u32. Qed.
Lemma encode_u16_any f n a w : (3 <= n)%nat ->
  run (C f) n "AVP" "encode_u16" [v_avp a] w = v_result v_avp_error v_u16 (avp_encode_u16 a) [v_avp a] w.
Proof. any run_encode_u16. Qed.
Lemma encode_tagged_u32_any f n a w : (3 <= n)%nat ->
  run (C f) n "AVP" "encode_tagged_u32" [v_avp a] w
  = v_result v_avp_error (v_pair v_u32 v_tag) (avp_encode_tagged_u32 a) [v_avp a] w.
Proof. any run_encode_tagged_u32. Qed.
Lemma encode_string_any f n a w : (3 <= n)%nat ->
  run (C f) n "AVP" "encode_string" [v_avp a] w = v_result v_avp_error v_str (avp_encode_string a) [v_avp a] w.
Proof. any run_encode_string. Qed.
Lemma encode_tagged_string_any f n a w : (3 <= n)%nat ->
  run (C f) n "AVP" "encode_tagged_string" [v_avp a] w
  = v_result v_avp_error (v_pair v_str (v_option v_tag)) (avp_encode_tagged_string a) [v_avp a] w.
Proof. any run_encode_tagged_string. Qed.
Lemma encode_bytes_any f n a w : (1 <= n)%nat ->
  run (C f) n "AVP" "encode_bytes" [v_avp a] w = RVal (v_bytes (avp_encode_bytes a)) [v_avp a] w.
Proof. any run_encode_bytes. Qed.
Lemma encode_ipv4_any f n a w : (3 <= n)%nat ->
  run (C f) n "AVP" "encode_ipv4" [v_avp a] w = v_result v_avp_error v_ipv4 (avp_encode_ipv4 a) [v_avp a] w.
Proof. any run_encode_ipv4. Qed.
Lemma encode_ipv4_prefix_any f n a w : (3 <= n)%nat ->
  run (C f) n "AVP" "encode_ipv4_prefix" [v_avp a] w
  = v_result v_avp_error v_bytes (avp_encode_ipv4_prefix a) [v_avp a] w.
Proof. any run_encode_ipv4_prefix. Qed.
Lemma encode_ipv6_any f n a w : (3 <= n)%nat ->
  run (C f) n "AVP" "encode_ipv6" [v_avp a] w = v_result v_avp_error v_ipv6 (avp_encode_ipv6 a) [v_avp a] w.
Proof. any run_encode_ipv6. Qed.
Lemma encode_ipv6_prefix_any f n a w : (3 <= n)%nat ->
  run (C f) n "AVP" "encode_ipv6_prefix" [v_avp a] w
  = v_result v_avp_error v_bytes (avp_encode_ipv6_prefix a) [v_avp a] w.
Proof. any run_encode_ipv6_prefix. Qed.
Lemma encode_date_any f n a w : (3 <= n)%nat ->
  run (C f) n "AVP" "encode_date" [v_avp a] w = v_result v_avp_error v_date (avp_encode_date a) [v_avp a] w.
Proof. any run_encode_date. Qed.

(** kept folded during evaluation: a packet or an attribute is passed on whole *)
Ltac raw1 H :=
  let T := type of H in
  let T' := eval cbv beta iota delta [v_avps v_bytes v_str v_u32 v_u16 v_usize v_tag vu8 vsome vnone vok verr v_packet v_avp v_attributes v_code v_ipv4 v_ipv6 v_date v_string_vsa v_tagged_string_vsa] in T in
  exact (H : T').
Definition raw_add := ltac:(raw1 (run_packet_add pr rng he ans)).
Definition raw_extend := ltac:(raw1 (run_packet_extend pr rng he ans)).
Definition raw_delete := ltac:(raw1 (run_packet_delete pr rng he ans)).
Definition raw_lookup := ltac:(raw1 (run_packet_lookup pr rng he ans)).
Definition raw_lookup_all := ltac:(raw1 (run_packet_lookup_all pr rng he ans)).
Definition raw_get_secret := ltac:(raw1 (run_packet_get_secret pr rng he ans)).
Definition raw_get_authenticator := ltac:(raw1 (run_packet_get_authenticator pr rng he ans)).
Definition raw_from_string := ltac:(raw1 (run_from_string pr rng he ans)).
Definition raw_from_tagged_string := ltac:(raw1 (run_from_tagged_string pr rng he ans)).
Definition raw_from_user_password := ltac:(raw1 from_user_password_any).
Definition raw_from_tunnel_password := ltac:(raw1 from_tunnel_password_any).
Definition raw_from_bytes := ltac:(raw1 (run_from_bytes pr rng he ans)).
Definition raw_from_ipv4 := ltac:(raw1 (run_from_ipv4 pr rng he ans)).
Definition raw_from_ipv4_prefix := ltac:(raw1 (run_from_ipv4_prefix pr rng he ans)).
Definition raw_from_ipv6 := ltac:(raw1 (run_from_ipv6 pr rng he ans)).
Definition raw_from_ipv6_prefix := ltac:(raw1 (run_from_ipv6_prefix pr rng he ans)).
Definition raw_from_date := ltac:(raw1 (run_from_date pr rng he ans)).
Definition raw_from_u32 := ltac:(raw1 (run_from_u32 pr rng he ans)).
Definition raw_from_tagged_u32 := ltac:(raw1 (run_from_tagged_u32 pr rng he ans)).
Definition raw_from_u16 := ltac:(raw1 (run_from_u16 pr rng he ans)).
Definition raw_encode_user_password := ltac:(raw1 encode_user_password_any).
Definition raw_encode_tunnel_password := ltac:(raw1 encode_tunnel_password_any).
Definition raw_encode_u32 := ltac:(raw1 encode_u32_any).
Definition raw_encode_u16 := ltac:(raw1 encode_u16_any).
Definition raw_encode_tagged_u32 := ltac:(raw1 encode_tagged_u32_any).
Definition raw_encode_string := ltac:(raw1 encode_string_any).
Definition raw_encode_tagged_string := ltac:(raw1 encode_tagged_string_any).
Definition raw_encode_bytes := ltac:(raw1 encode_bytes_any).
Definition raw_encode_ipv4 := ltac:(raw1 encode_ipv4_any).
Definition raw_encode_ipv4_prefix := ltac:(raw1 encode_ipv4_prefix_any).
Definition raw_encode_ipv6 := ltac:(raw1 encode_ipv6_any).
Definition raw_encode_ipv6_prefix := ltac:(raw1 encode_ipv6_prefix_any).
Definition raw_encode_date := ltac:(raw1 encode_date_any).
Definition raw_string_message := ltac:(raw1 (run_string_vsa_message pr rng he ans)).
Definition raw_tagged_message := ltac:(raw1 (run_tagged_string_vsa_message pr rng he ans)).
Lemma b2n_mod8 b : b2n b mod 256 = b2n b.
Proof. apply N.mod_small, b2n_lt. Qed.
(** the call that comes next, by its name *)
Ltac quick :=
  lazymatch goal with |- context [after_call (run ?C ?n ?t ?x ?args ?w) _] =>
    rewrite ?b2n_mod8;
    lazymatch x with
    | "add" => rewrite raw_add by (first [lia | assumption])
    | "extend" => rewrite raw_extend by (first [lia | assumption])
    | "delete" => rewrite raw_delete by (first [lia | assumption])
    | "lookup" => rewrite raw_lookup by lia; match goal with |- context [packet_lookup ?p ?t] => destruct (packet_lookup p t) eqn:? end; cbn [v_option]
    | "lookup_all" => rewrite raw_lookup_all by (first [lia | assumption])
    | "get_secret" => rewrite raw_get_secret by (first [lia | assumption])
    | "get_authenticator" => rewrite raw_get_authenticator by (first [lia | assumption])
    | "from_string" => rewrite raw_from_string by (first [lia | assumption])
    | "from_tagged_string" => rewrite raw_from_tagged_string by (first [lia | assumption])
    | "from_user_password" => rewrite raw_from_user_password by (first [lia | assumption])
    | "from_tunnel_password" => rewrite raw_from_tunnel_password by (first [lia | assumption])
    | "from_bytes" => rewrite raw_from_bytes by (first [lia | assumption])
    | "from_ipv4" => rewrite raw_from_ipv4 by (first [lia | assumption])
    | "from_ipv4_prefix" => rewrite raw_from_ipv4_prefix by (first [lia | assumption])
    | "from_ipv6" => rewrite raw_from_ipv6 by (first [lia | assumption])
    | "from_ipv6_prefix" => rewrite raw_from_ipv6_prefix by (first [lia | assumption])
    | "from_date" => rewrite raw_from_date by (first [lia | assumption])
    | "from_u32" => rewrite raw_from_u32 by (first [lia | assumption])
    | "from_tagged_u32" => rewrite raw_from_tagged_u32 by (first [lia | assumption])
    | "from_u16" => rewrite raw_from_u16 by (first [lia | assumption])
    | "encode_user_password" => rewrite raw_encode_user_password by (first [lia | assumption])
    | "encode_tunnel_password" => rewrite raw_encode_tunnel_password by (first [lia | assumption])
    | "encode_u32" => rewrite raw_encode_u32 by (first [lia | assumption])
    | "encode_u16" => rewrite raw_encode_u16 by (first [lia | assumption])
    | "encode_tagged_u32" => rewrite raw_encode_tagged_u32 by (first [lia | assumption])
    | "encode_string" => rewrite raw_encode_string by (first [lia | assumption])
    | "encode_tagged_string" => rewrite raw_encode_tagged_string by (first [lia | assumption])
    | "encode_bytes" => rewrite raw_encode_bytes by (first [lia | assumption])
    | "encode_ipv4" => rewrite raw_encode_ipv4 by (first [lia | assumption])
    | "encode_ipv4_prefix" => rewrite raw_encode_ipv4_prefix by (first [lia | assumption])
    | "encode_ipv6" => rewrite raw_encode_ipv6 by (first [lia | assumption])
    | "encode_ipv6_prefix" => rewrite raw_encode_ipv6_prefix by (first [lia | assumption])
    | "encode_date" => rewrite raw_encode_date by (first [lia | assumption])
    | "message" => first [rewrite raw_string_message by (first [lia | assumption]) | rewrite raw_tagged_message by (first [lia | assumption])]
    end end.

Ltac enter_now :=
  match goal with |- enter ?C (S ?n) (Fn ?x ?sf ?ps ?ret ?body) ?args ?w = _ =>
    let bs := norm_all (bind_params ps (cx_program C) args) in
    lazymatch bs with Some ?bs =>
      let s := norm_all (push_vars bs (State [] w)) in let k := norm_all (count bs) in
      change (enter C (S n) (Fn x sf ps ret body) args w) with (finish (cx_program C) k ret (eval C n "" (run C n) s body))
    end end.
Ltac quick_steps := repeat (first [quick | step]).
Ltac entering :=
  intros; match goal with n : nat |- _ => destruct n as [|n]; [lia|] end;
  match goal with |- enter ?C ?n ?f ?args ?w = _ =>
    let f' := eval cbv beta iota zeta delta [
      fn_delete fn_add fn_lookup fn_lookup_all add_body lookup_body lookup_all_body construct convert split_tag as_u32
      tag_param packet_mut packet_ref of_packet number keys ok option_of result_of vec_of octets named var
      tagged keyed fallible bare value_ty found_ty from_name to_name app] in f in
    change f with f'
  end;
  cbn [v_in v_out v_vsa bare fallible];
  match goal with f : feature |- _ => destruct f end; enter_now; quick_steps.
Lemma enter_delete f n x typ p w : (3 <= n)%nat ->
  enter (C f) n (fn_delete x typ) [v_packet p] w = RVal VUnit [v_packet (template_delete typ p)] w.
Proof. entering; reflexivity. Qed.
Definition simple (k : kind) : bool := match k with KConcatOctets | KVsa | KFixedOctets _ | KTunnelPassword => false | _ => true end.
Lemma enter_add f n k x typ p v w : simple k = true -> hashes he f -> (3 <= n)%nat ->
  enter (C f) n (fn_add k x typ) (v_packet p :: v_in k v) w
  = added k (template_add k typ p v) (v_in k v) w.
Proof.
  intros S. destruct k; try discriminate S; cbn [kin] in v; try match type of v with (_ * _)%type => destruct v as [? v] end.
  all: entering; try reflexivity.
  all: unfold template_add, kind_avp, try_add; match goal with D : _ = _ |- _ => rewrite D end; reflexivity.
Qed.
Lemma chunk_loop typ g l s :
  (forall c, g (VBytes c) s = Norm (v_avp (avp_from_bytes typ c)) s) ->
  map_loop g (map VBytes l) s = Norm (VList (avp_values (map (avp_from_bytes typ) l))) s.
Proof.
  intro H. rewrite (map_loop_map VBytes (fun c => v_avp (avp_from_bytes typ c))) by exact H.
  unfold avp_values. now rewrite map_map.
Qed.
Lemma enter_add_concat f n x typ p v w : (3 <= n)%nat ->
  enter (C f) n (fn_add KConcatOctets x typ) (v_packet p :: v_in KConcatOctets v) w
  = added KConcatOctets (template_add KConcatOctets typ p v) (v_in KConcatOctets v) w.
Proof.
  cbn [kin] in v. entering.
  all: rewrite (chunk_loop typ) by (intro; quick_steps; reflexivity); quick_steps; reflexivity.
Qed.
Lemma enter_add_fixed f n k x typ p v w : (3 <= n)%nat ->
  enter (C f) n (fn_add (KFixedOctets k) x typ) (v_packet p :: v_in (KFixedOctets k) v) w
  = added (KFixedOctets k) (template_add (KFixedOctets k) typ p v) (v_in (KFixedOctets k) v) w.
Proof.
  cbn [kin] in v. entering.
  all: unfold template_add, kind_avp, try_add; rhs_known; reflexivity.
Qed.
Lemma enter_add_vsa f n x typ p v w : (3 <= n)%nat ->
  (match v with
   | VString v => len (sv_vendor_id v) < 2 ^ 62 /\ len (sv_value v) < 2 ^ 62
   | VTagged v => len (tv_vendor_id v) < 2 ^ 62 /\ len (tv_value v) < 2 ^ 62
   end) ->
  enter (C f) n (fn_add KVsa x typ) (v_packet p :: v_in KVsa v) w
  = added KVsa (template_add KVsa typ p v) (v_in KVsa v) w.
Proof.
  cbn [kin] in v. intros Hn Hv; destruct v as [v|v]; destruct Hv as [Hv1 Hv2]; entering; reflexivity.
Qed.
Lemma enter_add_tunnel_password f n x typ p r0 r1 t v w : hashes he f -> (3 <= n)%nat ->
  r0 = rng (w_random w) -> r1 = rng (S (w_random w)) ->
  enter (C f) n (fn_add KTunnelPassword x typ) (v_packet p :: v_in KTunnelPassword (r0, r1, t, v)) w
  = added KTunnelPassword (template_add KTunnelPassword typ p (r0, r1, t, v)) (v_in KTunnelPassword (r0, r1, t, v))
      (if 240 <? len (packet_get_authenticator p) then w else CodePassword.drawn 2 w).
Proof.
  intros Hf Hn -> ->. entering.
  all: unfold template_add, kind_avp, try_add; match goal with D : _ = _ |- _ => rewrite D end; reflexivity.
Qed.

Lemma from_be_bound bs n : u32_from_be bs = Some n -> n mod 4294967296 = n.
Proof.
  unfold u32_from_be. intro H.
  destruct bs as [|a [|b [|c [|d [|]]]]]; try discriminate. injection H as <-.
  pose proof (b2n_lt a); pose proof (b2n_lt b); pose proof (b2n_lt c); pose proof (b2n_lt d). apply N.mod_small. lia.
Qed.
Lemma found_u32 a n : avp_encode_u32 a = Ok n -> n mod 4294967296 = n.
Proof.
  unfold avp_encode_u32, bind. destruct (negb _); [easy|]. destruct (slice_to _ _); try easy.
  destruct (u32_from_be _) eqn:E; [|easy]. intro H; injection H as <-. eapply from_be_bound, E.
Qed.
Lemma found_tagged_u32 a n t : avp_encode_tagged_u32 a = Ok (n, t) -> n mod 4294967296 = n.
Proof.
  unfold avp_encode_tagged_u32, bind. destruct (_ =? _); [easy|]. destruct (index _ _); try easy.
  cbv zeta. destruct (_ && _)%bool; [easy|]. destruct (slice_from _ _); try easy. destruct (negb _); [easy|].
  destruct (slice_to _ _); try easy.
  destruct (u32_from_be _) eqn:E; [|easy]. intro H; injection H as <- _. eapply from_be_bound, E.
Qed.
Definition one (k : kind) : bool := match k with KConcatOctets | KVsa => false | _ => true end.
Lemma enter_lookup f n k x typ p w l : one k = true -> hashes he f -> (4 <= n)%nat ->
  template_lookup k typ = Some l ->
  enter (C f) n (fn_lookup k x typ) [v_packet p] w = looked k (l p) p w.
Proof.
  intros S Hf Hn Hl. destruct k; try discriminate S; injection Hl as <-; entering.
  all: try match goal with D : packet_lookup _ _ = _ |- _ => rewrite D end; cbv beta; unfold option_map, kind_value, looked; try reflexivity.
  all: repeat match goal with x : (_ * _)%type |- _ => destruct x end; cbn [fst snd] in *.
  all: try match goal with D : _ = Ok _ |- _ =>
    first [ rewrite (found_u32 _ _ D) | rewrite (found_tagged_u32 _ _ _ D) | idtac ] end.
  all: try match goal with D : _ = _ |- _ => rewrite D end; try reflexivity.
Qed.

Lemma fold_avps g l b s :
  (forall b a, g (VBytes b) (v_avp a) s = Norm (VBytes (b ++ avp_encode_bytes a)) s) ->
  fold_loop g (avp_values l) (VBytes b) s = Norm (VBytes (fold_left (fun acc v => acc ++ avp_encode_bytes v) l b)) s.
Proof.
  intro H. revert b; induction l as [|a l IH]; intro b; [reflexivity|].
  cbn [avp_values map fold_loop fold_left]. rewrite H. cbn [bindo]. apply IH.
Qed.
Lemma fold_loop_cons g x l acc s :
  fold_loop g (x :: l) acc s = bindo (g acc x s) (fun acc s => fold_loop g l acc s).
Proof. reflexivity. Qed.
Lemma enter_lookup_concat f n x typ p w l : (4 <= n)%nat ->
  template_lookup KConcatOctets typ = Some l ->
  enter (C f) n (fn_lookup KConcatOctets x typ) [v_packet p] w = looked KConcatOctets (l p) p w.
Proof.
  intros Hn Hl. injection Hl as <-. entering; unfold looked.
  all: destruct (packet_lookup_all p typ) as [|a avps]; try discriminate; try reflexivity.
  all: match goal with D : avp_values (_ :: ?avps) = _ |- _ => injection D as <- <-; fold (avp_values avps) end.
  all: rewrite fold_loop_cons; quick_steps; rewrite fold_avps by (intros; quick_steps; reflexivity).
  all: quick_steps; reflexivity.
Qed.
Lemma collect_ok {A} (g : avp -> res avp_error A) a l acc :
  collect_loop g (a :: l) acc
  = match g a with Ok x => collect_loop g l (acc ++ [x]) | Err e => Err e | Panic => Panic | OutOfFuel => OutOfFuel end.
Proof. reflexivity. Qed.
Ltac each_avp k p typ :=
  unfold collect; cbv beta;
  match goal with |- context [packet_lookup_all p typ] => generalize (packet_lookup_all p typ) end;
  let avps := fresh "avps" in let a := fresh "a" in let IH := fresh "IH" in let acc := fresh "acc" in
  intro avps;
  match goal with |- context [collect_loop ?g avps []] =>
    change (collect_loop g avps []) with (@collect_loop (kout k) g avps []) end;
  change (VList []) with (VList (map (v_out k) [])); generalize (@nil (kout k));
  induction avps as [|a avps IH]; intro acc;
  [cbn [avp_values map]; rewrite for_loop_nil; quick_steps; reflexivity|];
  rewrite avp_values_cons, for_loop_cons, collect_ok; quick_steps;
  repeat match goal with x : (_ * _)%type |- _ => destruct x end; cbn [fst snd] in *;
  try match goal with D : _ = Ok _ |- _ => first [ rewrite (found_u32 _ _ D) | rewrite (found_tagged_u32 _ _ _ D) | idtac ] end;
  try match goal with D : _ = _ |- _ => rewrite D end; try reflexivity;
  match goal with |- _ = looked_all _ (collect_loop _ _ (acc ++ [?x])) _ _ =>
    match goal with |- context [map (v_out k) acc ++ [?v]] =>
      change (map (v_out k) acc ++ [v]) with (map (v_out k) acc ++ map (v_out k) [x]); rewrite <- map_app; apply IH
    end end.
Lemma enter_lookup_all f n k x typ p w l : one k = true -> hashes he f -> (4 <= n)%nat ->
  template_lookup_all k typ = Some l ->
  enter (C f) n (fn_lookup_all k x typ) [v_packet p] w = looked_all k (l p) p w.
Proof.
  intros S Hf Hn Hl. destruct k as [ | | | | |k| | | | | | | | | | | | ]; try discriminate S; injection Hl as <-.
  all: match goal with |- _ = looked_all ?k _ _ _ => entering; unfold kind_value; each_avp k p typ end.
Qed.
End Code.
