(** * C75: the source text of radius/src/core, run

    [SourceCore.v] is the text of the files; [Rust.v] and [RustEval.v] give the meaning of a Rust program from
    its text.  The theorems C75 say that the definitions of the model, about which the other properties are
    proved, are what the source text means. *)
From Coq Require Import String List NArith ZArith Bool Arith Strings.Byte Lia ZifyBool ZifyNat ZifyN.
From Verif Require Import Prelude Md5 Utf8 Tag Code Avp Attributes Vsa Packet Addr Display Server AvpOpenssl PacketOpenssl OpensslFacts PropOpenssl
  Rust RustEval SourceCore CodeRun RustFacts CodeTactics CodeBase CodeAvp CodeAttributes CodePassword CodePacket CodeEncode CodeHash.
Import ListNotations.
Local Open Scope string_scope.
Local Open Scope N_scope.
Local Open Scope list_scope.

(** ** Specification *)
(** the files of radius/src/core, client.rs and server.rs in a build: with or without overflow checks; with the hash library md5 or
    openssl; [rng]: the bytes the random number generator gives; [he]: on which inputs the hash of openssl
    fails, with which text *)
Definition source (pr : profile) (f : feature) (rng : nat -> byte) (he : bytes -> option string)
    (ans : list event -> string -> list value -> option value) : cx :=
  Cx pr (program_from crate_files f) rng he ans.
(** calling a function ends in this way: it returns [v], with these values in its parameters ([&mut] ones may
    have changed) and the world in this state, or it panics *)
Definition does (c : cx) (t x : string) (args : list value) (w : world) (r : rout) : Prop :=
  exists k, forall n, (k <= n)%nat -> run c n t x args w = r.
Lemma does_unique c t x args w r1 r2 : does c t x args w r1 -> does c t x args w r2 -> r1 = r2.
Proof.
  intros [k1 H1] [k2 H2]. rewrite <- (H1 (k1 + k2)%nat), <- (H2 (k1 + k2)%nat) by lia. reflexivity.
Qed.

(** the functions and constants the files declare *)
Definition declared (f : feature) : list (string * string) :=
  map (fun d => (fst d, f_name (snd d))) (pg_fns (program_from crate_files f)).

(** ** C75 *)
Theorem C75_source_tag_rs : forall pr (f : feature) rng he ans w,
    (does (source pr f rng he ans) "" "UNUSED_TAG_VALUE" [] w
      (RVal (vu8 UNUSED_TAG_VALUE) [] w))
  /\ (forall v, does (source pr f rng he ans) "Tag" "new" [vu8 v] w
      (RVal (v_tag (tag_new v)) [vu8 v] w))
  /\ (does (source pr f rng he ans) "Tag" "new_unused" [] w
      (RVal (v_tag tag_new_unused) [] w))
  /\ (forall t, does (source pr f rng he ans) "Tag" "get_value" [v_tag t] w
      (RVal (vu8 (tag_get_value t)) [v_tag t] w))
  /\ (forall b, does (source pr f rng he ans) "Tag" "is_zero" [v_tag (Tag b)] w
      (RVal (VBool (tag_is_zero (Tag b))) [v_tag (Tag b)] w))
  /\ (forall b, does (source pr f rng he ans) "Tag" "is_valid_value" [v_tag (Tag b)] w
      (RVal (VBool (tag_is_valid_value (Tag b))) [v_tag (Tag b)] w)).
Proof.
  intros pr f rng he ans w. repeat match goal with |- _ /\ _ => split end.
  - (intros; exists (1)%nat; intros; unfold source; rewrite <- crate_program_ok; apply run_UNUSED_TAG_VALUE; assumption).
  - (intros; exists (1)%nat; intros; unfold source; rewrite <- crate_program_ok; apply run_tag_new; assumption).
  - (intros; exists (2)%nat; intros; unfold source; rewrite <- crate_program_ok; apply run_tag_new_unused; assumption).
  - (intros; exists (1)%nat; intros; unfold source; rewrite <- crate_program_ok; apply run_tag_get_value; assumption).
  - (intros; exists (2)%nat; intros; unfold source; rewrite <- crate_program_ok; apply run_tag_is_zero; assumption).
  - (intros; exists (1)%nat; intros; unfold source; rewrite <- crate_program_ok; apply run_tag_is_valid_value; assumption).
Qed.

Theorem C75_source_code_rs : forall pr (f : feature) rng he ans w,
    (forall c, does (source pr f rng he ans) "Code" "string" [v_code c] w
      (RVal (v_text (code_string c)) [v_code c] w))
  /\ (forall b, does (source pr f rng he ans) "Code" "from" [vu8 b] w
      (RVal (v_code (code_from b)) [vu8 b] w)).
Proof.
  intros pr f rng he ans w. repeat match goal with |- _ /\ _ => split end.
  - (intros; exists (1)%nat; intros; unfold source; rewrite <- crate_program_ok; apply run_code_string; assumption).
  - (intros; exists (1)%nat; intros; unfold source; rewrite <- crate_program_ok; apply run_code_from; assumption).
Qed.

Theorem C75_source_vsa_rs : forall pr (f : feature) rng he ans w,
    (does (source pr f rng he ans) "StringVSA" "BYTE_SIZE_OFFSET" [] w
      (RVal (v_usize 2) [] w))
  /\ (does (source pr f rng he ans) "TaggedStringVSA" "BYTE_SIZE_OFFSET" [] w
      (RVal (v_usize 3) [] w))
  /\ (forall id typ v, len v < 2 ^ 63 -> does (source pr f rng he ans) "StringVSA" "new" [VSint I32 id; vu8 typ; v_str v] w
      (RVal (v_string_vsa (string_vsa_new id typ v)) [VSint I32 id; vu8 typ; v_str v] w))
  /\ (forall v, does (source pr f rng he ans) "StringVSA" "len" [v_string_vsa v] w
      (RVal (v_usize (string_vsa_len v)) [v_string_vsa v] w))
  /\ (forall v, does (source pr f rng he ans) "StringVSA" "is_empty" [v_string_vsa v] w
      (RVal (VBool (string_vsa_is_empty v)) [v_string_vsa v] w))
  /\ (forall v, len (sv_vendor_id v) < 2 ^ 62 -> len (sv_value v) < 2 ^ 62 -> does (source pr f rng he ans) "StringVSA" "message" [v_string_vsa v] w
      (RVal (v_bytes (string_vsa_message v)) [v_string_vsa v] w))
  /\ (forall id typ tg v, len v < 2 ^ 63 -> does (source pr f rng he ans) "TaggedStringVSA" "new" [VSint I32 id; vu8 typ; vu8 tg; v_str v] w
      (RVal (v_tagged_string_vsa (tagged_string_vsa_new id typ tg v)) [VSint I32 id; vu8 typ; vu8 tg; v_str v] w))
  /\ (forall v, does (source pr f rng he ans) "TaggedStringVSA" "len" [v_tagged_string_vsa v] w
      (RVal (v_usize (tagged_string_vsa_len v)) [v_tagged_string_vsa v] w))
  /\ (forall v, does (source pr f rng he ans) "TaggedStringVSA" "is_empty" [v_tagged_string_vsa v] w
      (RVal (VBool (tagged_string_vsa_is_empty v)) [v_tagged_string_vsa v] w))
  /\ (forall v, len (tv_vendor_id v) < 2 ^ 62 -> len (tv_value v) < 2 ^ 62 -> does (source pr f rng he ans) "TaggedStringVSA" "message" [v_tagged_string_vsa v] w
      (RVal (v_bytes (tagged_string_vsa_message v)) [v_tagged_string_vsa v] w)).
Proof.
  intros pr f rng he ans w. repeat match goal with |- _ /\ _ => split end.
  - (intros; exists (1)%nat; intros; unfold source; rewrite <- crate_program_ok; apply run_string_vsa_offset; assumption).
  - (intros; exists (1)%nat; intros; unfold source; rewrite <- crate_program_ok; apply run_tagged_string_vsa_offset; assumption).
  - (intros; exists (2)%nat; intros; unfold source; rewrite <- crate_program_ok; apply run_string_vsa_new; assumption).
  - (intros; exists (1)%nat; intros; unfold source; rewrite <- crate_program_ok; apply run_string_vsa_len; assumption).
  - (intros; exists (1)%nat; intros; unfold source; rewrite <- crate_program_ok; apply run_string_vsa_is_empty; assumption).
  - (intros; exists (2)%nat; intros; unfold source; rewrite <- crate_program_ok; apply run_string_vsa_message; assumption).
  - (intros; exists (2)%nat; intros; unfold source; rewrite <- crate_program_ok; apply run_tagged_string_vsa_new; assumption).
  - (intros; exists (1)%nat; intros; unfold source; rewrite <- crate_program_ok; apply run_tagged_string_vsa_len; assumption).
  - (intros; exists (1)%nat; intros; unfold source; rewrite <- crate_program_ok; apply run_tagged_string_vsa_is_empty; assumption).
  - (intros; exists (2)%nat; intros; unfold source; rewrite <- crate_program_ok; apply run_tagged_string_vsa_message; assumption).
Qed.

Theorem C75_source_avp_rs : forall pr (f : feature) rng he ans w,
    (does (source pr f rng he ans) "" "TYPE_INVALID" [] w
      (RVal (vu8 xff) [] w))
  /\ (forall typ x, does (source pr f rng he ans) "AVP" "from_u32" [vu8 typ; v_u32 x] w
      (RVal (v_avp (avp_from_u32 typ x)) [vu8 typ; v_u32 x] w))
  /\ (forall typ x, does (source pr f rng he ans) "AVP" "from_u16" [vu8 typ; v_u16 x] w
      (RVal (v_avp (avp_from_u16 typ x)) [vu8 typ; v_u16 x] w))
  /\ (forall typ t x, does (source pr f rng he ans) "AVP" "from_tagged_u32" [vu8 typ; v_option v_tag t; v_u32 x] w
      (RVal (v_avp (avp_from_tagged_u32 typ t x)) [vu8 typ; v_option v_tag t; v_u32 x] w))
  /\ (forall typ x, does (source pr f rng he ans) "AVP" "from_string" [vu8 typ; v_str x] w
      (RVal (v_avp (avp_from_string typ x)) [vu8 typ; v_str x] w))
  /\ (forall typ t x, does (source pr f rng he ans) "AVP" "from_tagged_string" [vu8 typ; v_option v_tag t; v_str x] w
      (RVal (v_avp (avp_from_tagged_string typ t x)) [vu8 typ; v_option v_tag t; v_str x] w))
  /\ (forall typ x, does (source pr f rng he ans) "AVP" "from_bytes" [vu8 typ; v_bytes x] w
      (RVal (v_avp (avp_from_bytes typ x)) [vu8 typ; v_bytes x] w))
  /\ (forall typ x, does (source pr f rng he ans) "AVP" "from_ipv4" [vu8 typ; v_ipv4 x] w
      (RVal (v_avp (avp_from_ipv4 typ x)) [vu8 typ; v_ipv4 x] w))
  /\ (forall typ x, does (source pr f rng he ans) "AVP" "from_ipv6" [vu8 typ; v_ipv6 x] w
      (RVal (v_avp (avp_from_ipv6 typ x)) [vu8 typ; v_ipv6 x] w))
  /\ (forall typ x, does (source pr f rng he ans) "AVP" "from_ipv4_prefix" [vu8 typ; v_bytes x] w
      (v_result v_avp_error v_avp (avp_from_ipv4_prefix typ x) [vu8 typ; v_bytes x] w))
  /\ (forall typ x, does (source pr f rng he ans) "AVP" "from_ipv6_prefix" [vu8 typ; v_bytes x] w
      (v_result v_avp_error v_avp (avp_from_ipv6_prefix typ x) [vu8 typ; v_bytes x] w))
  /\ (forall typ d, does (source pr f rng he ans) "AVP" "from_date" [vu8 typ; v_date d] w
      (RVal (v_avp (avp_from_date typ d)) [vu8 typ; v_date d] w))
  /\ (forall t v, does (source pr f rng he ans) "AVP" "encode_u32" [v_avp (AVP t v)] w
      (v_result v_avp_error v_u32 (avp_encode_u32 (AVP t v)) [v_avp (AVP t v)] w))
  /\ (forall t v, does (source pr f rng he ans) "AVP" "encode_u16" [v_avp (AVP t v)] w
      (v_result v_avp_error v_u16 (avp_encode_u16 (AVP t v)) [v_avp (AVP t v)] w))
  /\ (forall t v, does (source pr f rng he ans) "AVP" "encode_tagged_u32" [v_avp (AVP t v)] w
      (v_result v_avp_error (v_pair v_u32 v_tag) (avp_encode_tagged_u32 (AVP t v)) [v_avp (AVP t v)] w))
  /\ (forall t v, does (source pr f rng he ans) "AVP" "encode_string" [v_avp (AVP t v)] w
      (v_result v_avp_error v_str (avp_encode_string (AVP t v)) [v_avp (AVP t v)] w))
  /\ (forall t v, does (source pr f rng he ans) "AVP" "encode_tagged_string" [v_avp (AVP t v)] w
      (v_result v_avp_error (v_pair v_str (v_option v_tag)) (avp_encode_tagged_string (AVP t v)) [v_avp (AVP t v)] w))
  /\ (forall t v, does (source pr f rng he ans) "AVP" "encode_bytes" [v_avp (AVP t v)] w
      (RVal (v_bytes (avp_encode_bytes (AVP t v))) [v_avp (AVP t v)] w))
  /\ (forall t v, does (source pr f rng he ans) "AVP" "encode_ipv4" [v_avp (AVP t v)] w
      (v_result v_avp_error v_ipv4 (avp_encode_ipv4 (AVP t v)) [v_avp (AVP t v)] w))
  /\ (forall t v, does (source pr f rng he ans) "AVP" "encode_ipv4_prefix" [v_avp (AVP t v)] w
      (v_result v_avp_error v_bytes (avp_encode_ipv4_prefix (AVP t v)) [v_avp (AVP t v)] w))
  /\ (forall t v, does (source pr f rng he ans) "AVP" "encode_ipv6" [v_avp (AVP t v)] w
      (v_result v_avp_error v_ipv6 (avp_encode_ipv6 (AVP t v)) [v_avp (AVP t v)] w))
  /\ (forall t v, does (source pr f rng he ans) "AVP" "encode_ipv6_prefix" [v_avp (AVP t v)] w
      (v_result v_avp_error v_bytes (avp_encode_ipv6_prefix (AVP t v)) [v_avp (AVP t v)] w))
  /\ (forall t v, does (source pr f rng he ans) "AVP" "encode_date" [v_avp (AVP t v)] w
      (v_result v_avp_error v_date (avp_encode_date (AVP t v)) [v_avp (AVP t v)] w)).
Proof.
  intros pr f rng he ans w. repeat match goal with |- _ /\ _ => split end.
  - (intros; exists (1)%nat; intros; unfold source; rewrite <- crate_program_ok; apply run_TYPE_INVALID; assumption).
  - (intros; exists (1)%nat; intros; unfold source; rewrite <- crate_program_ok; apply run_from_u32; assumption).
  - (intros; exists (1)%nat; intros; unfold source; rewrite <- crate_program_ok; apply run_from_u16; assumption).
  - (intros; exists (2)%nat; intros; unfold source; rewrite <- crate_program_ok; apply run_from_tagged_u32; assumption).
  - (intros; exists (1)%nat; intros; unfold source; rewrite <- crate_program_ok; apply run_from_string; assumption).
  - (intros; exists (2)%nat; intros; unfold source; rewrite <- crate_program_ok; apply run_from_tagged_string; assumption).
  - (intros; exists (1)%nat; intros; unfold source; rewrite <- crate_program_ok; apply run_from_bytes; assumption).
  - (intros; exists (1)%nat; intros; unfold source; rewrite <- crate_program_ok; apply run_from_ipv4; assumption).
  - (intros; exists (1)%nat; intros; unfold source; rewrite <- crate_program_ok; apply run_from_ipv6; assumption).
  - (intros; exists (1)%nat; intros; unfold source; rewrite <- crate_program_ok; apply run_from_ipv4_prefix; assumption).
  - (intros; exists (1)%nat; intros; unfold source; rewrite <- crate_program_ok; apply run_from_ipv6_prefix; assumption).
  - (intros; exists (1)%nat; intros; unfold source; rewrite <- crate_program_ok; apply run_from_date; assumption).
  - (intros; exists (3)%nat; intros; unfold source; rewrite <- crate_program_ok; apply run_encode_u32; assumption).
  - (intros; exists (3)%nat; intros; unfold source; rewrite <- crate_program_ok; apply run_encode_u16; assumption).
  - (intros; exists (3)%nat; intros; unfold source; rewrite <- crate_program_ok; apply run_encode_tagged_u32; assumption).
  - (intros; exists (3)%nat; intros; unfold source; rewrite <- crate_program_ok; apply run_encode_string; assumption).
  - (intros; exists (3)%nat; intros; unfold source; rewrite <- crate_program_ok; apply run_encode_tagged_string; assumption).
  - (intros; exists (1)%nat; intros; unfold source; rewrite <- crate_program_ok; apply run_encode_bytes; assumption).
  - (intros; exists (3)%nat; intros; unfold source; rewrite <- crate_program_ok; apply run_encode_ipv4; assumption).
  - (intros; exists (3)%nat; intros; unfold source; rewrite <- crate_program_ok; apply run_encode_ipv4_prefix; assumption).
  - (intros; exists (3)%nat; intros; unfold source; rewrite <- crate_program_ok; apply run_encode_ipv6; assumption).
  - (intros; exists (3)%nat; intros; unfold source; rewrite <- crate_program_ok; apply run_encode_ipv6_prefix; assumption).
  - (intros; exists (3)%nat; intros; unfold source; rewrite <- crate_program_ok; apply run_encode_date; assumption).
Qed.

Theorem C75_source_passwords_md5 : forall pr rng he ans w,
    (forall t p secret ra, does (source pr Md5Crate rng he ans) "AVP" "from_user_password" [vu8 t; v_bytes p; v_bytes secret; v_bytes ra] w
      (v_result v_avp_error v_avp (avp_from_user_password t p secret ra) [vu8 t; v_bytes p; v_bytes secret; v_bytes ra] w))
  /\ (forall t tg p secret ra, does (source pr Md5Crate rng he ans) "AVP" "from_tunnel_password" [vu8 t; v_option v_tag tg; v_bytes p; v_bytes secret; v_bytes ra] w
      (v_result v_avp_error v_avp (avp_from_tunnel_password (rng (w_random w)) (rng (S (w_random w))) t tg p secret ra) [vu8 t; v_option v_tag tg; v_bytes p; v_bytes secret; v_bytes ra] (if 240 <? len ra then w else drawn 2 w)))
  /\ (forall t v secret ra, does (source pr Md5Crate rng he ans) "AVP" "encode_user_password" [v_avp (AVP t v); v_bytes secret; v_bytes ra] w
      (v_result v_avp_error v_bytes (avp_encode_user_password (AVP t v) secret ra) [v_avp (AVP t v); v_bytes secret; v_bytes ra] w))
  /\ (forall t v secret ra, does (source pr Md5Crate rng he ans) "AVP" "encode_tunnel_password" [v_avp (AVP t v); v_bytes secret; v_bytes ra] w
      (v_result v_avp_error (v_pair v_bytes v_tag) (avp_encode_tunnel_password (AVP t v) secret ra) [v_avp (AVP t v); v_bytes secret; v_bytes ra] w)).
Proof.
  intros pr rng he ans w. repeat match goal with |- _ /\ _ => split end.
  - (intros; exists (1)%nat; intros; unfold source; rewrite <- crate_program_ok; apply run_from_user_password_md5; assumption).
  - (intros; exists (2)%nat; intros; unfold source; rewrite <- crate_program_ok; apply run_from_tunnel_password_md5; assumption).
  - (intros; exists (1)%nat; intros; unfold source; rewrite <- crate_program_ok; apply run_encode_user_password_md5; assumption).
  - (intros; exists (1)%nat; intros; unfold source; rewrite <- crate_program_ok; apply run_encode_tunnel_password_md5; assumption).
Qed.

Theorem C75_source_passwords_openssl : forall pr rng he ans w,
    (forall t p secret ra, does (source pr Openssl rng he ans) "AVP" "from_user_password" [vu8 t; v_bytes p; v_bytes secret; v_bytes ra] w
      (v_result v_avp_error v_avp (avp_from_user_password_ossl (hash_of he) t p secret ra) [vu8 t; v_bytes p; v_bytes secret; v_bytes ra] w))
  /\ (forall t tg p secret ra, does (source pr Openssl rng he ans) "AVP" "from_tunnel_password" [vu8 t; v_option v_tag tg; v_bytes p; v_bytes secret; v_bytes ra] w
      (v_result v_avp_error v_avp (avp_from_tunnel_password_ossl (hash_of he) (rng (w_random w)) (rng (S (w_random w))) t tg p secret ra) [vu8 t; v_option v_tag tg; v_bytes p; v_bytes secret; v_bytes ra] (if 240 <? len ra then w else drawn 2 w)))
  /\ (forall t v secret ra, does (source pr Openssl rng he ans) "AVP" "encode_user_password" [v_avp (AVP t v); v_bytes secret; v_bytes ra] w
      (v_result v_avp_error v_bytes (avp_encode_user_password_ossl (hash_of he) (AVP t v) secret ra) [v_avp (AVP t v); v_bytes secret; v_bytes ra] w))
  /\ (forall t v secret ra, does (source pr Openssl rng he ans) "AVP" "encode_tunnel_password" [v_avp (AVP t v); v_bytes secret; v_bytes ra] w
      (v_result v_avp_error (v_pair v_bytes v_tag) (avp_encode_tunnel_password_ossl (hash_of he) (AVP t v) secret ra) [v_avp (AVP t v); v_bytes secret; v_bytes ra] w)).
Proof.
  intros pr rng he ans w. repeat match goal with |- _ /\ _ => split end.
  - (intros; exists (1)%nat; intros; unfold source; rewrite <- crate_program_ok; rewrite <- from_user_password_ssl; apply run_from_user_password_openssl; assumption).
  - (intros; exists (2)%nat; intros; unfold source; rewrite <- crate_program_ok; rewrite <- from_tunnel_password_ssl; apply run_from_tunnel_password_openssl; assumption).
  - (intros; exists (1)%nat; intros; unfold source; rewrite <- crate_program_ok; rewrite <- encode_user_password_ssl; apply run_encode_user_password_openssl; assumption).
  - (intros; exists (1)%nat; intros; unfold source; rewrite <- crate_program_ok; rewrite <- encode_tunnel_password_ssl; apply run_encode_tunnel_password_openssl; assumption).
Qed.

Theorem C75_source_attributes_rs : forall pr (f : feature) rng he ans w,
    (forall l a, does (source pr f rng he ans) "Attributes" "add" [v_attributes l; v_avp a] w
      (RVal VUnit [v_attributes (attributes_add l a); v_avp a] w))
  /\ (forall l m, does (source pr f rng he ans) "Attributes" "extend" [v_attributes l; v_avps m] w
      (RVal VUnit [v_attributes (attributes_extend l m); v_avps m] w))
  /\ (forall l t, does (source pr f rng he ans) "Attributes" "del" [v_attributes l; vu8 t] w
      (RVal VUnit [v_attributes (attributes_del l t); vu8 t] w))
  /\ (forall l t, does (source pr f rng he ans) "Attributes" "lookup" [v_attributes l; vu8 t] w
      (RVal (v_option v_avp (attributes_lookup l t)) [v_attributes l; vu8 t] w))
  /\ (forall l t, does (source pr f rng he ans) "Attributes" "lookup_all" [v_attributes l; vu8 t] w
      (RVal (v_avps (attributes_lookup_all l t)) [v_attributes l; vu8 t] w))
  /\ (forall l, does (source pr f rng he ans) "Attributes" "encode" [v_attributes l] w
      (v_result v_text v_bytes (attributes_encode pr l) [v_attributes l] w))
  /\ (forall bs, len bs < 9223372036854775808 -> does (source pr f rng he ans) "Attributes" "decode" [v_bytes bs] w
      (v_result v_text v_attributes (attributes_decode bs) [v_bytes bs] w)).
Proof.
  intros pr f rng he ans w. repeat match goal with |- _ /\ _ => split end.
  - (intros; exists (1)%nat; intros; unfold source; rewrite <- crate_program_ok; apply run_attributes_add; assumption).
  - (intros; exists (1)%nat; intros; unfold source; rewrite <- crate_program_ok; apply run_attributes_extend; assumption).
  - (intros; exists (1)%nat; intros; unfold source; rewrite <- crate_program_ok; apply run_attributes_del; assumption).
  - (intros; exists (1)%nat; intros; unfold source; rewrite <- crate_program_ok; apply run_attributes_lookup; assumption).
  - (intros; exists (1)%nat; intros; unfold source; rewrite <- crate_program_ok; apply run_attributes_lookup_all; assumption).
  - (intros; exists (1)%nat; intros; unfold source; rewrite <- crate_program_ok; apply run_attributes_encode; assumption).
  - (intros; exists (length bs + 1)%nat; intros; unfold source; rewrite <- crate_program_ok; apply run_attributes_decode; assumption).
Qed.

Theorem C75_source_packet_rs : forall pr (f : feature) rng he ans w,
    (does (source pr f rng he ans) "" "MAX_PACKET_LENGTH" [] w
      (RVal (v_usize MAX_PACKET_LENGTH) [] w))
  /\ (does (source pr f rng he ans) "" "RADIUS_PACKET_HEADER_LENGTH" [] w
      (RVal (v_usize RADIUS_PACKET_HEADER_LENGTH) [] w))
  /\ (forall c secret id, does (source pr f rng he ans) "Packet" "_new" [v_code c; v_bytes secret; v_option v_u8 id] w
      (RVal (v_packet (packet__new (fun k => rng (k + w_random w)%nat) c secret id)) [v_code c; v_bytes secret; v_option v_u8 id] (drawn (match id with Some _ => 16 | None => 17 end) w)))
  /\ (forall c secret, does (source pr f rng he ans) "Packet" "new" [v_code c; v_bytes secret] w
      (RVal (v_packet (packet_new (fun k => rng (k + w_random w)%nat) c secret)) [v_code c; v_bytes secret] (drawn 17 w)))
  /\ (forall c secret id, does (source pr f rng he ans) "Packet" "new_with_identifier" [v_code c; v_bytes secret; vu8 id] w
      (RVal (v_packet (packet_new_with_identifier (fun k => rng (k + w_random w)%nat) c secret id)) [v_code c; v_bytes secret; vu8 id] (drawn 16 w)))
  /\ (forall p, does (source pr f rng he ans) "Packet" "get_code" [v_packet p] w
      (RVal (v_code (packet_get_code p)) [v_packet p] w))
  /\ (forall p, does (source pr f rng he ans) "Packet" "get_identifier" [v_packet p] w
      (RVal (vu8 (packet_get_identifier p)) [v_packet p] w))
  /\ (forall p, does (source pr f rng he ans) "Packet" "get_secret" [v_packet p] w
      (RVal (v_bytes (packet_get_secret p)) [v_packet p] w))
  /\ (forall p, does (source pr f rng he ans) "Packet" "get_authenticator" [v_packet p] w
      (RVal (v_bytes (packet_get_authenticator p)) [v_packet p] w))
  /\ (forall p b, does (source pr f rng he ans) "Packet" "set_identifier" [v_packet p; vu8 b] w
      (RVal VUnit [v_packet (packet_set_identifier p b); vu8 b] w))
  /\ (forall p c, does (source pr f rng he ans) "Packet" "make_response_packet" [v_packet p; v_code c] w
      (RVal (v_packet (packet_make_response_packet p c)) [v_packet p; v_code c] w))
  /\ (forall p a, does (source pr f rng he ans) "Packet" "add" [v_packet p; v_avp a] w
      (RVal VUnit [v_packet (packet_add p a); v_avp a] w))
  /\ (forall p m, does (source pr f rng he ans) "Packet" "extend" [v_packet p; v_avps m] w
      (RVal VUnit [v_packet (packet_extend p m); v_avps m] w))
  /\ (forall p t, does (source pr f rng he ans) "Packet" "delete" [v_packet p; vu8 t] w
      (RVal VUnit [v_packet (packet_delete p t); vu8 t] w))
  /\ (forall p t, does (source pr f rng he ans) "Packet" "lookup" [v_packet p; vu8 t] w
      (RVal (v_option v_avp (packet_lookup p t)) [v_packet p; vu8 t] w))
  /\ (forall p t, does (source pr f rng he ans) "Packet" "lookup_all" [v_packet p; vu8 t] w
      (RVal (v_avps (packet_lookup_all p t)) [v_packet p; vu8 t] w))
  /\ (forall bs secret, len bs < 9223372036854775808 -> does (source pr f rng he ans) "Packet" "decode" [v_bytes bs; v_bytes secret] w
      (v_result v_packet_error v_packet (packet_decode bs secret) [v_bytes bs; v_bytes secret] w))
  /\ (forall p, does (source pr f rng he ans) "Packet" "marshal_binary" [v_packet p] w
      (v_result v_text v_bytes (packet_marshal_binary pr p) [v_packet p] w)).
Proof.
  intros pr f rng he ans w. repeat match goal with |- _ /\ _ => split end.
  - (intros; exists (1)%nat; intros; unfold source; rewrite <- crate_program_ok; apply run_MAX_PACKET_LENGTH; assumption).
  - (intros; exists (1)%nat; intros; unfold source; rewrite <- crate_program_ok; apply run_RADIUS_PACKET_HEADER_LENGTH; assumption).
  - (intros; exists (1)%nat; intros; unfold source; rewrite <- crate_program_ok; apply run_packet__new; assumption).
  - (intros; exists (2)%nat; intros; unfold source; rewrite <- crate_program_ok; apply run_packet_new; assumption).
  - (intros; exists (2)%nat; intros; unfold source; rewrite <- crate_program_ok; apply run_packet_new_with_identifier; assumption).
  - (intros; exists (1)%nat; intros; unfold source; rewrite <- crate_program_ok; apply run_packet_get_code; assumption).
  - (intros; exists (1)%nat; intros; unfold source; rewrite <- crate_program_ok; apply run_packet_get_identifier; assumption).
  - (intros; exists (1)%nat; intros; unfold source; rewrite <- crate_program_ok; apply run_packet_get_secret; assumption).
  - (intros; exists (1)%nat; intros; unfold source; rewrite <- crate_program_ok; apply run_packet_get_authenticator; assumption).
  - (intros; exists (1)%nat; intros; unfold source; rewrite <- crate_program_ok; apply run_packet_set_identifier; assumption).
  - (intros; exists (1)%nat; intros; unfold source; rewrite <- crate_program_ok; apply run_packet_make_response_packet; assumption).
  - (intros; exists (2)%nat; intros; unfold source; rewrite <- crate_program_ok; apply run_packet_add; assumption).
  - (intros; exists (2)%nat; intros; unfold source; rewrite <- crate_program_ok; apply run_packet_extend; assumption).
  - (intros; exists (2)%nat; intros; unfold source; rewrite <- crate_program_ok; apply run_packet_delete; assumption).
  - (intros; exists (2)%nat; intros; unfold source; rewrite <- crate_program_ok; apply run_packet_lookup; assumption).
  - (intros; exists (2)%nat; intros; unfold source; rewrite <- crate_program_ok; apply run_packet_lookup_all; assumption).
  - (intros; exists (length bs + 3)%nat; intros; unfold source; rewrite <- crate_program_ok; apply run_packet_decode; assumption).
  - (intros; exists (2)%nat; intros; unfold source; rewrite <- crate_program_ok; apply run_packet_marshal_binary; assumption).
Qed.

Theorem C75_source_packet_rs_md5 : forall pr rng he ans w,
    (forall p, does (source pr Md5Crate rng he ans) "Packet" "encode" [v_packet p] w
      (v_result v_packet_error v_bytes (packet_encode pr p) [v_packet p] w))
  /\ (forall rs rq secret, does (source pr Md5Crate rng he ans) "Packet" "is_authentic_response" [v_bytes rs; v_bytes rq; v_bytes secret] w
      (v_verdict (packet_is_authentic_response rs rq secret) [v_bytes rs; v_bytes rq; v_bytes secret] w))
  /\ (forall rq secret, does (source pr Md5Crate rng he ans) "Packet" "is_authentic_request" [v_bytes rq; v_bytes secret] w
      (v_verdict (packet_is_authentic_request rq secret) [v_bytes rq; v_bytes secret] w)).
Proof.
  intros pr rng he ans w. repeat match goal with |- _ /\ _ => split end.
  - (intros; exists (3)%nat; intros; unfold source; rewrite <- crate_program_ok; apply run_packet_encode_md5; assumption).
  - (intros; exists (2)%nat; intros; unfold source; rewrite <- crate_program_ok; apply run_packet_is_authentic_response_md5; assumption).
  - (intros; exists (2)%nat; intros; unfold source; rewrite <- crate_program_ok; apply run_packet_is_authentic_request_md5; assumption).
Qed.

Theorem C75_source_packet_rs_openssl : forall pr rng he ans w,
    (forall p, does (source pr Openssl rng he ans) "Packet" "encode" [v_packet p] w
      (v_result v_packet_error v_bytes (packet_encode_ossl (hash_of he) pr p) [v_packet p] w))
  /\ (forall rs rq secret, does (source pr Openssl rng he ans) "Packet" "is_authentic_response" [v_bytes rs; v_bytes rq; v_bytes secret] w
      (v_verdict (packet_is_authentic_response_ossl (hash_of he) rs rq secret) [v_bytes rs; v_bytes rq; v_bytes secret] w))
  /\ (forall rq secret, does (source pr Openssl rng he ans) "Packet" "is_authentic_request" [v_bytes rq; v_bytes secret] w
      (v_verdict (packet_is_authentic_request_ossl (hash_of he) rq secret) [v_bytes rq; v_bytes secret] w)).
Proof.
  intros pr rng he ans w. repeat match goal with |- _ /\ _ => split end.
  - (intros; exists (3)%nat; intros; unfold source; rewrite <- crate_program_ok; rewrite <- packet_encode_ssl_ossl; apply run_packet_encode_openssl; assumption).
  - (intros; exists (2)%nat; intros; unfold source; rewrite <- crate_program_ok; rewrite <- is_authentic_response_ssl; apply run_packet_is_authentic_response_openssl; assumption).
  - (intros; exists (2)%nat; intros; unfold source; rewrite <- crate_program_ok; rewrite <- is_authentic_request_ssl; apply run_packet_is_authentic_request_openssl; assumption).
Qed.

Theorem C75_source_request_rs : forall pr (f : feature) rng he ans w,
    (forall l r p, does (source pr f rng he ans) "Request" "new" [v_addr l; v_addr r; v_packet p] w
      (RVal (v_request (Request l r p)) [v_addr l; v_addr r; v_packet p] w))
  /\ (forall r, does (source pr f rng he ans) "Request" "get_local_addr" [v_request r] w
      (RVal (v_addr (rq_local_addr r)) [v_request r] w))
  /\ (forall r, does (source pr f rng he ans) "Request" "get_remote_addr" [v_request r] w
      (RVal (v_addr (rq_remote_addr r)) [v_request r] w))
  /\ (forall r, does (source pr f rng he ans) "Request" "get_packet" [v_request r] w
      (RVal (v_packet (rq_packet r)) [v_request r] w)).
Proof.
  intros pr f rng he ans w. repeat match goal with |- _ /\ _ => split end.
  - (intros; exists (1)%nat; intros; unfold source; rewrite <- crate_program_ok; apply run_request_new; assumption).
  - (intros; exists (1)%nat; intros; unfold source; rewrite <- crate_program_ok; apply run_request_get_local_addr; assumption).
  - (intros; exists (1)%nat; intros; unfold source; rewrite <- crate_program_ok; apply run_request_get_remote_addr; assumption).
  - (intros; exists (1)%nat; intros; unfold source; rewrite <- crate_program_ok; apply run_request_get_packet; assumption).
Qed.

(** [{:?}] of a packet: what [fmt] gives to the formatter.  [debug_value]: what [derive(Debug)] and the [Debug] of
    the standard library show of a value. *)
Fixpoint debug_value (v : value) : dbg :=
  match v with
  | VInt _ n => DAtom (dec n)
  | VStr b => DAtom (quote (string_of_list_byte b))
  | VBytes b => DList (map (fun x => DAtom (dec (b2n x))) b)
  | VList l => DList (map debug_value l)
  | VCtor _ c [] => DAtom c
  | VCtor _ c l => DTuple c (map debug_value l)
  | VStruct t l => DStruct t (map (fun x => (fst x, debug_value (snd x))) l)
  | _ => DAtom "not used here"
  end.
Definition given_field (b : value) (x : string * value) : event := Event "builder.field" [v_text (fst x); snd x] (Some b).
Theorem C75_source_debug : forall pr (f : feature) rng he ans k tr p result,
  (forall tr args, ans tr "f.debug_struct" args = Some (VExt "builder")) ->
  (forall tr args, ans tr "builder.field" args = Some (VExt "builder")) ->
  (forall tr, ans tr "builder.finish" [] = Some result) ->
  exists fields,
    does (source pr f rng he ans) "Packet" "fmt" [v_packet p; VExt "f"] (World k tr)
      (RVal result [v_packet p; VExt "f"]
        (World k (Event "builder.finish" [] (Some result)
                  :: rev (map (given_field (VExt "builder")) fields)
                  ++ Event "f.debug_struct" [v_text "Packet"] (Some (VExt "builder")) :: tr)))
    /\ packet_dbg p = DStruct "Packet" (map (fun x => (fst x, debug_value (snd x))) fields).
Proof.
  intros pr f rng he ans k tr p result H1 H2 H3.
  exists [("code", v_code (p_code p)); ("identifier", vu8 (p_identifier p)); ("authenticator", VBytes (p_authenticator p));
          ("secret", v_text "*redacted*"); ("attributes", v_attributes (Packet.p_attributes p))].
  split.
  - exists 1%nat. intros n Hn. unfold source. rewrite <- crate_program_ok. revert Hn. start; steps.
    all: repeat match goal with D : ?a ?t (String _ _) ?l = _ |- _ => first [rewrite H1 in D | rewrite H2 in D | rewrite H3 in D]; (discriminate D || (injection D as <-; steps)) end.
    all: try reflexivity.
  - cbn [map fst snd debug_value v_code v_text v_attributes v_avps].
    unfold packet_dbg, attributes_dbg, avp_values. rewrite map_map. reflexivity.
Qed.

(** every function and constant the files declare: the theorems above, and C77 and C78 for client.rs and server.rs,
    have them all *)
Theorem C75_source_functions : forall f, declared f =
  [("", "UNUSED_TAG_VALUE"); ("Tag", "new"); ("Tag", "new_unused"); ("Tag", "get_value"); ("Tag", "is_zero");
   ("Tag", "is_valid_value"); ("Code", "string"); ("Code", "from"); ("Attributes", "decode");
   ("Attributes", "add"); ("Attributes", "extend"); ("Attributes", "del"); ("Attributes", "lookup");
   ("Attributes", "lookup_all"); ("Attributes", "encode"); ("StringVSA", "BYTE_SIZE_OFFSET");
   ("StringVSA", "new"); ("StringVSA", "len"); ("StringVSA", "is_empty"); ("StringVSA", "message");
   ("TaggedStringVSA", "BYTE_SIZE_OFFSET"); ("TaggedStringVSA", "new"); ("TaggedStringVSA", "len");
   ("TaggedStringVSA", "is_empty"); ("TaggedStringVSA", "message"); ("", "TYPE_INVALID");
   ("AVP", "from_u32"); ("AVP", "from_u16"); ("AVP", "from_tagged_u32"); ("AVP", "from_string");
   ("AVP", "from_tagged_string"); ("AVP", "from_bytes"); ("AVP", "from_ipv4"); ("AVP", "from_ipv4_prefix");
   ("AVP", "from_ipv6"); ("AVP", "from_ipv6_prefix"); ("AVP", "from_user_password"); ("AVP", "from_date");
   ("AVP", "from_tunnel_password"); ("AVP", "encode_u32"); ("AVP", "encode_u16");
   ("AVP", "encode_tagged_u32"); ("AVP", "encode_string"); ("AVP", "encode_tagged_string");
   ("AVP", "encode_bytes"); ("AVP", "encode_ipv4"); ("AVP", "encode_ipv4_prefix"); ("AVP", "encode_ipv6");
   ("AVP", "encode_ipv6_prefix"); ("AVP", "encode_user_password"); ("AVP", "encode_date");
   ("AVP", "encode_tunnel_password"); ("", "MAX_PACKET_LENGTH"); ("", "RADIUS_PACKET_HEADER_LENGTH");
   ("Packet", "new"); ("Packet", "new_with_identifier"); ("Packet", "_new"); ("Packet", "get_code");
   ("Packet", "get_identifier"); ("Packet", "get_secret"); ("Packet", "get_authenticator");
   ("Packet", "set_identifier"); ("Packet", "decode"); ("Packet", "make_response_packet");
   ("Packet", "encode"); ("Packet", "marshal_binary"); ("Packet", "is_authentic_response");
   ("Packet", "is_authentic_request"); ("Packet", "add"); ("Packet", "extend"); ("Packet", "delete");
   ("Packet", "lookup"); ("Packet", "lookup_all"); ("Packet", "fmt"); ("Request", "new");
   ("Request", "get_local_addr"); ("Request", "get_remote_addr"); ("Request", "get_packet");
   ("Client", "MAX_DATAGRAM_SIZE"); ("Client", "new"); ("Client", "send_packet"); ("Client", "connect"); ("Client", "request");
   ("", "DEFAULT_BUFFER_SIZE"); ("", "DEFAULT_SKIP_AUTHENTICITY_VALIDATION"); ("Server", "listen"); ("Server", "run");
   ("Server", "set_buffer_size"); ("Server", "set_skip_authenticity_validation"); ("Server", "get_listen_address");
   ("Server", "run_loop"); ("Server", "process_request")]%string.
Proof. intros []; vm_compute; reflexivity. Qed.

(** ** C50, for the source text: the two hash libraries *)
(** the functions of which the files have two variants *)
Definition two_variants : list (string * string) :=
  [("AVP", "from_user_password"); ("AVP", "from_tunnel_password"); ("AVP", "encode_user_password");
   ("AVP", "encode_tunnel_password"); ("Packet", "encode"); ("Packet", "is_authentic_response");
   ("Packet", "is_authentic_request")].
Definition is_two_variants (d : string * fn) : bool :=
  existsb (fun v => String.eqb (fst v) (fst d) && String.eqb (snd v) (f_name (snd d))) two_variants.
(** everything else is the same text for both *)
Theorem C50_source_only_seven_functions_differ :
  filter (fun d => negb (is_two_variants d)) (pg_fns (program_from crate_files Md5Crate))
  = filter (fun d => negb (is_two_variants d)) (pg_fns (program_from crate_files Openssl))
  /\ pg_structs (program_from crate_files Md5Crate) = pg_structs (program_from crate_files Openssl)
  /\ pg_enums (program_from crate_files Md5Crate) = pg_enums (program_from crate_files Openssl)
  /\ pg_types (program_from crate_files Md5Crate) = pg_types (program_from crate_files Openssl)
  /\ pg_texts (program_from crate_files Md5Crate) = pg_texts (program_from crate_files Openssl).
Proof. vm_compute. repeat split; reflexivity. Qed.
Section Same.
Context (he : bytes -> option string) (Hhe : forall b, he b = None).
Let all := C50_same_functions (hash_of he) (hash_of_md5 he) (hash_of_total he Hhe).
Definition proj_encode := (proj1 all).
Definition proj_response := (proj1 (proj2 all)).
Definition proj_request := (proj1 (proj2 (proj2 all))).
Definition proj_from_user_password := (proj1 (proj2 (proj2 (proj2 all)))).
Definition proj_encode_user_password := (proj1 (proj2 (proj2 (proj2 (proj2 all))))).
Definition proj_from_tunnel_password := (proj1 (proj2 (proj2 (proj2 (proj2 (proj2 all)))))).
Definition proj_encode_tunnel_password := (proj2 (proj2 (proj2 (proj2 (proj2 (proj2 all)))))).
End Same.
Theorem C50_source_features_agree : forall pr rng he ans w,
  (forall b, he b = None) ->
  let same t x args := forall r, does (source pr Md5Crate rng he ans) t x args w r <-> does (source pr Openssl rng he ans) t x args w r in
  (forall t p secret ra, same "AVP" "from_user_password" [vu8 t; v_bytes p; v_bytes secret; v_bytes ra])
  /\ (forall t tg p secret ra, same "AVP" "from_tunnel_password" [vu8 t; v_option v_tag tg; v_bytes p; v_bytes secret; v_bytes ra])
  /\ (forall a secret ra, same "AVP" "encode_user_password" [v_avp a; v_bytes secret; v_bytes ra])
  /\ (forall a secret ra, same "AVP" "encode_tunnel_password" [v_avp a; v_bytes secret; v_bytes ra])
  /\ (forall p, same "Packet" "encode" [v_packet p])
  /\ (forall rs rq secret, same "Packet" "is_authentic_response" [v_bytes rs; v_bytes rq; v_bytes secret])
  /\ (forall rq secret, same "Packet" "is_authentic_request" [v_bytes rq; v_bytes secret]).
Proof.
  intros pr rng he ans w Hhe same.
  destruct (C75_source_passwords_md5 pr rng he ans w) as (M1 & M2 & M3 & M4).
  destruct (C75_source_passwords_openssl pr rng he ans w) as (S1 & S2 & S3 & S4).
  destruct (C75_source_packet_rs_md5 pr rng he ans w) as (M5 & M6 & M7).
  destruct (C75_source_packet_rs_openssl pr rng he ans w) as (S5 & S6 & S7).
  assert (E : forall t x args r0, does (source pr Md5Crate rng he ans) t x args w r0 ->
    does (source pr Openssl rng he ans) t x args w r0 -> same t x args).
  { intros t x args r0 A B r. split; intro X.
    - rewrite (does_unique _ _ _ _ _ _ _ X A). exact B.
    - rewrite (does_unique _ _ _ _ _ _ _ X B). exact A. }
  repeat match goal with |- _ /\ _ => split end.
  - intros. eapply E; [apply M1|]. rewrite <- (proj_from_user_password he Hhe). apply S1.
  - intros. eapply E; [apply M2|]. rewrite <- (proj_from_tunnel_password he Hhe). apply S2.
  - intros [t v] s ra. eapply E; [apply M3|]. rewrite <- (proj_encode_user_password he Hhe). apply S3.
  - intros [t v] s ra. eapply E; [apply M4|]. rewrite <- (proj_encode_tunnel_password he Hhe). apply S4.
  - intros. eapply E; [apply M5|]. rewrite <- (proj_encode he Hhe). apply S5.
  - intros. eapply E; [apply M6|]. rewrite <- (proj_response he Hhe). apply S6.
  - intros. eapply E; [apply M7|]. rewrite <- (proj_request he Hhe). apply S7.
Qed.

(** ** C50, for the source text: a hash that fails *)
(** what a caller wants of the openssl variant: the outcome of the md5 variant, or the error
    [HashComputationFailed] with the text of the failure *)
Definition fails_cleanly (he : bytes -> option string) (error : string -> value) (r_md5 r_ssl : rout) : Prop :=
  r_ssl = r_md5
  \/ exists b m ps w, he b = Some m /\ r_ssl = RVal (verr (error m)) ps w.
Definition avp_hash_error (m : string) : value := VCtor "AVPError" "HashComputationFailed" [v_text m].
Definition packet_hash_error (m : string) : value := VCtor "PacketError" "HashComputationFailed" [v_text m].
Lemma cleanly {E A} he (fail : string -> E) fe (fa : A -> value) error r1 r2 ps w :
  (forall m, fe (fail m) = error m) -> agree (hash_of he) fail r1 r2 ->
  fails_cleanly he error (v_result fe fa r1 ps w) (v_result fe fa r2 ps w).
Proof.
  intros F [->|(_ & b & m & H & ->)]; [left; reflexivity|].
  right. exists b, m, ps, w. split; [|cbn [v_result]; now rewrite F].
  revert H. unfold hash_of. destruct (he b); congruence.
Qed.
Theorem C50_source_hash_failure_reported : forall pr rng he ans w,
  let clean error t x args := exists r_md5 r_ssl,
    does (source pr Md5Crate rng he ans) t x args w r_md5
    /\ does (source pr Openssl rng he ans) t x args w r_ssl
    /\ fails_cleanly he error r_md5 r_ssl in
  (forall t p secret ra, clean avp_hash_error "AVP" "from_user_password" [vu8 t; v_bytes p; v_bytes secret; v_bytes ra])
  /\ (forall t tg p secret ra, clean avp_hash_error "AVP" "from_tunnel_password" [vu8 t; v_option v_tag tg; v_bytes p; v_bytes secret; v_bytes ra])
  /\ (forall a secret ra, clean avp_hash_error "AVP" "encode_user_password" [v_avp a; v_bytes secret; v_bytes ra])
  /\ (forall a secret ra, clean avp_hash_error "AVP" "encode_tunnel_password" [v_avp a; v_bytes secret; v_bytes ra])
  /\ (forall p, clean packet_hash_error "Packet" "encode" [v_packet p]).
Proof.
  intros pr rng he ans w clean.
  destruct (C75_source_passwords_md5 pr rng he ans w) as (M1 & M2 & M3 & M4).
  destruct (C75_source_passwords_openssl pr rng he ans w) as (S1 & S2 & S3 & S4).
  destruct (C75_source_packet_rs_md5 pr rng he ans w) as (M5 & M6 & M7).
  destruct (C75_source_packet_rs_openssl pr rng he ans w) as (S5 & S6 & S7).
  repeat match goal with |- _ /\ _ => split end.
  - intros. do 2 eexists. split; [apply M1|]. split; [apply S1|]. eapply cleanly; [|apply C50_user_password; exact (hash_of_md5 he)]; reflexivity.
  - intros. do 2 eexists. split; [apply M2|]. split; [apply S2|]. eapply cleanly; [|apply C50_tunnel_password; exact (hash_of_md5 he)]; reflexivity.
  - intros [t v] s ra. do 2 eexists. split; [apply M3|]. split; [apply S3|]. eapply cleanly; [|apply C50_user_password_decode; exact (hash_of_md5 he)]; reflexivity.
  - intros [t v] s ra. do 2 eexists. split; [apply M4|]. split; [apply S4|]. eapply cleanly; [|apply C50_tunnel_password_decode; exact (hash_of_md5 he)]; reflexivity.
  - intros. do 2 eexists. split; [apply M5|]. split; [apply S5|]. eapply cleanly; [|apply C50_encode; exact (hash_of_md5 he)]; reflexivity.
Qed.
(** The two checks do not report it: where the hash fails (as it does for MD5 when OpenSSL runs in FIPS mode)
    they panic, on every response and on every request of the three codes that carry a digest. *)
Theorem C50_source_checks_panic : forall pr rng he ans w,
  (forall b, he b <> None) ->
  (forall rs rq secret, 20 <= len rs -> 20 <= len rq -> secret <> [] ->
     does (source pr Openssl rng he ans) "Packet" "is_authentic_response" [v_bytes rs; v_bytes rq; v_bytes secret] w RPanic)
  /\ (forall rq secret, 20 <= len rq -> secret <> [] ->
     nth_error rq 0 = Some x04 \/ nth_error rq 0 = Some x28 \/ nth_error rq 0 = Some x2b ->
     does (source pr Openssl rng he ans) "Packet" "is_authentic_request" [v_bytes rq; v_bytes secret] w RPanic).
Proof.
  intros pr rng he ans w H.
  destruct (C75_source_packet_rs_openssl pr rng he ans w) as (S5 & S6 & S7).
  split.
  - intros rs rq secret R Q S. specialize (S6 rs rq secret). now rewrite is_authentic_response_panics in S6.
  - intros rq secret Q S K. specialize (S7 rq secret). now rewrite is_authentic_request_panics in S7.
Qed.

(** ** Cases that meet the hypotheses: functions run from their text *)
Definition unit_source (f : feature) (fails : bool) : cx :=
  source Debug f (fun k => n2b (N.of_nat k)) (fun b => if fails then Some "fips" else None) (fun _ _ _ => None).
Example run_an_encoding :
  run (unit_source Md5Crate false) 9 "Packet" "encode"
    [v_packet (Packet AccountingRequest x2a (zeros 16) [x73] [AVP x01 [x62; x6f; x62]])] (World 0 [])
  = RVal (vok (VBytes (map n2b [4; 42; 0; 25; 127; 55; 184; 138; 56; 199; 18; 252; 81; 229; 206; 226; 143; 205; 193; 39; 1; 5; 98; 111; 98])))
      [v_packet (Packet AccountingRequest x2a (zeros 16) [x73] [AVP x01 [x62; x6f; x62]])] (World 0 []).
Proof. vm_compute. reflexivity. Qed.
Example run_a_failing_check :
  run (unit_source Openssl true) 9 "Packet" "is_authentic_request" [v_bytes (x04 :: zeros 19); v_bytes [x73]] (World 0 []) = RPanic.
Proof. vm_compute. reflexivity. Qed.
Example run_a_random_identifier :
  run (unit_source Md5Crate false) 9 "Packet" "new" [v_code AccessRequest; v_bytes [x73]] (World 0 [])
  = RVal (v_packet (packet_new (fun k => n2b (N.of_nat k)) AccessRequest [x73])) [v_code AccessRequest; v_bytes [x73]] (World 17 []).
Proof. vm_compute. reflexivity. Qed.

(** * Assumptions *)
Print Assumptions C75_source_tag_rs.
Print Assumptions C75_source_code_rs.
Print Assumptions C75_source_vsa_rs.
Print Assumptions C75_source_avp_rs.
Print Assumptions C75_source_passwords_md5.
Print Assumptions C75_source_passwords_openssl.
Print Assumptions C75_source_attributes_rs.
Print Assumptions C75_source_packet_rs.
Print Assumptions C75_source_packet_rs_md5.
Print Assumptions C75_source_packet_rs_openssl.
Print Assumptions C75_source_request_rs.
Print Assumptions C75_source_debug.
Print Assumptions C75_source_functions.
Print Assumptions C50_source_only_seven_functions_differ.
Print Assumptions C50_source_features_agree.
Print Assumptions C50_source_hash_failure_reported.
Print Assumptions C50_source_checks_panic.
