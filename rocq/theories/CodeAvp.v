(** * The functions of vsa.rs and avp.rs, run *)
From Coq Require Import String List NArith ZArith Bool Arith Strings.Byte Lia ZifyBool ZifyNat ZifyN.
From Verif Require Import Prelude PreludeFacts Md5 Utf8 Utf8Facts Tag Code Avp AvpFacts Attributes Vsa Packet Rust RustEval CodeRun RustFacts CodeTactics CodeBase.
Import ListNotations.
Local Open Scope string_scope.
Local Open Scope N_scope.
Local Open Scope list_scope.

Section Code.
Context (pr : profile) (rng : nat -> byte) (he : bytes -> option string)
        (ans : list event -> string -> list value -> option value).
Notation C f := (Cx pr (crate_program f) rng he ans).
(** ** vsa.rs *)
Lemma run_string_vsa_offset f n w : (1 <= n)%nat ->
  run (C f) n "StringVSA" "BYTE_SIZE_OFFSET" [] w = RVal (v_usize 2) [] w.
Proof. go. Qed.
Lemma run_tagged_string_vsa_offset f n w : (1 <= n)%nat ->
  run (C f) n "TaggedStringVSA" "BYTE_SIZE_OFFSET" [] w = RVal (v_usize 3) [] w.
Proof. go. Qed.
#[local] Hint Rewrite run_string_vsa_offset run_tagged_string_vsa_offset using lia : code.
Lemma run_string_vsa_new f n id typ v w : (2 <= n)%nat -> len v < 2 ^ 63 ->
  run (C f) n "StringVSA" "new" [VSint I32 id; vu8 typ; v_str v] w
  = RVal (v_string_vsa (string_vsa_new id typ v)) [VSint I32 id; vu8 typ; v_str v] w.
Proof. go. Qed.
Lemma run_string_vsa_len f n v w : (1 <= n)%nat ->
  run (C f) n "StringVSA" "len" [v_string_vsa v] w = RVal (v_usize (string_vsa_len v)) [v_string_vsa v] w.
Proof. go. Qed.
Lemma run_string_vsa_is_empty f n v w : (1 <= n)%nat ->
  run (C f) n "StringVSA" "is_empty" [v_string_vsa v] w = RVal (VBool (string_vsa_is_empty v)) [v_string_vsa v] w.
Proof. go. Qed.
Lemma run_string_vsa_message f n v w : (2 <= n)%nat -> len (sv_vendor_id v) < 2 ^ 62 -> len (sv_value v) < 2 ^ 62 ->
  run (C f) n "StringVSA" "message" [v_string_vsa v] w = RVal (v_bytes (string_vsa_message v)) [v_string_vsa v] w.
Proof. go. Qed.
Lemma run_tagged_string_vsa_new f n id typ tg v w : (2 <= n)%nat -> len v < 2 ^ 63 ->
  run (C f) n "TaggedStringVSA" "new" [VSint I32 id; vu8 typ; vu8 tg; v_str v] w
  = RVal (v_tagged_string_vsa (tagged_string_vsa_new id typ tg v)) [VSint I32 id; vu8 typ; vu8 tg; v_str v] w.
Proof. go. Qed.
Lemma run_tagged_string_vsa_len f n v w : (1 <= n)%nat ->
  run (C f) n "TaggedStringVSA" "len" [v_tagged_string_vsa v] w = RVal (v_usize (tagged_string_vsa_len v)) [v_tagged_string_vsa v] w.
Proof. go. Qed.
Lemma run_tagged_string_vsa_is_empty f n v w : (1 <= n)%nat ->
  run (C f) n "TaggedStringVSA" "is_empty" [v_tagged_string_vsa v] w = RVal (VBool (tagged_string_vsa_is_empty v)) [v_tagged_string_vsa v] w.
Proof. go. Qed.
Lemma run_tagged_string_vsa_message f n v w : (2 <= n)%nat -> len (tv_vendor_id v) < 2 ^ 62 -> len (tv_value v) < 2 ^ 62 ->
  run (C f) n "TaggedStringVSA" "message" [v_tagged_string_vsa v] w = RVal (v_bytes (tagged_string_vsa_message v)) [v_tagged_string_vsa v] w.
Proof. go. Qed.

(** ** avp.rs: constructors *)
Lemma run_TYPE_INVALID f n w : (1 <= n)%nat ->
  run (C f) n "" "TYPE_INVALID" [] w = RVal (vu8 xff) [] w.
Proof. go. Qed.
Lemma run_from_u32 f n typ x w : (1 <= n)%nat ->
  run (C f) n "AVP" "from_u32" [vu8 typ; v_u32 x] w = RVal (v_avp (avp_from_u32 typ x)) [vu8 typ; v_u32 x] w.
Proof. go. Qed.
Lemma run_from_u16 f n typ x w : (1 <= n)%nat ->
  run (C f) n "AVP" "from_u16" [vu8 typ; v_u16 x] w = RVal (v_avp (avp_from_u16 typ x)) [vu8 typ; v_u16 x] w.
Proof. go. Qed.
Lemma run_from_tagged_u32 f n typ t x w : (2 <= n)%nat ->
  run (C f) n "AVP" "from_tagged_u32" [vu8 typ; v_option v_tag t; v_u32 x] w
  = RVal (v_avp (avp_from_tagged_u32 typ t x)) [vu8 typ; v_option v_tag t; v_u32 x] w.
Proof. destruct t as [t|]; unfold v_option; go. Qed.
Lemma run_from_string f n typ x w : (1 <= n)%nat ->
  run (C f) n "AVP" "from_string" [vu8 typ; v_str x] w = RVal (v_avp (avp_from_string typ x)) [vu8 typ; v_str x] w.
Proof. go. Qed.
Lemma run_from_tagged_string f n typ t x w : (2 <= n)%nat ->
  run (C f) n "AVP" "from_tagged_string" [vu8 typ; v_option v_tag t; v_str x] w
  = RVal (v_avp (avp_from_tagged_string typ t x)) [vu8 typ; v_option v_tag t; v_str x] w.
Proof. destruct t as [t|]; unfold v_option; go. Qed.
Lemma run_from_bytes f n typ x w : (1 <= n)%nat ->
  run (C f) n "AVP" "from_bytes" [vu8 typ; v_bytes x] w = RVal (v_avp (avp_from_bytes typ x)) [vu8 typ; v_bytes x] w.
Proof. go. Qed.
Lemma run_from_ipv4 f n typ x w : (1 <= n)%nat ->
  run (C f) n "AVP" "from_ipv4" [vu8 typ; v_ipv4 x] w = RVal (v_avp (avp_from_ipv4 typ x)) [vu8 typ; v_ipv4 x] w.
Proof. go. Qed.
Lemma run_from_ipv6 f n typ x w : (1 <= n)%nat ->
  run (C f) n "AVP" "from_ipv6" [vu8 typ; v_ipv6 x] w = RVal (v_avp (avp_from_ipv6 typ x)) [vu8 typ; v_ipv6 x] w.
Proof. go. Qed.
Lemma run_from_ipv4_prefix f n typ x w : (1 <= n)%nat ->
  run (C f) n "AVP" "from_ipv4_prefix" [vu8 typ; v_bytes x] w
  = v_result v_avp_error v_avp (avp_from_ipv4_prefix typ x) [vu8 typ; v_bytes x] w.
Proof. unfold avp_from_ipv4_prefix; cbv zeta; go. Qed.
Lemma run_from_ipv6_prefix f n typ x w : (1 <= n)%nat ->
  run (C f) n "AVP" "from_ipv6_prefix" [vu8 typ; v_bytes x] w
  = v_result v_avp_error v_avp (avp_from_ipv6_prefix typ x) [vu8 typ; v_bytes x] w.
Proof. unfold avp_from_ipv6_prefix; cbv zeta; go. Qed.
Lemma run_from_date f n typ d w : (1 <= n)%nat ->
  run (C f) n "AVP" "from_date" [vu8 typ; v_date d] w = RVal (v_avp (avp_from_date typ d)) [vu8 typ; v_date d] w.
Proof. go. Qed.
(** ** avp.rs: accessors *)
Lemma run_encode_u32 f n t v w : (3 <= n)%nat ->
  run (C f) n "AVP" "encode_u32" [v_avp (AVP t v)] w
  = v_result v_avp_error v_u32 (avp_encode_u32 (AVP t v)) [v_avp (AVP t v)] w.
Proof. destruct (N.eq_dec (len v) 4) as [E|E]; [apply len4 in E; destruct E as (a & b & c & d & ->)|]; unfold avp_encode_u32; go. Qed.
Lemma run_encode_u16 f n t v w : (3 <= n)%nat ->
  run (C f) n "AVP" "encode_u16" [v_avp (AVP t v)] w
  = v_result v_avp_error v_u16 (avp_encode_u16 (AVP t v)) [v_avp (AVP t v)] w.
Proof. destruct (N.eq_dec (len v) 2) as [E|E]; [apply len2 in E; destruct E as (a & b & ->)|]; unfold avp_encode_u16; go. Qed.
Ltac go_cons := start; autorewrite with vals; steps; try reflexivity; try fin; try no_utf8_panic.
Lemma run_encode_tagged_u32 f n t v w : (3 <= n)%nat ->
  run (C f) n "AVP" "encode_tagged_u32" [v_avp (AVP t v)] w
  = v_result v_avp_error (v_pair v_u32 v_tag) (avp_encode_tagged_u32 (AVP t v)) [v_avp (AVP t v)] w.
Proof. destruct v as [|b0 v]; [|destruct (N.eq_dec (len v) 4) as [E|E]; [apply len4 in E; destruct E as (a & b & c & d & ->)|]]; unfold avp_encode_tagged_u32; go_cons. Qed.
Lemma run_encode_string f n t v w : (3 <= n)%nat ->
  run (C f) n "AVP" "encode_string" [v_avp (AVP t v)] w
  = v_result v_avp_error v_str (avp_encode_string (AVP t v)) [v_avp (AVP t v)] w.
Proof. unfold avp_encode_string; go. Qed.
Lemma run_encode_tagged_string f n t v w : (3 <= n)%nat ->
  run (C f) n "AVP" "encode_tagged_string" [v_avp (AVP t v)] w
  = v_result v_avp_error (v_pair v_str (v_option v_tag)) (avp_encode_tagged_string (AVP t v)) [v_avp (AVP t v)] w.
Proof. destruct v as [|b0 v]; unfold avp_encode_tagged_string; cbv zeta; go_cons. Qed.
Lemma run_encode_bytes f n t v w : (1 <= n)%nat ->
  run (C f) n "AVP" "encode_bytes" [v_avp (AVP t v)] w
  = RVal (v_bytes (avp_encode_bytes (AVP t v))) [v_avp (AVP t v)] w.
Proof. go. Qed.
Lemma run_encode_ipv4 f n t v w : (3 <= n)%nat ->
  run (C f) n "AVP" "encode_ipv4" [v_avp (AVP t v)] w
  = v_result v_avp_error v_ipv4 (avp_encode_ipv4 (AVP t v)) [v_avp (AVP t v)] w.
Proof. destruct (N.eq_dec (len v) 4) as [E|E]; [apply len4 in E; destruct E as (a & b & c & d & ->)|]; unfold avp_encode_ipv4; go. Qed.
Lemma run_encode_ipv4_prefix f n t v w : (3 <= n)%nat ->
  run (C f) n "AVP" "encode_ipv4_prefix" [v_avp (AVP t v)] w
  = v_result v_avp_error v_bytes (avp_encode_ipv4_prefix (AVP t v)) [v_avp (AVP t v)] w.
Proof. unfold avp_encode_ipv4_prefix; go. Qed.
Lemma run_encode_ipv6 f n t v w : (3 <= n)%nat ->
  run (C f) n "AVP" "encode_ipv6" [v_avp (AVP t v)] w
  = v_result v_avp_error v_ipv6 (avp_encode_ipv6 (AVP t v)) [v_avp (AVP t v)] w.
Proof. destruct (N.eq_dec (len v) 16) as [E|E]; [apply len16 in E; destruct E as (o0 & o1 & o2 & o3 & o4 & o5 & o6 & o7 & o8 & o9 & o10 & o11 & o12 & o13 & o14 & o15 & ->)|]; unfold avp_encode_ipv6; go. Qed.
Lemma run_encode_ipv6_prefix f n t v w : (3 <= n)%nat ->
  run (C f) n "AVP" "encode_ipv6_prefix" [v_avp (AVP t v)] w
  = v_result v_avp_error v_bytes (avp_encode_ipv6_prefix (AVP t v)) [v_avp (AVP t v)] w.
Proof. unfold avp_encode_ipv6_prefix; go. Qed.
Lemma run_encode_date f n t v w : (3 <= n)%nat ->
  run (C f) n "AVP" "encode_date" [v_avp (AVP t v)] w
  = v_result v_avp_error v_date (avp_encode_date (AVP t v)) [v_avp (AVP t v)] w.
Proof.
  destruct (N.eq_dec (len v) 4) as [E|E].
  - assert (Hu : exists x, u32_from_be (firstn (N.to_nat 4) v) = Some x /\ len (firstn (N.to_nat 4) v) = 4).
    { apply len4 in E; destruct E as (a & b & c & d & ->); eexists; split; reflexivity. }
    destruct Hu as (x & Hu & Hl). unfold avp_encode_date; go.
  - unfold avp_encode_date; go.
Qed.

End Code.
