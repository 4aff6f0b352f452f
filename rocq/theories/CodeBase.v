(** * The functions of tag.rs and code.rs and the constants of packet.rs, run *)
From Coq Require Import String List NArith ZArith Bool Arith Strings.Byte Lia ZifyBool ZifyNat ZifyN.
From Verif Require Import Prelude PreludeFacts Md5 Utf8 Utf8Facts Tag Code Avp AvpFacts Attributes Vsa Packet Rust RustEval CodeRun RustFacts CodeTactics.
Import ListNotations.
Local Open Scope string_scope.
Local Open Scope N_scope.
Local Open Scope list_scope.

Section Code.
Context (pr : profile) (rng : nat -> byte) (he : bytes -> option string)
        (ans : list event -> string -> list value -> option value).
Notation C f := (Cx pr (crate_program f) rng he ans).
(** ** tag.rs *)
Lemma run_UNUSED_TAG_VALUE f n w : (1 <= n)%nat ->
  run (C f) n "" "UNUSED_TAG_VALUE" [] w = RVal (vu8 UNUSED_TAG_VALUE) [] w.
Proof. go. Qed.
#[local] Hint Rewrite run_UNUSED_TAG_VALUE using lia : code.
Lemma run_tag_new f n v w : (1 <= n)%nat ->
  run (C f) n "Tag" "new" [vu8 v] w = RVal (v_tag (tag_new v)) [vu8 v] w.
Proof. go. Qed.
Lemma run_tag_new_unused f n w : (2 <= n)%nat ->
  run (C f) n "Tag" "new_unused" [] w = RVal (v_tag tag_new_unused) [] w.
Proof. go. Qed.
Lemma run_tag_get_value f n t w : (1 <= n)%nat ->
  run (C f) n "Tag" "get_value" [v_tag t] w = RVal (vu8 (tag_get_value t)) [v_tag t] w.
Proof. go. Qed.
Lemma run_tag_is_zero f n b w : (2 <= n)%nat ->
  run (C f) n "Tag" "is_zero" [v_tag (Tag b)] w = RVal (VBool (tag_is_zero (Tag b))) [v_tag (Tag b)] w.
Proof. go. Qed.
Lemma run_tag_is_valid_value f n b w : (1 <= n)%nat ->
  run (C f) n "Tag" "is_valid_value" [v_tag (Tag b)] w = RVal (VBool (tag_is_valid_value (Tag b))) [v_tag (Tag b)] w.
Proof. unfold tag_is_valid_value; go. Qed.
Definition raw_tag_is_zero := ltac:(raw run_tag_is_zero).
Definition raw_tag_is_valid_value := ltac:(raw run_tag_is_valid_value).
#[local] Hint Rewrite raw_tag_is_zero raw_tag_is_valid_value using lia : code.

(** ** code.rs *)
Lemma run_code_string f n c w : (1 <= n)%nat ->
  run (C f) n "Code" "string" [v_code c] w = RVal (v_text (code_string c)) [v_code c] w.
Proof. intros; destruct n as [|n]; [lia|]; destruct f, c; vm_compute; reflexivity. Qed.
Lemma variant_code b :
  variant_of (b2n b) [("AccessRequest", Some 1); ("AccessAccept", Some 2); ("AccessReject", Some 3);
    ("AccountingRequest", Some 4); ("AccountingResponse", Some 5); ("AccessChallenge", Some 11);
    ("StatusServer", Some 12); ("StatusClient", Some 13); ("DisconnectRequest", Some 40);
    ("DisconnectACK", Some 41); ("DisconnectNAK", Some 42); ("CoARequest", Some 43); ("CoAACK", Some 44);
    ("CoANAK", Some 45); ("Reserved", Some 255); ("Invalid", Some 0)]
  = option_map code_debug (code_try_from b).
Proof. destruct b; reflexivity. Qed.
#[local] Hint Rewrite variant_code : vals.
Lemma run_code_from f n b w : (1 <= n)%nat ->
  run (C f) n "Code" "from" [vu8 b] w = RVal (v_code (code_from b)) [vu8 b] w.
Proof. start; unfold code_from; steps; reflexivity. Qed.

Lemma discriminant_code f c : discriminant (crate_program f) "Code" (code_debug c) = Some (b2n (code_to_u8 c)).
Proof. destruct f, c; vm_compute; reflexivity. Qed.

(** ** packet.rs: constants *)
Lemma run_MAX_PACKET_LENGTH f n w : (1 <= n)%nat ->
  run (C f) n "" "MAX_PACKET_LENGTH" [] w = RVal (v_usize MAX_PACKET_LENGTH) [] w.
Proof. go. Qed.
Lemma run_RADIUS_PACKET_HEADER_LENGTH f n w : (1 <= n)%nat ->
  run (C f) n "" "RADIUS_PACKET_HEADER_LENGTH" [] w = RVal (v_usize RADIUS_PACKET_HEADER_LENGTH) [] w.
Proof. go. Qed.
Definition raw_code_from := ltac:(raw run_code_from).
End Code.
#[global] Hint Rewrite run_UNUSED_TAG_VALUE raw_tag_is_zero raw_tag_is_valid_value run_MAX_PACKET_LENGTH
  run_RADIUS_PACKET_HEADER_LENGTH raw_code_from using lia : code.
#[global] Hint Rewrite variant_code discriminant_code : vals.
