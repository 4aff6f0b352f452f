(** * The test of RFC 2865, section 7.1, run with OpenSSL: core/packet.rs:466-525 *)
From Coq Require Import String List NArith ZArith Bool Arith Strings.Byte Strings.Ascii Lia ZifyBool ZifyNat ZifyN.
From Verif Require Import Prelude PreludeFacts Md5 Utf8 Utf8Facts Tag Code Avp AvpFacts Attributes Vsa Packet Addr Display Accessors Rfc Server Client
  Spec AvpSpec CodecFacts PropPacket PropAvp
  Rust RustEval RustModule RustLink CodeApp CodeExample CodeTests CodeVectors Sources SourceCore CodeRun CodeHash RustFacts CodeTactics CodeBase CodeAttributes CodePacket CodeNet CodeAccessors CodeModules PropModules.
Import ListNotations.
Local Open Scope string_scope.
Local Open Scope N_scope.
Local Open Scope list_scope.

(** core/packet.rs:466-525; OpenSSL does not fail *)
Lemma run_test_7_1_ssl pr rng ans n k tr : (201 <= n)%nat ->
  linked (Link (Cx pr (crate_program Openssl) rng (fun _ => None) ans) used_modules packet_tests []) n "" "test_for_rfc2865_7_1" [] (World k tr)
  = RVal (vok VUnit) [] (World k tr).
Proof.
  intros Hn.
  pose proof (fun m w => linked_lookup_user_password pr rng (fun _ => None) ans packet_tests [] Openssl m nemo_packet w eq_refl (fun _ _ => eq_refl)) as G.
  rewrite nemo_password in G. unfold looked, bare, v_out in G.
  let v := eval vm_compute in (v_packet nemo_packet) in change (v_packet nemo_packet) with v in G.
  revert pr G k; intros pr G; destruct pr; intro k; revert n Hn; intros n Hn.
  all: linked_start; (replace n with (200 + (n - 200))%nat by lia; generalize (n - 200)%nat as m; intro m; clear Hn n);
    repeat (app_step || known_call); reflexivity.
Qed.
