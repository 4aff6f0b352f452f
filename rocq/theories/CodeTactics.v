(** * Tactics for running the functions of the crate *)
From Coq Require Import String List NArith ZArith Bool Arith Strings.Byte Lia ZifyBool ZifyNat ZifyN.
From Verif Require Import Prelude PreludeFacts Md5 Utf8 Utf8Facts Tag Code Avp AvpFacts Attributes Vsa Packet Rust RustEval CodeRun RustFacts.
Import ListNotations.
Local Open Scope string_scope.
Local Open Scope N_scope.
Local Open Scope list_scope.

Ltac start :=
  intros; unfold v_code, v_tag, v_avp, v_packet, v_string_vsa, v_tagged_string_vsa;
  cbn [code_debug tag_value avp_typ avp_value Packet.p_code Packet.p_identifier Packet.p_authenticator Packet.p_secret Packet.p_attributes];
  unfold bind, map_err, index, slice, slice_from, slice_to, splice, uadd, utc_timestamp_unwrap, string_from_utf8;
  match goal with |- run _ ?n _ _ _ _ = _ => destruct n as [|n]; [lia|] end;
  try match goal with f : feature |- _ => destruct f end.
Ltac fin :=
  unfold string_vsa_new, tagged_string_vsa_new, string_vsa_len, tagged_string_vsa_len, string_vsa_message, tagged_string_vsa_message;
  cbn [sv_vendor_id sv_vendor_type sv_length sv_value tv_vendor_id tv_vendor_type tv_length tv_tag tv_value
    tag_value avp_typ avp_value fst snd negb andb orb];
  unfold vu8, v_usize, v_u32, v_u16, v_str, v_bytes; cbn [v_result v_option];
  rewrite ?b2n_n2b, ?n2b_mod, ?n2b_b2n, ?b2n_mod64, <- ?app_assoc, ?app_nil_r; reflexivity.
(** a lemma about a call in the form calls have during evaluation *)
Ltac raw H :=
  let T := type of H in
  let T' := eval cbv beta iota delta [v_tag v_avp v_avps v_attributes v_packet v_code v_bytes v_str v_u32 v_u16 v_usize v_string_vsa
    v_tagged_string_vsa vu8 tag_value vsome vnone vok verr] in T in
  exact (H : T').
Ltac no_utf8_panic :=
  match goal with
  | D : from_utf8 ?v = _ |- _ =>
      exfalso; destruct (from_utf8_total v) as [[? X]|[? [? X]]]; congruence
  end.
Ltac go := start; steps; try reflexivity; try fin; try no_utf8_panic.

(** loops over attributes *)
Lemma avp_values_app a b : avp_values (a ++ b) = avp_values a ++ avp_values b.
Proof. apply map_app. Qed.
Lemma avp_values_cons a l : avp_values (a :: l) = v_avp a :: avp_values l.
Proof. reflexivity. Qed.
Lemma filter_avps p f l s :
  (forall a, f (v_avp a) s = Norm (VBool (p a)) s) ->
  filter_loop f (avp_values l) s = Norm (VList (avp_values (filter p l))) s.
Proof. apply filter_loop_map. Qed.
Lemma find_avps p f l s :
  (forall a, f (v_avp a) s = Norm (VBool (p a)) s) ->
  find_loop f (avp_values l) s = Norm (match find p l with Some a => vsome (v_avp a) | None => vnone end) s.
Proof. apply find_loop_map. Qed.
Lemma b2n_eqb a b : (b2n a =? b2n b) = Byte.eqb a b.
Proof.
  destruct (Byte.eqb a b) eqn:E.
  - apply Byte.byte_dec_bl in E; subst. apply N.eqb_refl.
  - apply N.eqb_neq. intro H. apply b2n_inj in H. subst. now rewrite Byte.byte_dec_lb in E.
Qed.

(** cases on the right of the goal that are decided by what is known *)
Ltac rhs :=
  repeat match goal with |- _ = ?r => lazymatch r with context [match ?x with _ => _ end] => scrutinee x end end.
Ltac byte_bounds :=
  repeat match goal with
  | b : byte |- _ => lazymatch goal with H : b2n b < 256 |- _ => fail | _ => pose proof (b2n_lt b) end
  end.
(** the same, but stop at what is not decided *)
Ltac known x :=
  lazymatch x with
  | context [match ?y with _ => _ end] => known y
  | ?y =>
      first
        [ match goal with H : y = _ |- _ => rewrite H end
        | lazymatch type of y with
          | bool => first [ replace y with true by lia | replace y with false by lia ]
          end ]
  end.
Ltac rhs_known :=
  repeat (match goal with |- _ = ?r => lazymatch r with context [match ?x with _ => _ end] => known x end end; cbv beta iota).
