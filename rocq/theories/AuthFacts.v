(** Proofs of the packet-level properties (round trips, authenticators). *)
From Coq Require Import String List NArith ZArith Bool Strings.Byte Lia.
From Verif Require Import Prelude PreludeFacts Md5 Tag Code Avp Attributes Packet Spec CodecFacts.
Import ListNotations.
Local Open Scope N_scope.

(** ** octets of a buffer *)
Lemma octets_app a b c i j : N.of_nat i = len a -> N.of_nat j = len a + len b ->
  octets (a ++ b ++ c) i j = b.
Proof.
  intros Hi Hj. unfold octets.
  replace i with (N.to_nat (len a)) at 2 by lia. rewrite skipn_len_app by reflexivity.
  replace (j - i)%nat with (N.to_nat (len b)) by lia. apply firstn_len_app. reflexivity.
Qed.
Lemma octets_header hdr auth rest : len hdr = 4 -> len auth = 16 ->
  octets (hdr ++ auth ++ rest) 0 4 = hdr
  /\ octets (hdr ++ auth ++ rest) 4 20 = auth
  /\ skipn 20 (hdr ++ auth ++ rest) = rest.
Proof.
  intros Hh Ha. repeat split.
  - change (hdr ++ auth ++ rest) with ([] ++ hdr ++ auth ++ rest). apply octets_app; autorewrite with len; lia.
  - apply octets_app; lia.
  - rewrite app_assoc. change 20%nat with (N.to_nat 20). apply skipn_len_app. autorewrite with len. lia.
Qed.

(** ** is_authentic_response *)
Lemma header_split {A} (bs : list A) : 20 <= len bs ->
  exists hdr auth rest, bs = hdr ++ auth ++ rest /\ len hdr = 4 /\ len auth = 16.
Proof.
  intros H. destruct (header_shape bs H) as (c & id & l1 & l2 & auth & rest & -> & Ha).
  exists [c; id; l1; l2], auth, rest. auto.
Qed.

Lemma is_authentic_response_eq h a r h' a' r' secret :
  len h = 4 -> len a = 16 -> len h' = 4 -> len a' = 16 -> secret <> [] ->
  packet_is_authentic_response (h ++ a ++ r) (h' ++ a' ++ r') secret
  = Ok (bytes_eqb (md5 (h ++ a' ++ r ++ secret)) a).
Proof.
  intros Hh Ha Hh' Ha' Hs. unfold packet_is_authentic_response, RADIUS_PACKET_HEADER_LENGTH.
  assert (S : len secret <> 0) by (rewrite len_zero; exact Hs).
  replace ((len (h ++ a ++ r) <? 20) || (len (h' ++ a' ++ r') <? 20) || (len secret =? 0))
    with false by (autorewrite with len; lia).
  rewrite (slice_to_app h (a ++ r) 4) by lia. cbn [bind].
  rewrite (slice_app h' a' r' 4 20) by lia. cbn [bind].
  replace (slice_from (h ++ a ++ r) 20) with (@Ok unit bytes r)
    by (symmetry; rewrite app_assoc; apply slice_from_app; autorewrite with len; lia).
  cbn [bind]. rewrite (slice_app h a r 4 20) by lia. reflexivity.
Qed.

Lemma is_authentic_response_false response request secret :
  len response < 20 \/ len request < 20 \/ secret = [] ->
  packet_is_authentic_response response request secret = Ok false.
Proof.
  intros H. unfold packet_is_authentic_response, RADIUS_PACKET_HEADER_LENGTH.
  destruct H as [H|[H|H]].
  - replace (len response <? 20) with true by lia. reflexivity.
  - replace (len request <? 20) with true by lia. rewrite orb_true_r. reflexivity.
  - subst. rewrite orb_true_r. reflexivity.
Qed.

Lemma bytes_decide (P : bytes) : {P = []} + {P <> []}.
Proof. destruct P; [left|right]; congruence. Qed.

Lemma is_authentic_response_total response request secret :
  exists b, packet_is_authentic_response response request secret = Ok b
            /\ (b = true <-> response_authentic response request secret).
Proof.
  destruct (N.lt_ge_cases (len response) 20) as [H1|H1];
    [|destruct (N.lt_ge_cases (len request) 20) as [H2|H2];
      [|destruct (bytes_decide secret) as [H3|H3]]].
  1-3: exists false; split; [apply is_authentic_response_false; auto|];
       split; [discriminate|]; intros (A & B & C & _); try lia; congruence.
  destruct (header_split _ H1) as (h & a & r & -> & Hh & Ha).
  destruct (header_split _ H2) as (h' & a' & r' & -> & Hh' & Ha').
  eexists. split; [apply is_authentic_response_eq; assumption|].
  rewrite bytes_eqb_eq. unfold response_authentic, response_hash_input.
  destruct (octets_header h a r Hh Ha) as (-> & -> & ->).
  destruct (octets_header h' a' r' Hh' Ha') as (_ & -> & _).
  split; [intros <-|intros (_ & _ & _ & ->)]; auto.
Qed.

Lemma is_authentic_response_iff response request secret :
  packet_is_authentic_response response request secret = Ok true
  <-> response_authentic response request secret.
Proof.
  destruct (is_authentic_response_total response request secret) as (b & -> & <-).
  split; congruence.
Qed.

(** ** is_authentic_request *)
Lemma code_from_iff o c : c <> Invalid -> (code_from o = c <-> b2n o = code_number c).
Proof.
  intros Hc. rewrite <- reported_code_from. unfold reported_code. split; [intros [H|[H _]]|]; auto.
  congruence.
Qed.

Lemma is_authentic_request_eq c t a r secret :
  len t = 3 -> len a = 16 -> secret <> [] ->
  packet_is_authentic_request ((c :: t) ++ a ++ r) secret
  = match code_from c with
    | AccessRequest | StatusServer => Ok true
    | AccountingRequest | DisconnectRequest | CoARequest =>
        Ok (bytes_eqb (md5 ((c :: t) ++ zeros 16 ++ r ++ secret)) a)
    | _ => Ok false
    end.
Proof.
  intros Ht Ha Hs. unfold packet_is_authentic_request, RADIUS_PACKET_HEADER_LENGTH.
  assert (S : len secret <> 0) by (rewrite len_zero; exact Hs).
  assert (Hh : len (c :: t) = 4) by (autorewrite with len; lia).
  replace ((len ((c :: t) ++ a ++ r) <? 20) || (len secret =? 0))
    with false by (autorewrite with len; lia).
  change (index ((c :: t) ++ a ++ r) 0) with (@Ok unit byte c). cbn [bind].
  rewrite (slice_to_app (c :: t) (a ++ r) 4) by lia. cbn [bind].
  replace (slice_from ((c :: t) ++ a ++ r) 20) with (@Ok unit bytes r)
    by (symmetry; rewrite app_assoc; apply slice_from_app; autorewrite with len; lia).
  cbn [bind]. rewrite (slice_app (c :: t) a r 4 20) by lia. reflexivity.
Qed.

Lemma is_authentic_request_false request secret :
  len request < 20 \/ secret = [] -> packet_is_authentic_request request secret = Ok false.
Proof.
  intros H. unfold packet_is_authentic_request, RADIUS_PACKET_HEADER_LENGTH. destruct H as [H|H].
  - replace (len request <? 20) with true by lia. reflexivity.
  - subst. rewrite orb_true_r. reflexivity.
Qed.

Lemma is_authentic_request_total request secret :
  exists b, packet_is_authentic_request request secret = Ok b
            /\ (b = true <-> request_authentic request secret).
Proof.
  destruct (N.lt_ge_cases (len request) 20) as [H1|H1]; [|destruct (bytes_decide secret) as [H3|H3]].
  1-2: exists false; split; [apply is_authentic_request_false; auto|];
       split; [discriminate|]; intros (A & C & _); try lia; congruence.
  destruct (header_shape _ H1) as (c & id & l1 & l2 & a & r & -> & Ha).
  assert (Ht : len [id; l1; l2] = 3) by reflexivity.
  pose proof (is_authentic_request_eq c [id; l1; l2] a r secret Ht Ha H3) as E.
  change ((c :: [id; l1; l2]) ++ a ++ r) with ([c; id; l1; l2] ++ a ++ r) in E. rewrite E.
  assert (Hh : len [c; id; l1; l2] = 4) by reflexivity.
  unfold request_authentic, request_hash_input.
  destruct (octets_header [c; id; l1; l2] a r Hh Ha) as (-> & -> & ->).
  assert (K : forall k, b2n c = k -> code_from c = code_from (n2b k)).
  { intros k <-. rewrite n2b_b2n. reflexivity. }
  assert (D : forall P : Prop,
    (exists c0 rest, [c; id; l1; l2] ++ a ++ r = c0 :: rest
       /\ (b2n c0 = 1 \/ b2n c0 = 12 \/ (b2n c0 = 4 \/ b2n c0 = 40 \/ b2n c0 = 43) /\ P))
    <-> (b2n c = 1 \/ b2n c = 12 \/ (b2n c = 4 \/ b2n c = 40 \/ b2n c = 43) /\ P)).
  { intros P. split; [intros (c0 & rest & X & Y)|intros Y].
    - simpl in X. injection X as <- _. exact Y.
    - simpl. eauto. }
  setoid_rewrite D.
  pose proof (code_from_iff c AccessRequest) as I1. pose proof (code_from_iff c StatusServer) as I2.
  pose proof (code_from_iff c AccountingRequest) as I3.
  pose proof (code_from_iff c DisconnectRequest) as I4.
  pose proof (code_from_iff c CoARequest) as I5.
  specialize (I1 ltac:(discriminate)). specialize (I2 ltac:(discriminate)).
  specialize (I3 ltac:(discriminate)). specialize (I4 ltac:(discriminate)).
  specialize (I5 ltac:(discriminate)). simpl code_number in *.
  setoid_rewrite <- I1. setoid_rewrite <- I2. setoid_rewrite <- I3. setoid_rewrite <- I4.
  setoid_rewrite <- I5. clear I1 I2 I3 I4 I5 D K E.
  destruct (code_from c); eexists; (split; [reflexivity|]); rewrite ?bytes_eqb_eq;
    unfold zeros in *; intuition congruence.
Qed.

Lemma is_authentic_request_iff request secret :
  packet_is_authentic_request request secret = Ok true <-> request_authentic request secret.
Proof.
  destruct (is_authentic_request_total request secret) as (b & -> & <-). split; congruence.
Qed.
