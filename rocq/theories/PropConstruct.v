(** * C57: constructing packets and reading them back through the getters *)
From Coq Require Import String List NArith ZArith Bool Arith Strings.Byte Lia ZifyBool ZifyNat ZifyN.
From Verif Require Import Prelude Md5 Tag Code Avp Attributes Packet PreludeFacts Spec CodecFacts AuthFacts RoundTrip Samples
  PropPacket AvpSpec AccessorSpec AccessorFacts PropAccessors.
Import ListNotations.
Local Open Scope N_scope.
Local Open Scope list_scope.

(** What the getters and lookups tell about a packet. *)
Record shows (p : packet) (c : code) (id : byte) (auth secret : bytes) (found : byte -> list avp) : Prop := {
  sh_code : packet_get_code p = c;
  sh_identifier : packet_get_identifier p = id;
  sh_authenticator : packet_get_authenticator p = auth;
  sh_secret : packet_get_secret p = secret;
  sh_attributes : forall t, packet_lookup_all p t = found t }.

(** A new packet: the given code, secret and identifier, no attributes, and as authenticator 16
    octets that are drawn one by one from the generator. *)
Theorem C57_new_with_identifier : forall rng c secret id, exists auth,
  shows (packet_new_with_identifier rng c secret id) c id auth secret (fun _ => [])
  /\ len auth = 16 /\ forall i, (i < 16)%nat -> nth_error auth i = Some (rng i).
Proof.
  intros rng c secret id. exists (map rng (seq 0 16)). split; [split; reflexivity|].
  split; [unfold len; rewrite map_length, seq_length; reflexivity|].
  intros i H. rewrite nth_error_map. rewrite (nth_error_nth' _ 0%nat) by (rewrite seq_length; exact H).
  rewrite seq_nth by exact H. reflexivity.
Qed.
(** Without an identifier: that too is a draw, after the others. *)
Theorem C57_new : forall rng c secret, exists auth,
  shows (packet_new rng c secret) c (rng 16%nat) auth secret (fun _ => [])
  /\ len auth = 16 /\ forall i, (i < 16)%nat -> nth_error auth i = Some (rng i).
Proof.
  intros rng c secret. exact (C57_new_with_identifier rng c secret (rng 16%nat)).
Qed.
(** No randomness is lost: two packets have the same authenticator only if all draws agree. *)
Theorem C57_authenticators_distinct : forall rng rng' c c' secret secret',
  packet_get_authenticator (packet_new rng c secret) = packet_get_authenticator (packet_new rng' c' secret')
  <-> forall i, (i < 16)%nat -> rng i = rng' i.
Proof.
  intros rng rng' c c' secret secret'. split.
  - intros E i H. destruct (C57_new rng c secret) as (a & [_ _ <- _ _] & _ & A).
    destruct (C57_new rng' c' secret') as (a' & [_ _ <- _ _] & _ & A').
    specialize (A i H). specialize (A' i H). rewrite E, A' in A. injection A as A. symmetry. exact A.
  - intros H. apply (map_ext_in rng rng' (seq 0 16)). intros i I. apply H. apply in_seq in I. lia.
Qed.
(** A reply: the given code, no attributes, the rest is that of the request. *)
Theorem C57_response : forall p c id auth secret found,
  shows p (packet_get_code p) id auth secret found ->
  shows (packet_make_response_packet p c) c id auth secret (fun _ => []).
Proof. intros p c id auth secret found [_ <- <- <- _]. split; reflexivity. Qed.
(** [set_identifier] changes the identifier only. *)
Theorem C57_set_identifier : forall p c id auth secret found new_id,
  shows p c id auth secret found ->
  shows (packet_set_identifier p new_id) c new_id auth secret found.
Proof. intros p c id auth secret found new_id [<- <- <- <- F]. split; try reflexivity. exact F. Qed.
(** [add], [extend] and [delete] change the attributes only, and [lookup_all] shows how. *)
Theorem C57_attributes : forall p c id auth secret found a l t,
  shows p c id auth secret found ->
  shows (packet_add p a) c id auth secret
    (fun t => found t ++ if Byte.eqb (avp_typ a) t then [a] else [])
  /\ shows (packet_extend p l) c id auth secret
    (fun t => found t ++ filter (fun a => Byte.eqb (avp_typ a) t) l)
  /\ shows (packet_delete p t) c id auth secret
    (fun t' => if Byte.eqb t t' then [] else found t').
Proof.
  intros p c id auth secret found a l t [<- <- <- <- F]. split; [|split]; split; try reflexivity; intros t'.
  - rewrite lookup_all_add, F. reflexivity.
  - rewrite lookup_all_extend, F. reflexivity.
  - destruct (Byte.eqb t t') eqn:E.
    + apply byte_eqb_iff in E. subst t'. apply lookup_all_delete_same.
    + apply byte_eqb_neq in E. rewrite lookup_all_delete_other by exact E. apply F.
Qed.
(** A decoded packet shows what is in the datagram. *)
Theorem C57_decoded : forall bs secret p, packet_decode bs secret = Ok p ->
  exists octet id auth attrs c, wire_packet bs octet id auth attrs /\ reported_code octet c
    /\ shows p c id auth secret (fun t => filter (fun a => Byte.eqb (avp_typ a) t) attrs).
Proof.
  intros bs secret p D. apply C01_decode_ok_iff in D. destruct D as (<- & o & W & RC).
  do 5 eexists. split; [exact W|]. split; [exact RC|]. split; reflexivity.
Qed.
(** A new packet on the wire: the header, and nothing else. *)
Theorem C57_new_on_the_wire : forall pr rng c secret id, c = AccessRequest \/ c = StatusServer ->
  packet_encode pr (packet_new_with_identifier rng c secret id)
  = Ok ([code_to_u8 c; id; x00; x14] ++ map rng (seq 0 16)).
Proof. intros pr rng c secret id [-> | ->]; destruct pr; vm_compute; reflexivity. Qed.
Example C57_example :
  shows (packet_make_response_packet (packet_set_identifier sample_packet x07) AccessAccept)
    AccessAccept x07 sample_authenticator sample_secret (fun _ => [])
  /\ packet_lookup_all (packet_add (packet_delete sample_packet (n2b 1)) (AVP (n2b 4) [])) (n2b 4)
     = [AVP (n2b 4) (nb [192; 168; 1; 16]); AVP (n2b 4) []].
Proof. split; [split; reflexivity|vm_compute; reflexivity]. Qed.

(** * Assumptions *)
Print Assumptions C57_new_with_identifier.
Print Assumptions C57_new.
Print Assumptions C57_authenticators_distinct.
Print Assumptions C57_response.
Print Assumptions C57_set_identifier.
Print Assumptions C57_attributes.
Print Assumptions C57_decoded.
Print Assumptions C57_new_on_the_wire.
