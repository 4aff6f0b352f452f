(** * Final theorems about the keys of duplicate detection: C43 *)
From Coq Require Import String Ascii List NArith Bool Arith Strings.Byte.
From Verif Require Import Prelude PreludeFacts Avp Code Packet Addr Server Spec ServerSpec ServerFacts Samples
  AddrFacts PropServer.
Import ListNotations.
Local Open Scope N_scope.
Local Open Scope list_scope.

(** The same client socket: everything but the IPv6 flow label. *)
Definition same_endpoint (a b : socket_addr) : Prop :=
  match a, b with
  | SockV4 ip port, SockV4 ip' port' => ip = ip' /\ port = port'
  | SockV6 ip port _ scope, SockV6 ip' port' _ scope' => ip = ip' /\ port = port' /\ scope = scope'
  | _, _ => False
  end.

Lemma v4_starts_with_digit ip port : exists c rest,
  chars (socket_addr_to_string (SockV4 ip port)) = c :: rest /\ digit c.
Proof.
  cbn [socket_addr_to_string]. rewrite chars_app. destruct ip as [a b c d]. rewrite ipv4_chars.
  pose proof (dec_nonempty (b2n a)) as N. pose proof (dec_digits (b2n a)) as F.
  destruct (chars (dec (b2n a))) as [|x l]; [congruence|]. inversion F; subst.
  do 2 eexists. split; [reflexivity|assumption].
Qed.

Local Open Scope char_scope.
Lemma v6_chars ip port flow scope :
  chars (socket_addr_to_string (SockV6 ip port flow scope)) =
  "[" :: (chars (ipv6_display ip) ++ (if (scope =? 0)%N then [] else "%" :: chars (dec scope)))
      ++ "]" :: ":" :: chars (dec port).
Proof.
  cbn [socket_addr_to_string]. destruct (scope =? 0)%N; rewrite !chars_app.
  - rewrite app_nil_r. reflexivity.
  - rewrite <- app_assoc. reflexivity.
Qed.

Theorem C43_same_text_iff : forall a b,
  socket_addr_to_string a = socket_addr_to_string b <-> same_endpoint a b.
Proof.
  intros a b. split; intros E.
  - apply (f_equal chars) in E. destruct a as [ip port|ip port fl sc], b as [ip' port'|ip' port' fl' sc'].
    + cbn [socket_addr_to_string] in E. rewrite !chars_app in E.
      assert (NC : ~ digit ":") by not_digit.
      change (chars ":") with [":"] in E. cbn [app] in E.
      apply split_unique in E as [E1 E2]; try (apply ipv4_free; [exact NC|discriminate]).
      apply ipv4_inj in E1. apply chars_dec_inj in E2. split; assumption.
    + exfalso. destruct (v4_starts_with_digit ip port) as (c & rest & X & D). rewrite X, v6_chars in E.
      injection E as -> _. revert D. not_digit.
    + exfalso. destruct (v4_starts_with_digit ip' port') as (c & rest & X & D). rewrite X, v6_chars in E.
      injection E as <- _. revert D. not_digit.
    + rewrite !v6_chars in E. injection E as E.
      assert (F6 : forall c ip, ~ hexdigit c -> c <> ":" -> c <> "." -> free c (chars (ipv6_display ip)))
        by (intros; apply ipv6_free; assumption).
      assert (FB : forall ip sc, free "]" (chars (ipv6_display ip) ++ (if (sc =? 0)%N then [] else "%" :: chars (dec sc)))).
      { intros i s. apply free_app. split; [apply F6; [not_digit|discriminate|discriminate]|].
        destruct (s =? 0)%N; [intros []|]. apply free_cons. split; [discriminate|]. apply dec_free. not_digit. }
      apply split_unique in E as [E1 E2]; try apply FB. injection E2 as E2. apply chars_dec_inj in E2.
      assert (FP : forall ip, free "%" (chars (ipv6_display ip))) by (intros i; apply F6; [not_digit|discriminate|discriminate]).
      assert (X : ip = ip' /\ sc = sc').
      { destruct (sc =? 0)%N eqn:Z, (sc' =? 0)%N eqn:Z'; rewrite ?app_nil_r in E1.
        - apply ipv6_inj in E1. apply N.eqb_eq in Z, Z'. split; congruence.
        - exfalso. symmetry in E1. exact (split_none _ _ _ _ (FP _) E1).
        - exfalso. exact (split_none _ _ _ _ (FP _) E1).
        - apply split_unique in E1 as [E1 E3]; try apply FP. apply ipv6_inj in E1. apply chars_dec_inj in E3. auto. }
      destruct X. cbn [same_endpoint]. auto.
  - destruct a as [ip port|ip port fl sc], b as [ip' port'|ip' port' fl' sc']; cbn [same_endpoint] in E; try contradiction.
    + destruct E as [-> ->]. reflexivity.
    + destruct E as (-> & -> & ->). reflexivity.
Qed.

(** Two requests are the same to the server exactly if they come from the same client socket and
    have the same identifier. *)
Theorem C43_same_key_iff : forall a b, same_key a b <->
  same_endpoint (rq_remote_addr a) (rq_remote_addr b)
  /\ p_identifier (rq_packet a) = p_identifier (rq_packet b).
Proof. intros a b. unfold same_key. rewrite C43_same_text_iff. reflexivity. Qed.

(** So a request is only ever dropped as a duplicate of a request of the same client socket with
    the same identifier. *)
Theorem C43_duplicates_are_duplicates : forall ops s tid newer older,
  reachable ops s -> sv_log s = newer ++ EEnded tid DuplicateRequest :: older ->
  exists d local remote skip n secret p tid' r',
    taken ops tid d local remote skip n /\ packet_decode (truncated n d) secret = Ok p
    /\ tid' <> tid /\ In (EInvoked tid' r') older
    /\ same_endpoint (rq_remote_addr r') remote
    /\ p_identifier (rq_packet r') = p_identifier p.
Proof.
  intros ops s tid newer older R L.
  destruct (C39_duplicate_only_if_busy _ _ _ _ _ R L)
    as (d & l & r & k & n & secret & p & t' & T & (_ & D & _) & NE & (r' & I & K1 & K2 & _)).
  exists d, l, r, k, n, secret, p, t', r'. split; [exact T|]. split; [exact D|]. split; [exact NE|].
  split; [exact I|]. split; [apply C43_same_text_iff, K1|exact K2].
Qed.

Example C43_example_text :
  socket_addr_to_string client_a = "192.168.1.16:1645"%string
  /\ socket_addr_to_string (SockV6 (Ipv6 x20 x01 x0d xb8 x00 x00 x00 x00 x00 x01 x00 x00 x00 x00 x00 x01) 1812 0 0)
     = "[2001:db8::1:0:0:1]:1812"%string
  /\ socket_addr_to_string (SockV6 (Ipv6 xfe x80 x00 x00 x00 x00 x00 x00 x00 x00 x00 x00 x00 x00 x00 x01) 1812 0 3)
     = "[fe80::1%3]:1812"%string
  /\ socket_addr_to_string (SockV6 (Ipv6 x00 x00 x00 x00 x00 x00 x00 x00 x00 x00 xff xff xc0 x00 x02 x80) 1812 7 0)
     = "[::ffff:192.0.2.128]:1812"%string.
Proof. repeat split; vm_compute; reflexivity. Qed.
Example C43_example_different : ~ same_endpoint client_a client_b /\
  socket_addr_to_string client_a <> socket_addr_to_string client_b.
Proof. split; [intros [H _]; discriminate|intros H; vm_compute in H; discriminate]. Qed.

(** * Assumptions *)
Print Assumptions C43_same_text_iff.
Print Assumptions C43_same_key_iff.
Print Assumptions C43_duplicates_are_duplicates.
