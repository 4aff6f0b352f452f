(** * Proofs about the attribute container and the accessors *)
From Coq Require Import String List NArith ZArith Bool Strings.Byte Lia ZifyBool ZifyNat ZifyN.
From Verif Require Import Prelude PreludeFacts Md5 Tag Avp Attributes Packet Vsa Accessors Rfc
  Spec AvpSpec AvpFacts PropAvp AccessorSpec.
Import ListNotations.
Local Open Scope N_scope.
Local Open Scope list_scope.

(** ** The modules' functions are the templates of their kinds *)
Definition same_option {A B} (f g : option (A -> B)) : Prop :=
  match f, g with
  | Some f, Some g => forall x, f x = g x
  | None, None => True
  | _, _ => False
  end.
Definition templated (e : entry) : Prop :=
  (forall p, e_delete e p = template_delete (e_type e) p)
  /\ (forall p v, e_add e p v = template_add (e_kind e) (e_type e) p v)
  /\ same_option (e_lookup e) (template_lookup (e_kind e) (e_type e))
  /\ same_option (e_lookup_all e) (template_lookup_all (e_kind e) (e_type e)).

Lemma bind_ret {E A} (r : res E A) : bind r (fun x => Ok x) = r.
Proof. destruct r; reflexivity. Qed.
Lemma bind_ret_pair {E A B} (r : res E (A * B)) : bind r (fun x => let (v, t) := x in Ok (v, t)) = r.
Proof. destruct r as [[]| | |]; reflexivity. Qed.
Lemma collect_loop_ext {A} (f g : avp -> res avp_error A) (H : forall a, f a = g a) l :
  forall acc, collect_loop f l acc = collect_loop g l acc.
Proof.
  induction l as [|a l IH]; intros acc; simpl; [reflexivity|]. rewrite H.
  destruct (g a); simpl; auto.
Qed.
Lemma collect_ext {A} (f g : avp -> res avp_error A) l :
  (forall a, f a = g a) -> collect f l = collect g l.
Proof. intros H. apply collect_loop_ext. exact H. Qed.
Lemma collect_ok_loop l : forall acc, collect_loop (fun a => Ok (avp_encode_bytes a)) l acc
  = Ok (collect_bytes_loop l acc).
Proof. induction l; intros acc; simpl; auto. Qed.
Lemma collect_ok l : Ok (collect_bytes l) = collect (fun a => Ok (avp_encode_bytes a)) l.
Proof. symmetry. apply collect_ok_loop. Qed.
Lemma option_map_ext {A B} (f g : A -> B) x : (forall a, f a = g a) -> option_map f x = option_map g x.
Proof. intros H. destruct x; simpl; congruence. Qed.
Lemma option_map_map {A B C} (f : A -> B) (g : B -> C) x :
  option_map g (option_map f x) = option_map (fun a => g (f a)) x.
Proof. destruct x; reflexivity. Qed.

Lemma fixed_add n s typ p v : (dec n ++ " bytes")%string = s ->
  (if negb (len v =? n) then (p, Err (InvalidAttributeLengthError s (len v)))
   else (packet_add p (avp_from_bytes typ v), Ok tt)) = template_add (KFixedOctets n) typ p v.
Proof. intros <-. cbn -[len dec]. destruct (len v =? n); reflexivity. Qed.

Lemma concat_lookup (l : list avp) :
  option_map (@Ok avp_error bytes) (if is_nil l then None
              else Some (fold_left (fun acc v => acc ++ avp_encode_bytes v) l []))
  = if is_nil l then None else Some (Ok (fold_left (fun acc v => acc ++ avp_encode_bytes v) l [])).
Proof. destruct (is_nil l); reflexivity. Qed.

Ltac templated_tac :=
  split; [reflexivity|split; [|split]];
  [ intros p v; first [reflexivity | destruct v as [? ?]; reflexivity
                      | destruct v as [[[? ?] ?] ?]; reflexivity
                      | refine (fixed_add _ _ _ _ _ _); vm_compute; reflexivity ]
  | cbn -[packet_lookup packet_lookup_all is_nil fold_left option_map bind];
    first [exact I | intros p;
      first [reflexivity | apply option_map_map
            | apply option_map_ext; intros a; apply bind_ret
            | apply option_map_ext; intros a; apply bind_ret_pair
            | exact (concat_lookup _) ] ]
  | cbn -[packet_lookup packet_lookup_all collect collect_bytes bind];
    first [exact I | intros p;
      first [reflexivity | apply collect_ok
            | apply collect_ext; intros a; apply bind_ret
            | apply collect_ext; intros a; apply bind_ret_pair ] ] ].

Lemma entries_templated : Forall templated entries.
Proof. unfold entries. repeat (apply Forall_cons; [templated_tac|]). apply Forall_nil. Qed.

(** ** The container *)
Lemma lookup_all_add p a t : packet_lookup_all (packet_add p a) t
  = packet_lookup_all p t ++ (if Byte.eqb (avp_typ a) t then [a] else []).
Proof.
  unfold packet_lookup_all, attributes_lookup_all, packet_add, attributes_add.
  cbn [p_attributes with_attributes]. rewrite filter_app. reflexivity.
Qed.
Lemma lookup_all_extend p l t : packet_lookup_all (packet_extend p l) t
  = packet_lookup_all p t ++ filter (fun a => Byte.eqb (avp_typ a) t) l.
Proof. apply filter_app. Qed.
Lemma byte_eqb_iff (x y : byte) : Byte.eqb x y = true <-> x = y.
Proof. split; [apply Byte.byte_dec_bl|apply Byte.byte_dec_lb]. Qed.
Lemma byte_eqb_neq (x y : byte) : Byte.eqb x y = false <-> x <> y.
Proof.
  split; intros H.
  - intros ->. rewrite (proj2 (byte_eqb_iff y y) eq_refl) in H. discriminate.
  - destruct (Byte.eqb x y) eqn:E; [|reflexivity]. apply byte_eqb_iff in E. contradiction.
Qed.
Lemma lookup_all_delete_same p t : packet_lookup_all (packet_delete p t) t = [].
Proof.
  unfold packet_lookup_all, attributes_lookup_all. cbn. unfold attributes_del.
  induction (p_attributes p) as [|a l IH]; [reflexivity|]. simpl.
  destruct (Byte.eqb (avp_typ a) t) eqn:E; simpl; [exact IH|]. rewrite E. exact IH.
Qed.
Lemma lookup_all_delete_other p t t' : t <> t' ->
  packet_lookup_all (packet_delete p t) t' = packet_lookup_all p t'.
Proof.
  intros H. unfold packet_lookup_all, attributes_lookup_all. cbn. unfold attributes_del.
  induction (p_attributes p) as [|a l IH]; [reflexivity|]. simpl.
  destruct (Byte.eqb (avp_typ a) t) eqn:E; simpl.
  - apply byte_eqb_iff in E. rewrite (proj2 (byte_eqb_neq _ _)) by congruence. exact IH.
  - destruct (Byte.eqb (avp_typ a) t'); congruence.
Qed.
Lemma lookup_hd p t : packet_lookup p t = hd_error (packet_lookup_all p t).
Proof.
  unfold packet_lookup, packet_lookup_all, attributes_lookup, attributes_lookup_all.
  induction (p_attributes p) as [|a l IH]; [reflexivity|]. simpl.
  destruct (Byte.eqb (avp_typ a) t); [reflexivity|exact IH].
Qed.
Lemma of_type_filter t l : of_type t l (filter (fun a => Byte.eqb (avp_typ a) t) l).
Proof.
  induction l as [|a l IH]; simpl; [constructor|]. destruct (Byte.eqb (avp_typ a) t) eqn:E.
  - apply byte_eqb_iff in E. constructor; assumption.
  - apply byte_eqb_neq in E. constructor; assumption.
Qed.
Lemma of_type_app t l1 l1' l2 l2' : of_type t l1 l1' -> of_type t l2 l2' -> of_type t (l1 ++ l2) (l1' ++ l2').
Proof. intros H1 H2. induction H1; simpl; [assumption|constructor; assumption|constructor; assumption]. Qed.
Lemma of_type_unique t l l1 l2 : of_type t l l1 -> of_type t l l2 -> l1 = l2.
Proof.
  intros H. revert l2. induction H; intros l2 H2; inversion H2; subst; try congruence; f_equal; auto.
Qed.
Lemma mutate_all_app p l1 l2 : mutate_all p (l1 ++ l2) = mutate_all (mutate_all p l1) l2.
Proof. apply fold_left_app. Qed.
Lemma mutate_no_delete t ms : ~ In (MDelete t) ms -> forall p,
  packet_lookup_all (mutate_all p ms) t
  = packet_lookup_all p t ++ filter (fun a => Byte.eqb (avp_typ a) t) (put ms).
Proof.
  induction ms as [|m ms IH]; intros N p; cbn [put flat_map].
  - rewrite app_nil_r. reflexivity.
  - cbn [mutate_all fold_left]. fold (mutate_all (mutate p m) ms).
    rewrite IH by (intros X; apply N; right; exact X). rewrite filter_app.
    destruct m; cbn [mutate].
    + rewrite lookup_all_add. cbn [filter]. rewrite <- app_assoc. reflexivity.
    + rewrite lookup_all_extend, <- app_assoc. reflexivity.
    + rewrite lookup_all_delete_other; [reflexivity|]. intros ->. apply N. left. reflexivity.
    + reflexivity.
Qed.

(** ** Reading loops *)
Lemma collect_loop_app {A} (f : avp -> res avp_error A) l1 l2 : forall acc,
  collect_loop f (l1 ++ l2) acc = bind (collect_loop f l1 acc) (fun acc => collect_loop f l2 acc).
Proof.
  induction l1 as [|a l1 IH]; intros acc; simpl; [reflexivity|].
  destruct (f a); simpl; auto.
Qed.
Lemma collect_snoc {A} (f : avp -> res avp_error A) l a :
  collect f (l ++ [a]) = bind (collect f l) (fun ws => bind (f a) (fun w => Ok (ws ++ [w]))).
Proof. unfold collect. rewrite collect_loop_app. reflexivity. Qed.
Lemma collect_loop_acc {A} (f : avp -> res avp_error A) l : forall acc,
  collect_loop f l acc = bind (collect_loop f l []) (fun ws => Ok (acc ++ ws)).
Proof.
  induction l as [|a l IH]; intros acc; simpl; [rewrite app_nil_r; reflexivity|].
  destruct (f a) as [w| | |]; simpl; try reflexivity.
  rewrite IH, (IH [w]). destruct (collect_loop f l []); simpl; try reflexivity.
  rewrite <- app_assoc. reflexivity.
Qed.
Lemma collect_cons {A} (f : avp -> res avp_error A) a l :
  collect f (a :: l) = bind (f a) (fun w => bind (collect f l) (fun ws => Ok (w :: ws))).
Proof.
  unfold collect. simpl. destruct (f a) as [w| | |]; simpl; try reflexivity.
  rewrite collect_loop_acc. reflexivity.
Qed.

(** ** One kind *)
Lemma kind_value_header k p q a : same_header p q -> kind_value k p a = kind_value k q a.
Proof.
  intros (_ & _ & HA & HS). unfold kind_value, packet_get_secret, packet_get_authenticator.
  destruct k; try reflexivity; rewrite HA, HS; reflexivity.
Qed.

Lemma carried k typ p v w : carries k p v w -> exists a,
  template_add k typ p v = (packet_add p a, Ok tt) /\ avp_typ a = typ /\ kind_value k p a = Ok w.
Proof.
  destruct k; cbn [carries template_add kind_avp kind_value];
    unfold packet_get_secret, packet_get_authenticator.
  - intros [S ->]. eexists. split; [reflexivity|]. split; [reflexivity|]. apply C16_string_roundtrip. exact S.
  - destruct v as [t v]. intros [S H]. eexists. split; [reflexivity|]. destruct t as [t|].
    + destruct H as [H ->]. split; [reflexivity|]. apply C18_tagged_string_roundtrip; assumption.
    + destruct H as [H ->]. split; [reflexivity|]. apply C18_untagged_string; assumption.
  - intros (L & Z & S & A & ->).
    destruct (C23_user_password_roundtrip_partial typ v (p_secret p) (p_authenticator p)) as (a & E & D); auto.
    exists a. rewrite E. split; [reflexivity|]. split; [|exact D].
    destruct (C22_user_password_hiding typ v (p_secret p) (p_authenticator p)) as (a' & _ & _ & E' & T & _); auto.
    congruence.
  - destruct v as [[[r0 r1] t] v]. intros (L & Z & S & A & ->).
    destruct (C24_tunnel_password_roundtrip_partial r0 r1 typ t v (p_secret p) (p_authenticator p)) as (a & E & D); auto.
    exists a. rewrite E. split; [reflexivity|]. split; [|exact D].
    destruct (C24_tunnel_password_layout r0 r1 typ t v (p_secret p) (p_authenticator p))
      as (a' & _ & _ & _ & _ & E' & T & _); auto.
    congruence.
  - intros ->. eexists. split; [reflexivity|]. split; reflexivity.
  - intros [L ->]. cbn [kin] in v. rewrite L, N.eqb_refl. eexists. split; [reflexivity|]. split; reflexivity.
  - intros [].
  - intros ->. eexists. split; [reflexivity|]. split; [reflexivity|]. apply C19_ipv4_roundtrip.
  - intros [L ->]. destruct (C20_ipv4_prefix_roundtrip typ v) as [(_ & a & E & D)|[X _]]; [|contradiction].
    exists a. rewrite E. split; [reflexivity|]. split; [|exact D].
    destruct (from_ipv4_prefix typ v) as [[_ E']|[X _]]; [|contradiction].
    rewrite E' in E. injection E as <-. reflexivity.
  - intros ->. eexists. split; [reflexivity|]. split; [reflexivity|]. apply C19_ipv6_roundtrip.
  - intros [L ->]. destruct (C20_ipv6_prefix_roundtrip typ v) as [(_ & a & E & _ & D)|[X _]]; [|cbn [kin] in v; lia].
    exists a. rewrite E. split; [reflexivity|]. split; [|exact D].
    destruct (from_ipv6_prefix typ v) as [[_ E']|[X _]]; [|cbn [kin] in v; lia].
    rewrite E' in E. injection E as <-. reflexivity.
  - intros [B ->]. eexists. split; [reflexivity|]. split; [reflexivity|]. apply C21_date_roundtrip. exact B.
  - intros [B ->]. eexists. split; [reflexivity|]. split; [reflexivity|]. apply C15_u32_roundtrip. exact B.
  - destruct v as [t v]. intros (B & T & ->). eexists. split; [reflexivity|]. split; [reflexivity|].
    apply C17_tagged_u32_roundtrip; assumption.
  - intros [B ->]. eexists. split; [reflexivity|]. split; [reflexivity|]. apply C15_u32_roundtrip. exact B.
  - destruct v as [t v]. intros (B & T & ->). eexists. split; [reflexivity|]. split; [reflexivity|].
    apply C17_tagged_u32_roundtrip; assumption.
  - intros [B ->]. eexists. split; [reflexivity|]. split; [reflexivity|]. apply C15_u16_roundtrip. exact B.
  - intros [].
Qed.

(** what [add_x] does for any arguments *)
Lemma template_add_cases k typ p v : k <> KConcatOctets ->
  (acceptable k p v /\ exists a, template_add k typ p v = (packet_add p a, Ok tt) /\ avp_typ a = typ)
  \/ (~ acceptable k p v /\ exists e, template_add k typ p v = (p, Err e)).
Proof.
  intros NC. destruct k; cbn [acceptable template_add kind_avp]; try contradiction;
    try (left; split; [exact I|eexists; split; reflexivity]);
    try (destruct v as [t v]; left; split; [exact I|eexists; split; [reflexivity|destruct t; reflexivity]]);
    unfold packet_get_secret, packet_get_authenticator.
  - destruct (from_user_password_cases typ v (p_secret p) (p_authenticator p))
      as [(L & E)|[(L & S & E)|[(L & S & A & E)|(L & S & A & E)]]]; rewrite E; cbn [kin] in v.
    + right. split; [lia|eexists; reflexivity].
    + right. split; [tauto|eexists; reflexivity].
    + right. split; [tauto|eexists; reflexivity].
    + left. split; [tauto|]. eexists. split; reflexivity.
  - destruct v as [[[r0 r1] t] v].
    destruct (from_tunnel_password_cases r0 r1 typ t v (p_secret p) (p_authenticator p))
      as [(A & e & E)|[(A & S & E)|(A & S & E)]]; cbv zeta in E; rewrite E.
    + right. split; [tauto|eexists; reflexivity].
    + right. split; [tauto|eexists; reflexivity].
    + left. split; [tauto|]. eexists. split; reflexivity.
  - cbn [kin] in v. destruct (len v =? n) eqn:E; cbn [negb try_add].
    + left. split; [lia|]. eexists. split; reflexivity.
    + right. split; [lia|]. eexists. reflexivity.
  - cbn [kin] in v. destruct (from_ipv4_prefix typ v) as [[L E]|[L E]]; rewrite E.
    + left. split; [exact L|]. eexists. split; reflexivity.
    + right. split; [exact L|]. eexists. reflexivity.
  - cbn [kin] in v. destruct (from_ipv6_prefix typ v) as [[L E]|[L E]]; rewrite E.
    + left. split; [exact L|]. eexists. split; reflexivity.
    + right. split; [lia|]. eexists. reflexivity.
Qed.
