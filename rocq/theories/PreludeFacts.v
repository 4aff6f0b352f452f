(** Lemmas about [Prelude] and [Md5]. *)
From Coq Require Import String List NArith ZArith Bool Strings.Byte Lia Decimal DecimalString DecimalN.
From Coq Require Export ZifyBool ZifyNat ZifyN.
From Verif Require Import Prelude Md5.
Import ListNotations.
Local Open Scope N_scope.
Ltac Zify.zify_post_hook ::= Z.div_mod_to_equations.

#[global] Arguments N.add : simpl never.
#[global] Arguments N.mul : simpl never.
#[global] Arguments N.sub : simpl never.
#[global] Arguments N.modulo : simpl never.
#[global] Arguments N.div : simpl never.
#[global] Arguments N.ltb : simpl never.
#[global] Arguments N.leb : simpl never.
#[global] Arguments N.eqb : simpl never.
#[global] Arguments len : simpl never.

(** ** bytes *)
Definition all_bytes : list byte := map (fun i => n2b (N.of_nat i)) (seq 0 256).

Lemma b2n_lt b : b2n b < 256.
Proof. destruct b; vm_compute; reflexivity. Qed.

Lemma n2b_b2n b : n2b (b2n b) = b.
Proof. destruct b; reflexivity. Qed.

Lemma all_bytes_complete b : In b all_bytes.
Proof.
  apply in_map_iff. exists (N.to_nat (b2n b)). rewrite N2Nat.id. split; [apply n2b_b2n|].
  apply in_seq. pose proof (b2n_lt b). lia.
Qed.

Lemma forall_bytes (P : byte -> bool) : forallb P all_bytes = true -> forall b, P b = true.
Proof. intros H b. rewrite forallb_forall in H. apply H, all_bytes_complete. Qed.

Lemma b2n_n2b n : b2n (n2b n) = n mod 256.
Proof.
  unfold n2b, b2n. destruct (Byte.of_N (n mod 256)) eqn:E.
  - apply Byte.to_of_N in E. exact E.
  - apply Byte.of_N_None_iff in E. pose proof (N.mod_lt n 256). lia.
Qed.

Lemma b2n_n2b_small n : n < 256 -> b2n (n2b n) = n.
Proof. intros. rewrite b2n_n2b. apply N.mod_small; assumption. Qed.

Lemma b2n_inj a b : b2n a = b2n b -> a = b.
Proof. intros H. rewrite <- (n2b_b2n a), <- (n2b_b2n b), H. reflexivity. Qed.

Lemma byte_eqb_eq a b : Byte.eqb a b = true <-> a = b.
Proof. split; [apply Byte.byte_dec_bl | apply Byte.byte_dec_lb]. Qed.

Lemma byte_eqb_refl a : Byte.eqb a a = true.
Proof. apply byte_eqb_eq; reflexivity. Qed.

Lemma byte_eqb_neq a b : Byte.eqb a b = false <-> a <> b.
Proof.
  destruct (Byte.eqb a b) eqn:E; split; intros H; try congruence.
  - apply byte_eqb_eq in E. congruence.
  - intros ->. rewrite byte_eqb_refl in E. discriminate.
Qed.

Lemma byte_eq_dec (a b : byte) : {a = b} + {a <> b}.
Proof. destruct (Byte.eqb a b) eqn:E; [left|right]; [apply byte_eqb_eq|apply byte_eqb_neq]; exact E. Qed.

Lemma bytes_eqb_eq a b : bytes_eqb a b = true <-> a = b.
Proof.
  revert b; induction a as [|x a IH]; intros [|y b]; simpl; split; intros H; try congruence.
  - apply andb_true_iff in H as [H1 H2]. apply byte_eqb_eq in H1. apply IH in H2. congruence.
  - injection H as -> ->. rewrite byte_eqb_refl. simpl. apply IH. reflexivity.
Qed.

Lemma bytes_eqb_refl a : bytes_eqb a a = true.
Proof. apply bytes_eqb_eq; reflexivity. Qed.

Lemma bytes_eq_dec (a b : bytes) : {a = b} + {a <> b}.
Proof. apply list_eq_dec, byte_eq_dec. Qed.

(** ** len *)
Lemma len_nil {A} : len (@nil A) = 0. Proof. reflexivity. Qed.
Lemma len_cons {A} (x : A) l : len (x :: l) = 1 + len l.
Proof. unfold len. simpl List.length. lia. Qed.
Lemma len_app {A} (a b : list A) : len (a ++ b) = len a + len b.
Proof. unfold len. rewrite app_length. lia. Qed.
Lemma len_zero {A} (l : list A) : len l = 0 <-> l = [].
Proof. unfold len; destruct l; simpl; split; intros; try reflexivity; try discriminate; lia. Qed.
Lemma len_repeat {A} (x : A) n : len (repeat x n) = N.of_nat n.
Proof. unfold len. rewrite repeat_length. reflexivity. Qed.
Lemma len_map {A B} (f : A -> B) l : len (map f l) = len l.
Proof. unfold len. rewrite map_length. reflexivity. Qed.
#[export] Hint Rewrite @len_nil @len_cons @len_app @len_repeat @len_map : len.

(** ** slices *)
Lemma firstn_len_app {A} (a b : list A) n : n = len a -> firstn (N.to_nat n) (a ++ b) = a.
Proof.
  intros ->. unfold len. rewrite Nnat.Nat2N.id.
  rewrite firstn_app, firstn_all, Nat.sub_diag. simpl. apply app_nil_r.
Qed.
Lemma skipn_len_app {A} (a b : list A) n : n = len a -> skipn (N.to_nat n) (a ++ b) = b.
Proof.
  intros ->. unfold len. rewrite Nnat.Nat2N.id.
  rewrite skipn_app, skipn_all, Nat.sub_diag. reflexivity.
Qed.

Lemma index_app {E} a (x : byte) b i : i = len a -> @index E (a ++ x :: b) i = Ok x.
Proof.
  intros ->. unfold index, len. rewrite Nnat.Nat2N.id, nth_error_app2 by lia.
  rewrite Nat.sub_diag. reflexivity.
Qed.
Lemma slice_from_app {E} a b i : i = len a -> @slice_from E (a ++ b) i = Ok b.
Proof.
  intros H. unfold slice_from. rewrite skipn_len_app by exact H.
  rewrite len_app. destruct (i <=? len a + len b) eqn:L; [reflexivity|lia].
Qed.
Lemma slice_to_app {E} a b i : i = len a -> @slice_to E (a ++ b) i = Ok a.
Proof.
  intros H. unfold slice_to. rewrite firstn_len_app by exact H.
  rewrite len_app. destruct (i <=? len a + len b) eqn:L; [reflexivity|lia].
Qed.
Lemma slice_app {E} a b c i j : i = len a -> j = len a + len b -> @slice E (a ++ b ++ c) i j = Ok b.
Proof.
  intros Hi Hj. unfold slice. rewrite skipn_len_app by exact Hi.
  rewrite firstn_len_app by lia. rewrite !len_app.
  destruct ((i <=? j) && (j <=? len a + (len b + len c))) eqn:L; [reflexivity|lia].
Qed.
Lemma splice_app {E} a b c i j new :
  i = len a -> j = len a + len b -> @splice E (a ++ b ++ c) i j new = Ok (a ++ new ++ c).
Proof.
  intros Hi Hj. unfold splice. rewrite firstn_len_app by exact Hi.
  replace (skipn (N.to_nat j) (a ++ b ++ c)) with c.
  2:{ rewrite app_assoc. symmetry. apply skipn_len_app. rewrite len_app. exact Hj. }
  rewrite !len_app.
  destruct ((i <=? j) && (j <=? len a + (len b + len c))) eqn:L; [reflexivity|lia].
Qed.

(** splitting a list at a position *)
Lemma split_at {A} (l : list A) n : n <= len l -> exists a b, l = a ++ b /\ len a = n.
Proof.
  intros H. exists (firstn (N.to_nat n) l), (skipn (N.to_nat n) l). split.
  - symmetry. apply firstn_skipn.
  - unfold len in *. rewrite firstn_length. lia.
Qed.

Lemma len1 {A} (l : list A) : len l = 1 -> exists a, l = [a].
Proof. unfold len. destruct l as [|a [|]]; simpl; intros; try lia. eauto. Qed.
Lemma len2 {A} (l : list A) : len l = 2 -> exists a b, l = [a; b].
Proof. unfold len. destruct l as [|a [|b [|]]]; simpl; intros; try lia. eauto. Qed.
Lemma len4 {A} (l : list A) : len l = 4 -> exists a b c d, l = [a; b; c; d].
Proof. unfold len. destruct l as [|a [|b [|c [|d [|]]]]]; simpl; intros; try lia. eauto 10. Qed.

Lemma app_inj_len {A} (a b c d : list A) : len a = len c -> a ++ b = c ++ d -> a = c /\ b = d.
Proof.
  revert c. induction a as [|x a IH]; intros [|y c] L H; rewrite ?len_cons, ?len_nil in L; try lia.
  - simpl in H. auto.
  - simpl in H. injection H as -> H. destruct (IH c) as [-> ->]; auto; lia.
Qed.

(** ** machine integers *)
Lemma uadd_small {E} p m a b : a + b < m -> @uadd E p m a b = Ok (a + b).
Proof. intros H. unfold uadd. destruct (a + b <? m) eqn:L; [reflexivity|lia]. Qed.

Lemma len_u16_be n : len (u16_be n) = 2. Proof. reflexivity. Qed.
Lemma len_u32_be n : len (u32_be n) = 4. Proof. reflexivity. Qed.
#[export] Hint Rewrite len_u16_be len_u32_be : len.

Lemma u16_from_be_be n : n < 65536 -> u16_from_be (u16_be n) = Some n.
Proof. intros H. unfold u16_from_be, u16_be. rewrite !b2n_n2b. f_equal. lia. Qed.
Lemma u32_from_be_be n : n < 4294967296 -> u32_from_be (u32_be n) = Some n.
Proof. intros H. unfold u32_from_be, u32_be. rewrite !b2n_n2b. f_equal. lia. Qed.

Lemma u16_be_from_be a b : u16_be (b2n a * 256 + b2n b) = [a; b].
Proof.
  unfold u16_be. pose proof (b2n_lt a). pose proof (b2n_lt b).
  f_equal; [|f_equal]; apply b2n_inj; rewrite b2n_n2b; lia.
Qed.
Lemma u32_be_from_be a b c d :
  u32_be (((b2n a * 256 + b2n b) * 256 + b2n c) * 256 + b2n d) = [a; b; c; d].
Proof.
  unfold u32_be. pose proof (b2n_lt a). pose proof (b2n_lt b). pose proof (b2n_lt c). pose proof (b2n_lt d).
  repeat (f_equal; try (apply b2n_inj; rewrite b2n_n2b; lia)).
Qed.
Lemma u16_bound a b : b2n a * 256 + b2n b < 65536.
Proof. pose proof (b2n_lt a). pose proof (b2n_lt b). lia. Qed.
Lemma u32_bound a b c d : ((b2n a * 256 + b2n b) * 256 + b2n c) * 256 + b2n d < 4294967296.
Proof. pose proof (b2n_lt a). pose proof (b2n_lt b). pose proof (b2n_lt c). pose proof (b2n_lt d). lia. Qed.
Lemma u16_be_inj n m : n < 65536 -> m < 65536 -> u16_be n = u16_be m -> n = m.
Proof.
  intros Hn Hm H. apply u16_from_be_be in Hn. apply u16_from_be_be in Hm.
  rewrite H in Hn. congruence.
Qed.

(** ** xor *)
Lemma byte_xor_invol a b : byte_xor a (byte_xor a b) = b.
Proof.
  assert (H : forallb (fun a => forallb (fun b => Byte.eqb (byte_xor a (byte_xor a b)) b) all_bytes)
                all_bytes = true) by (vm_compute; reflexivity).
  pose proof (forall_bytes _ H a) as H1. cbv beta in H1.
  apply byte_eqb_eq, (forall_bytes _ H1 b).
Qed.
Lemma byte_xor_comm a b : byte_xor a b = byte_xor b a.
Proof. unfold byte_xor. rewrite N.lxor_comm. reflexivity. Qed.
Lemma byte_xor_0_r a : byte_xor a x00 = a.
Proof. destruct a; reflexivity. Qed.

Lemma xor_zip_length a b : length (xor_zip a b) = Nat.min (length a) (length b).
Proof. revert b; induction a as [|x a IH]; intros [|y b]; simpl; auto. Qed.
Lemma len_xor_zip a b : len (xor_zip a b) = N.min (len a) (len b).
Proof. unfold len. rewrite xor_zip_length. lia. Qed.
Lemma xor_zip_invol k p : len p <= len k -> xor_zip k (xor_zip k p) = p.
Proof.
  revert p; induction k as [|x k IH]; intros [|y p] H; rewrite ?len_cons, ?len_nil in H; simpl; try lia; auto.
  rewrite byte_xor_invol, IH by lia. reflexivity.
Qed.
Lemma xor_zip_comm a b : xor_zip a b = xor_zip b a.
Proof. revert b; induction a as [|x a IH]; intros [|y b]; simpl; auto. rewrite byte_xor_comm, IH. reflexivity. Qed.
Lemma xor_zip_zeros k n : xor_zip k (zeros n) = firstn n k.
Proof.
  unfold zeros. revert n; induction k as [|x k IH]; intros [|n]; simpl; auto.
  rewrite byte_xor_0_r, IH. reflexivity.
Qed.

(** ** chunks *)
Lemma chunks_aux_fuel n f1 f2 l :
  (0 < n)%nat -> (length l <= f1)%nat -> (length l <= f2)%nat -> chunks_aux f1 n l = chunks_aux f2 n l.
Proof.
  intros Hn. revert f2 l. induction f1 as [|f1 IH]; intros f2 l H1 H2.
  - destruct l; simpl in *; [destruct f2; reflexivity|lia].
  - destruct l as [|x l]; [destruct f2; reflexivity|].
    destruct f2 as [|f2]; [simpl in H2; lia|].
    cbn [chunks_aux]. f_equal. apply IH; rewrite skipn_length; cbn [length] in *; lia.
Qed.
Lemma chunks_nil n : chunks n [] = [].
Proof. reflexivity. Qed.
Lemma chunks_unfold n l : (0 < n)%nat -> l <> [] -> chunks n l = firstn n l :: chunks n (skipn n l).
Proof.
  intros Hn Hl. unfold chunks. destruct l as [|x l]; [congruence|].
  cbn [chunks_aux length]. f_equal. apply chunks_aux_fuel; [lia| |]; rewrite skipn_length; cbn [length]; lia.
Qed.
Lemma chunks_app n a b : (0 < n)%nat -> length a = n -> chunks n (a ++ b) = a :: chunks n b.
Proof.
  intros Hn Ha. rewrite chunks_unfold.
  - rewrite firstn_app, skipn_app, Ha, Nat.sub_diag. rewrite <- Ha at 1 3. rewrite firstn_all, skipn_all.
    simpl. rewrite app_nil_r. reflexivity.
  - lia.
  - destruct a; simpl in *; [lia|congruence].
Qed.
Lemma chunks_small n l : (0 < n)%nat -> l <> [] -> (length l <= n)%nat -> chunks n l = [l].
Proof.
  intros Hn Hl H. rewrite chunks_unfold by assumption.
  rewrite firstn_all2, skipn_all2 by lia. reflexivity.
Qed.
(** induction principle following [chunks] *)
Lemma chunks_ind n (Hn : (0 < n)%nat) (P : bytes -> Prop) :
  P [] -> (forall l, l <> [] -> P (skipn n l) -> P l) -> forall l, P l.
Proof.
  intros H0 HS l. remember (length l) as k eqn:K.
  revert l K. induction k as [k IH] using lt_wf_ind. intros l K.
  destruct l as [|x l]; [exact H0|].
  apply HS; [congruence|]. apply (IH (length (skipn n (x :: l)))); [|reflexivity].
  rewrite skipn_length. cbn [length] in *. lia.
Qed.
Lemma concat_chunks n l : (0 < n)%nat -> concat (chunks n l) = l.
Proof.
  intros Hn. induction l as [|l Hl IH] using (chunks_ind n Hn); auto.
  rewrite chunks_unfold by assumption. simpl. rewrite IH. apply firstn_skipn.
Qed.
Lemma chunks_bound n l : (0 < n)%nat -> Forall (fun c => (0 < length c <= n)%nat) (chunks n l).
Proof.
  intros Hn. induction l as [|l Hl IH] using (chunks_ind n Hn); auto.
  - constructor.
  - rewrite chunks_unfold by assumption. constructor; [|exact IH].
    rewrite firstn_length. destruct l; [congruence|simpl]. lia.
Qed.

(** ** first zero *)
Lemma before_first_zero_app a b :
  ~ In x00 a -> before_first_zero (a ++ b) = a ++ before_first_zero b.
Proof.
  induction a as [|x a IH]; intros H; simpl; auto.
  destruct (Byte.eqb x x00) eqn:E.
  - apply byte_eqb_eq in E. subst. exfalso. apply H. left; reflexivity.
  - f_equal. apply IH. intros H'. apply H. right; exact H'.
Qed.
Lemma before_first_zero_zeros n : before_first_zero (zeros n) = [].
Proof. destruct n; reflexivity. Qed.
Lemma before_first_zero_pad a n : before_first_zero (a ++ zeros n) = before_first_zero a.
Proof.
  induction a as [|x a IH]; simpl.
  - apply before_first_zero_zeros.
  - rewrite IH. reflexivity.
Qed.
Lemma before_first_zero_notin a : ~ In x00 a -> before_first_zero a = a.
Proof. intros H. rewrite <- (app_nil_r a) at 1. rewrite before_first_zero_app by exact H. simpl. apply app_nil_r. Qed.
Lemma before_first_zero_no_zero a : ~ In x00 (before_first_zero a).
Proof.
  induction a as [|x a IH]; simpl; auto.
  destruct (Byte.eqb x x00) eqn:E; simpl; auto.
  intros [->|H]; auto. discriminate.
Qed.
Lemma before_first_zero_length a : (length (before_first_zero a) <= length a)%nat.
Proof. induction a as [|x a IH]; simpl; auto. destruct (Byte.eqb x x00); simpl; lia. Qed.

(** ** MD5 digests have 16 bytes *)
Lemma md5_length bs : length (md5 bs) = 16%nat.
Proof. unfold md5. destruct (fold_left _ _ _) as [[[a b] c] d]. reflexivity. Qed.
Lemma len_md5 bs : len (md5 bs) = 16.
Proof. unfold len. rewrite md5_length. reflexivity. Qed.
#[export] Hint Rewrite len_md5 len_xor_zip : len.
#[global] Opaque md5.

(** ** decimal rendering is injective *)
Lemma dec_inj n m : dec n = dec m -> n = m.
Proof.
  unfold dec. intros H.
  assert (Hu : N.to_uint n = N.to_uint m).
  { assert (Hs : forall k, NilZero.uint_of_string (NilZero.string_of_uint (N.to_uint k)) = Some (N.to_uint k)).
    { intros k. rewrite NilZero.usu; [reflexivity|]. destruct k; [discriminate|].
      simpl. intros H0. pose proof (DecimalPos.Unsigned.to_uint_nonnil p). contradiction. }
    pose proof (Hs n) as H1. rewrite H, Hs in H1. congruence. }
  rewrite <- (DecimalN.Unsigned.of_to n), <- (DecimalN.Unsigned.of_to m), Hu. reflexivity.
Qed.
