(** * Lexing texts with holes

    A text with holes is a list of symbols: characters and holes, to be filled with non-empty words.
    Dividing it into tokens commutes with filling the holes, so what the templates contain can be
    computed once and for all. *)
From Coq Require Import String List NArith ZArith Bool Arith Lia ZifyBool ZifyNat ZifyN.
From Verif Require Import Prelude CodeGen CodeGenFacts SourceSpec.
Import ListNotations.
Local Open Scope N_scope.
Local Open Scope list_scope.

(** ** Lexing a concatenation *)
Fixpoint run (m : mode) (t : text) : list token * mode :=
  match t with
  | [] => ([], m)
  | c :: t' => let '(ts, m') := read_char m c in let '(ts', m'') := run m' t' in (ts ++ ts', m'')
  end.
Lemma tokens_from_app m a b : tokens_from m (a ++ b) = fst (run m a) ++ tokens_from (snd (run m a)) b.
Proof.
  revert m. induction a as [|c a IH]; intros m; [reflexivity|]. cbn [app tokens_from run].
  destruct (read_char m c) as (ts & m'). rewrite IH. destruct (run m' a) as (ts' & m''). cbn [fst snd].
  now rewrite app_assoc.
Qed.
Lemma run_app m a b :
  run m (a ++ b) = (fst (run m a) ++ fst (run (snd (run m a)) b), snd (run (snd (run m a)) b)).
Proof.
  revert m. induction a as [|c a IH]; intros m.
  - cbn [app run fst snd]. now destruct (run m b).
  - cbn [app run]. destruct (read_char m c) as (ts & m'). rewrite IH.
    destruct (run m' a) as (ts' & m''). cbn [fst snd]. now rewrite app_assoc.
Qed.

(** ** Symbols *)
Inductive sym := Ch (c : N) | Ho (i : nat).
Definition of_text (t : text) : list sym := map Ch t.
Section Fill.
Context (env : nat -> text).
Definition fill_sym (s : sym) : text := match s with Ch c => [c] | Ho i => env i end.
Definition fill_syms (ss : list sym) : text := flat_map fill_sym ss.
End Fill.

Inductive smode := SBetween | SWord (w : list sym) | SAfterSlash | SComment (c : list sym) | SString (s : list sym) (escaped : bool).
Definition sbegin (s : sym) : list (list sym) * smode :=
  match s with
  | Ho _ => ([], SWord [s])
  | Ch c =>
      if blank_char c then ([], SBetween)
      else if word_char c then ([], SWord [s])
      else if c =? 47 then ([], SAfterSlash)
      else if c =? 34 then ([], SString [s] false)
      else ([[s]], SBetween)
  end.
Definition sword (s : sym) : bool := match s with Ho _ => true | Ch c => word_char c end.
Definition sis (c : N) (s : sym) : bool := match s with Ho _ => false | Ch c' => c' =? c end.
Fixpoint strim (k : list sym) : list sym :=
  match k with
  | [] => []
  | Ch c :: k' => if blank_char c then strim k' else k
  | Ho _ :: _ => k
  end.
Definition sread (m : smode) (s : sym) : list (list sym) * smode :=
  match m with
  | SBetween => sbegin s
  | SWord w => if sword s then ([], SWord (s :: w)) else let '(ts, m') := sbegin s in (rev w :: ts, m')
  | SAfterSlash =>
      if sis 47 s then ([], SComment [Ch 47; Ch 47])
      else let '(ts, m') := sbegin s in ([Ch 47] :: ts, m')
  | SComment k => if sis 10 s then ([rev (strim k)], SBetween) else ([], SComment (s :: k))
  | SString x escaped =>
      if escaped then ([], SString (s :: x) false)
      else if sis 92 s then ([], SString (s :: x) true)
      else if sis 34 s then ([rev (s :: x)], SBetween)
      else ([], SString (s :: x) false)
  end.
Fixpoint srun (m : smode) (ss : list sym) : list (list sym) * smode :=
  match ss with
  | [] => ([], m)
  | s :: ss' => let '(ts, m') := sread m s in let '(ts', m'') := srun m' ss' in (ts ++ ts', m'')
  end.

Section Sound.
Context (env : nat -> text).
Context (env_word : forall i, env i <> [] /\ Forall (fun c => word_char c = true) (env i)).
Notation fl := (fill_syms env).

(** what has been read, newest first, is stored per symbol; as characters it is the reverse *)
Definition rfill (k : list sym) : text := rev (fl (rev k)).
Lemma fl_app a b : fl (a ++ b) = fl a ++ fl b.
Proof. apply flat_map_app. Qed.
Lemma rfill_cons s k : rfill (s :: k) = rev (fill_sym env s) ++ rfill k.
Proof. unfold rfill. cbn [rev]. rewrite fl_app, rev_app_distr. cbn [fill_syms flat_map]. now rewrite app_nil_r. Qed.
Definition fmode (m : smode) : mode :=
  match m with
  | SBetween => Between
  | SWord w => InWord (rfill w)
  | SAfterSlash => AfterSlash
  | SComment k => InComment (rfill k)
  | SString x e => InString (rfill x) e
  end.

Lemma run_word w t : Forall (fun c => word_char c = true) t -> run (InWord w) t = ([], InWord (rev t ++ w)).
Proof.
  intros F. revert w. induction F as [|c t H F IH]; intros w; [reflexivity|].
  cbn [run read_char]. rewrite H, IH. cbn [rev]. now rewrite <- app_assoc.
Qed.
Lemma word_char_not c : word_char c = true -> blank_char c = false /\ c <> 10 /\ c <> 92 /\ c <> 34 /\ c <> 47.
Proof. unfold word_char, blank_char. lia. Qed.
Lemma run_comment k t : ~ In 10 t -> run (InComment k) t = ([], InComment (rev t ++ k)).
Proof.
  revert k. induction t as [|c t IH]; intros k F; [reflexivity|]. cbn [run read_char].
  replace (c =? 10) with false by (assert (c <> 10) by (intros ->; apply F; now left); lia).
  rewrite IH by (intros I; apply F; now right). cbn [rev]. now rewrite <- app_assoc.
Qed.
Lemma run_string k t e : t <> [] -> Forall (fun c => word_char c = true) t ->
  run (InString k e) t = ([], InString (rev t ++ k) false).
Proof.
  intros Nt F. revert k e Nt. induction F as [|c t H F IH]; intros k e Nt; [congruence|].
  cbn [run read_char]. apply word_char_not in H. destruct H as (_ & _ & H1 & H2 & _).
  replace (c =? 92) with false by lia. replace (c =? 34) with false by lia.
  assert (X : run (InString (c :: k) false) t = ([], InString (rev (c :: t) ++ k) false)).
  { destruct t as [|c' t'] eqn:Et; [reflexivity|]. rewrite <- Et in *. rewrite IH by congruence.
    cbn [rev]. now rewrite <- app_assoc. }
  destruct e; now rewrite X.
Qed.

Lemma begin_hole i : run Between (env i) = ([], InWord (rev (env i))).
Proof.
  destruct (env_word i) as (N & F). destruct (env i) as [|c t]; [congruence|].
  inversion F as [|? ? H F']; subst. cbn [run read_char]. unfold begin_token.
  pose proof (word_char_not c H) as (B & _). rewrite B, H. rewrite run_word by exact F'. reflexivity.
Qed.
Lemma sbegin_sound s :
  run Between (fill_sym env s) = (map fl (fst (sbegin s)), fmode (snd (sbegin s))).
Proof.
  destruct s as [c|i].
  - cbn [fill_sym run read_char sbegin]. unfold begin_token.
    destruct (blank_char c); [reflexivity|]. destruct (word_char c); [reflexivity|].
    destruct (c =? 47); [reflexivity|]. destruct (c =? 34); reflexivity.
  - cbn [fill_sym sbegin fst snd fmode map]. rewrite begin_hole. do 2 f_equal.
    unfold rfill. cbn [rev app fill_syms flat_map fill_sym]. now rewrite app_nil_r.
Qed.
(** a mode in which the symbol ends the current token *)
Lemma run_ends m s ts0 :
  (forall c t, fill_sym env s = c :: t -> read_char m c = (let '(ts, m') := begin_token c in (ts0 ++ ts, m'))) ->
  run m (fill_sym env s)
  = (ts0 ++ map fl (fst (sbegin s)), fmode (snd (sbegin s))).
Proof.
  intros H. pose proof (sbegin_sound s) as B.
  assert (N : fill_sym env s <> []) by (destruct s; [discriminate|exact (proj1 (env_word i))]).
  destruct (fill_sym env s) as [|c t]; [congruence|]. specialize (H c t eq_refl).
  cbn [run] in *. cbn [read_char] in B. rewrite H. destruct (begin_token c) as (ts & m').
  destruct (run m' t) as (ts' & m''). injection B as B1 B2. rewrite <- B1, <- B2. now rewrite app_assoc.
Qed.
Lemma strim_sound k : trim_left (rfill k) = rfill (strim k).
Proof.
  induction k as [|s k IH]; [reflexivity|]. rewrite rfill_cons. destruct s as [c|i].
  - cbn [fill_sym rev app trim_left strim]. destruct (blank_char c); [exact IH|]. now rewrite rfill_cons.
  - cbn [fill_sym strim]. rewrite rfill_cons. cbn [fill_sym]. destruct (env_word i) as (N & F).
    assert (R : rev (env i) <> []) by (intros H; apply (f_equal (@rev _)) in H; rewrite rev_involutive in H; auto).
    apply Forall_rev in F. destruct (rev (env i)) as [|c t]; [congruence|]. inversion F as [|? ? H _]; subst.
    cbn [app trim_left]. apply word_char_not in H. destruct H as (B & _). now rewrite B.
Qed.
Lemma rev_rfill k : rev (rfill k) = fl (rev k).
Proof. unfold rfill. apply rev_involutive. Qed.

Lemma sread_sound m s :
  run (fmode m) (fill_sym env s) = (map fl (fst (sread m s)), fmode (snd (sread m s))).
Proof.
  destruct m as [|w| |k|x e].
  - exact (sbegin_sound s).
  - cbn [fmode sread]. destruct (sword s) eqn:W.
    + cbn [fst snd map fmode]. rewrite rfill_cons. apply run_word.
      destruct s; [repeat constructor; exact W|exact (proj2 (env_word i))].
    + destruct s as [c|i]; [|discriminate W]. cbn [sword] in W.
      rewrite (run_ends _ (Ch c) [rev (rfill w)]).
      * destruct (sbegin (Ch c)) as (ts & m'). cbn [fst snd map app]. now rewrite rev_rfill.
      * intros c' t [= <- <-]. cbn [read_char]. rewrite W. destruct (begin_token c). reflexivity.
  - cbn [fmode sread]. destruct (sis 47 s) eqn:W.
    + destruct s as [c|i]; [|discriminate W]. cbn [sis] in W. cbn [fill_sym run read_char]. rewrite W. reflexivity.
    + rewrite (run_ends _ s [[47]]).
      * destruct (sbegin s) as (ts & m'). reflexivity.
      * intros c t E. cbn [read_char].
        assert (X : (c =? 47) = false).
        { destruct s as [c'|i]; cbn [fill_sym sis] in *; [injection E as -> _; exact W|].
          destruct (env_word i) as (_ & F). rewrite E in F. inversion F as [|? ? H _]; subst.
          apply word_char_not in H. lia. }
        rewrite X. destruct (begin_token c). reflexivity.
  - cbn [fmode sread]. destruct (sis 10 s) eqn:W.
    + destruct s as [c|i]; [|discriminate W]. cbn [sis] in W. cbn [fill_sym run read_char]. rewrite W.
      cbn [fst snd map fmode app]. now rewrite strim_sound, rev_rfill.
    + cbn [fst snd map fmode]. rewrite rfill_cons. apply run_comment.
      destruct s as [c|i]; cbn [fill_sym sis] in *.
      * intros [->|[]]. discriminate W.
      * intros I. destruct (env_word i) as (_ & F). rewrite Forall_forall in F. specialize (F _ I). discriminate F.
  - cbn [fmode sread]. destruct s as [c|i].
    + cbn [fill_sym run read_char sis]. destruct e; [cbn [fst snd map fmode]; now rewrite rfill_cons|].
      destruct (c =? 92); [cbn [fst snd map fmode]; now rewrite rfill_cons|].
      destruct (c =? 34); cbn [fst snd map fmode]; [|now rewrite rfill_cons].
      cbn [app]. f_equal. f_equal. change (c :: rfill x) with (rev (fill_sym env (Ch c)) ++ rfill x).
      rewrite <- rfill_cons. apply rev_rfill.
    + cbn [sis]. destruct (env_word i) as (N & F). cbn [fill_sym]. rewrite (run_string _ _ e N F).
      destruct e; cbn [fst snd map fmode]; now rewrite rfill_cons.
Qed.
Lemma srun_sound m ss : run (fmode m) (fl ss) = (map fl (fst (srun m ss)), fmode (snd (srun m ss))).
Proof.
  revert m. induction ss as [|s ss IH]; intros m; [reflexivity|].
  cbn [fill_syms flat_map srun]. rewrite run_app, sread_sound. cbn [fst snd].
  destruct (sread m s) as (ts & m'). cbn [fst snd]. unfold fill_syms in IH. rewrite IH.
  destruct (srun m' ss) as (ts' & m''). cbn [fst snd]. now rewrite map_app.
Qed.
End Sound.

(** ** The items of a sequence of tokens *)
Fixpoint irun (item : option (list token)) (ts : list token) : list (list token) * option (list token) :=
  match ts with
  | [] => ([], item)
  | t :: ts' =>
      match item with
      | None => irun (if item_keyword t then Some [t] else None) ts'
      | Some i =>
          if item_end t then let '(is, o) := irun None ts' in (rev (t :: i) :: is, o) else irun (Some (t :: i)) ts'
      end
  end.
Lemma irun_app item a b :
  irun item (a ++ b) = (fst (irun item a) ++ fst (irun (snd (irun item a)) b), snd (irun (snd (irun item a)) b)).
Proof.
  revert item. induction a as [|t a IH]; intros item; [cbn; now destruct (irun item b)|].
  cbn [app irun]. destruct item as [i|]; [|apply IH]. destruct (item_end t); [|apply IH].
  rewrite IH. destruct (irun None a) as (is & o). cbn [fst snd app]. reflexivity.
Qed.
Lemma items_from_irun item ts : items_from item ts = fst (irun item ts).
Proof.
  revert item. induction ts as [|t ts IH]; intros [i|]; cbn [items_from irun]; try reflexivity; [|apply IH].
  destruct (item_end t); [|apply IH]. rewrite IH. now destruct (irun None ts).
Qed.

(** ** Symbolic version *)
Definition is_ch (s : sym) : bool := match s with Ch _ => true | Ho _ => false end.
Definition chars (t : list sym) : text := flat_map (fun s => match s with Ch c => [c] | Ho _ => [] end) t.
Definition skeyword (t : list sym) : bool := forallb is_ch t && item_keyword (chars t).
Definition send (t : list sym) : bool := forallb is_ch t && item_end (chars t).
(** the test is right whatever the holes are filled with (hole 0 is not a token by itself) *)
Definition sure (t : list sym) : bool :=
  forallb is_ch t
  || match t with [Ho i] => negb (Nat.eqb i 0) | _ => false end
  || existsb (sis 95) t
  || match t with Ch c :: _ => negb ((c =? 102) || (c =? 99) || (c =? 116)) | _ => false end.
Fixpoint sirun (item : option (list (list sym))) (ts : list (list sym))
  : list (list (list sym)) * option (list (list sym)) :=
  match ts with
  | [] => ([], item)
  | t :: ts' =>
      match item with
      | None => sirun (if skeyword t then Some [t] else None) ts'
      | Some i => if send t then let '(is, o) := sirun None ts' in (rev (t :: i) :: is, o) else sirun (Some (t :: i)) ts'
      end
  end.
Lemma keyword_in t : item_keyword t = true -> t = tok "fn" \/ t = tok "const" \/ t = tok "type".
Proof. unfold item_keyword. rewrite !orb_true_iff, !text_eqb_eq. tauto. Qed.

Section SoundItems.
Context (env : nat -> text).
Context (env_word : forall i, env i <> [] /\ Forall (fun c => word_char c = true) (env i)).
Context (env_keyword : forall i, i <> 0%nat -> item_keyword (env i) = false).
Notation fl := (fill_syms env).
Lemma fl_chars t : forallb is_ch t = true -> fl t = chars t.
Proof.
  induction t as [|s t IH]; [reflexivity|]. cbn [forallb]. intros H. apply andb_true_iff in H. destruct H as (A & B).
  destruct s as [c|i]; [|discriminate A]. unfold fill_syms, chars in *. cbn [flat_map fill_sym]. now rewrite IH.
Qed.
Lemma skeyword_sound t : sure t = true -> item_keyword (fl t) = skeyword t.
Proof.
  unfold sure, skeyword. intros H. destruct (forallb is_ch t) eqn:A; cbn [andb orb] in *.
  - now rewrite fl_chars.
  - destruct (item_keyword (fl t)) eqn:K; [|reflexivity]. exfalso. apply keyword_in in K.
    rewrite !orb_true_iff in H. destruct H as [[H|H]|H].
    + destruct t as [|[c|i] [|]]; try discriminate H. apply negb_true_iff, Nat.eqb_neq in H.
      specialize (env_keyword i H). unfold fill_syms in K. cbn [flat_map fill_sym] in K. rewrite app_nil_r in K.
      destruct K as [K|[K|K]]; rewrite K in env_keyword; discriminate env_keyword.
    + apply existsb_exists in H. destruct H as (s & I & S). destruct s as [c|i]; [|discriminate S].
      cbn [sis] in S. apply N.eqb_eq in S. subst c.
      assert (J : In 95 (fl t)) by (unfold fill_syms; apply in_flat_map; exists (Ch 95); split; [exact I|now left]).
      destruct K as [K|[K|K]]; rewrite K in J; cbn in J; intuition discriminate.
    + destruct t as [|[c|i] t']; try discriminate H. unfold fill_syms in K. cbn [flat_map fill_sym app] in K.
      destruct K as [K|[K|K]]; injection K as -> _; discriminate H.
Qed.
Lemma send_sound t : item_end (fl t) = send t.
Proof.
  unfold send. destruct (forallb is_ch t) eqn:A; cbn [andb]; [now rewrite fl_chars|].
  destruct (item_end (fl t)) eqn:E; [|reflexivity]. exfalso.
  assert (X : Forall (fun c => word_char c = false) (fl t)).
  { unfold item_end in E. apply orb_true_iff in E. rewrite !text_eqb_eq in E.
    destruct E as [-> | ->]; repeat constructor. }
  assert (I : exists i, In (Ho i) t).
  { clear - A. induction t as [|[c|i] t IH]; [discriminate A| |exists i; now left].
    destruct (IH A) as (i & I). exists i. now right. }
  destruct I as (i & I). destruct (env_word i) as (N & F). destruct (env i) as [|c w] eqn:Ei; [congruence|].
  inversion F as [|? ? Wc _]; subst.
  assert (J : In c (fl t)) by (unfold fill_syms; apply in_flat_map; exists (Ho i); split; [exact I|]; cbn; rewrite Ei; now left).
  rewrite Forall_forall in X. rewrite (X c J) in Wc. discriminate Wc.
Qed.
Lemma sirun_sound item ts : forallb sure ts = true ->
  irun (option_map (map fl) item) (map fl ts)
  = (map (map fl) (fst (sirun item ts)), option_map (map fl) (snd (sirun item ts))).
Proof.
  revert item. induction ts as [|t ts IH]; intros item S; [reflexivity|]. cbn [forallb] in S.
  apply andb_true_iff in S. destruct S as (A & B). cbn [map irun sirun]. destruct item as [i|]; cbn [option_map].
  - rewrite send_sound. destruct (send t).
    + change (@None (list token)) with (option_map (map fl) None). rewrite IH by exact B.
      destruct (sirun None ts) as (is & o). cbn [fst snd]. change (fl t :: map fl i) with (map fl (t :: i)). rewrite <- map_rev. reflexivity.
    + change (Some (fl t :: map fl i)) with (option_map (map fl) (Some (t :: i))). now apply IH.
  - rewrite skeyword_sound by exact A.
    destruct (skeyword t); [exact (IH (Some [t]) B)|exact (IH None B)].
Qed.
End SoundItems.

(** ** Texts that consist of complete tokens and have the complete items [is] *)
Definition defines (t : text) (is : list (list token)) : Prop :=
  exists ts, run Between t = (ts, Between) /\ irun None ts = (is, None).
Lemma defines_nil : defines [] [].
Proof. exists []. repeat split. Qed.
Lemma defines_app a b da db : defines a da -> defines b db -> defines (a ++ b) (da ++ db).
Proof.
  intros (ta & Ra & Da) (tb & Rb & Db). exists (ta ++ tb). rewrite run_app, Ra. cbn [fst snd]. rewrite Rb.
  split; [reflexivity|]. rewrite irun_app, Da. cbn [fst snd]. rewrite Db. reflexivity.
Qed.
Lemma defines_flat_map {A} (f : A -> text) (g : A -> list (list token)) l :
  Forall (fun a => defines (f a) (g a)) l -> defines (flat_map f l) (flat_map g l).
Proof.
  induction 1 as [|a l H F IH]; [exact defines_nil|]. cbn [flat_map]. now apply defines_app.
Qed.
Lemma run_tokens t ts : run Between t = (ts, Between) -> tokens t = ts.
Proof.
  intros R. unfold tokens. rewrite <- (app_nil_r t), tokens_from_app, R. cbn. now rewrite app_nil_r.
Qed.
Lemma defines_items t is : defines t is -> items t = is.
Proof.
  intros (ts & R & D). unfold items. rewrite (run_tokens _ _ R), items_from_irun, D. reflexivity.
Qed.
Lemma defines_comment l : ~ In 10 l -> defines ([47; 47] ++ l ++ [10]) [].
Proof.
  intros H. exists [rev (trim_left (rev l ++ [47; 47]))]. split.
  - change (run Between ([47; 47] ++ l ++ [10])) with (run Between ([47; 47] ++ (l ++ [10]))). rewrite run_app.
    change (run Between [47; 47]) with (@nil token, InComment [47; 47]). cbn [fst snd app].
    rewrite run_app, run_comment by exact H. reflexivity.
  - cbn [irun]. destruct (item_keyword _) eqn:K; [|reflexivity]. exfalso.
    assert (E : exists r, trim_left (rev l ++ [47; 47]) = r ++ [47; 47]).
    { generalize (rev l). intros r. induction r as [|c r IH]; [exists []; reflexivity|]. cbn [app trim_left].
      destruct (blank_char c); [exact IH|]. exists (c :: r). reflexivity. }
    destruct E as (r & E). rewrite E in K. rewrite rev_app_distr in K. discriminate K.
Qed.
(** [decls]: the items as texts with holes *)
Definition stokens (ss : list sym) : list (list sym) := fst (srun SBetween ss).
Definition whole (ss : list sym) : bool := match snd (srun SBetween ss) with SBetween => true | _ => false end.
Lemma defines_syms env ss ts decls :
  (forall i, env i <> [] /\ Forall (fun c => word_char c = true) (env i)) ->
  (forall i, i <> 0%nat -> item_keyword (env i) = false) ->
  srun SBetween ss = (ts, SBetween) -> forallb sure ts = true ->
  sirun None ts = (map stokens decls, None) -> forallb whole decls = true ->
  defines (fill_syms env ss) (map (fun d => tokens (fill_syms env d)) decls).
Proof.
  intros W K R S D C. pose proof (srun_sound env W SBetween ss) as X. rewrite R in X. cbn [fst snd fmode] in X.
  exists (map (fill_syms env) ts). split; [exact X|].
  pose proof (sirun_sound env W K None ts S) as Y. etransitivity; [exact Y|]. rewrite D. cbn [fst snd option_map].
  f_equal. rewrite map_map. apply map_ext_in. intros d I.
  pose proof (srun_sound env W SBetween d) as Z. cbn [fmode] in Z.
  rewrite forallb_forall in C. specialize (C d I). unfold whole in C. unfold stokens.
  destruct (srun SBetween d) as (td & m). cbn [fst snd] in *. destruct m; try discriminate C.
  symmetry. apply run_tokens. exact Z.
Qed.
