(** * Final theorems about the code generator: C51, C52. *)
From Coq Require Import String List NArith Bool Lia ZifyBool ZifyNat ZifyN.
From Verif Require Import Prelude Accessors Rfc CodeGen CodeGenSpec CodeGenFacts Dicts.
Import ListNotations.
Local Open Scope N_scope.
Local Open Scope list_scope.

(** ** C52: the dictionary parser *)

(** Every text has exactly one reading as lines, and every line exactly one meaning. *)
Theorem C52_reading : forall od t,
  exists lines ms,
    lines_are t lines /\ Forall2 (means od) lines ms /\
    forall lines' ms', lines_are t lines' -> Forall2 (means od) lines' ms' -> lines' = lines /\ ms' = ms.
Proof.
  intros od t. pose proof (lines_are_model t) as L.
  assert (M : exists ms, Forall2 (means od) (text_lines t) ms).
  { clear L. induction (text_lines t) as [|l ls [ms IH]]; [exists []; apply Forall2_nil|].
    destruct (means_total od l) as [m Hm]. exists (m :: ms). now constructor. }
  destruct M as [ms M]. exists (text_lines t), ms. split; [assumption|]. split; [assumption|].
  intros lines' ms' L' M'. apply lines_are_unique in L' as E. subst lines'. split; [reflexivity|].
  pose proof (lines_no_lf _ _ L) as N. clear - M M' N. revert ms' M'.
  induction M as [|l m ls ms Hm M IH]; intros ms' M'; inversion M'; subst; [reflexivity|].
  inversion N; subst. f_equal; [|now apply IH]. eapply means_unique; eassumption.
Qed.

(** The result: all attributes and values in file order if every line is well formed; otherwise
    the first line that is not decides. *)
Theorem C52_parse : forall od t lines ms,
  lines_are t lines -> Forall2 (means od) lines ms ->
  (forall attrs table,
     parse_dict_file od t = Ok (attrs, table) <->
     Forall fine ms /\ attrs = attributes_of ms /\ table_of ms table) /\
  (forall e, parse_dict_file od t = Err e <->
     exists before after, ms = before ++ AnError e :: after /\ Forall fine before) /\
  (parse_dict_file od t = Panic <->
     exists before after, ms = before ++ Aborts :: after /\ Forall fine before) /\
  parse_dict_file od t <> OutOfFuel.
Proof.
  intros od t lines ms L M. rewrite (parse_dict_acts _ _ _ _ L M).
  assert (OK : forall b, Forall fine b ->
            exists st, acts b ([], []) = Ok st /\ fst st = attributes_of b /\ table_of b (snd st)).
  { intros b F. apply (acts_fine [] b ([], []) F table_of_nil eq_refl). }
  assert (BAD : forall b m a, Forall fine b ->
            acts (b ++ m :: a) ([], []) =
            match m with AnError e => Err e | Aborts => Panic | _ => acts (b ++ m :: a) ([], []) end).
  { intros b m a F. destruct (OK b F) as (st & E & _). rewrite acts_app, E. cbn. destruct m; reflexivity. }
  assert (FB : forall b m a, Forall fine (b ++ m :: a) -> fine m).
  { intros b m a F. apply Forall_app in F as [_ F]. now inversion F. }
  destruct (first_bad ms) as [F|(b & m & a & -> & F & N)].
  - destruct (OK ms F) as ([at0 tb0] & E & A & T). cbn in A, T. rewrite E. split; [|split; [|split]].
    + intros attrs table. split.
      * intros H. inversion H; subst. auto.
      * intros (_ & -> & T'). rewrite (table_of_unique _ _ _ T' T), <- A. reflexivity.
    + intros e. split; [discriminate|]. intros (b & a & -> & _). now apply FB in F.
    + split; [discriminate|]. intros (b & a & -> & _). now apply FB in F.
    + discriminate.
  - assert (U : forall b' m' a', ~ fine m' -> b ++ m :: a = b' ++ m' :: a' -> Forall fine b' -> m = m').
    { clear - F N. induction F as [|x b Hx F IH]; intros b' m' a' N' E F'.
      - destruct b' as [|y b']; [now inversion E|]. inversion E; subst. inversion F'; subst. tauto.
      - destruct b' as [|y b']; cbn in E; [inversion E; subst; tauto|]. inversion E; subst.
        inversion F'; subst. eapply IH; eassumption. }
    rewrite (BAD b m a F). destruct m; try (now elim N).
    + split; [|split; [|split]].
      * intros attrs table. split; [discriminate|]. intros [C _]. now apply FB in C.
      * intros e'. split.
        -- intros H. inversion H; subst. eauto.
        -- intros (b' & a' & E & F'). assert (X : AnError e = AnError e') by (eapply U; [|exact E|exact F']; tauto).
           now inversion X.
      * split; [discriminate|]. intros (b' & a' & E & F').
        assert (X : AnError e = Aborts) by (eapply U; [|exact E|exact F']; tauto). discriminate.
      * discriminate.
    + split; [|split; [|split]].
      * intros attrs table. split; [discriminate|]. intros [C _]. now apply FB in C.
      * intros e'. split; [discriminate|]. intros (b' & a' & E & F').
        assert (X : Aborts = AnError e') by (eapply U; [|exact E|exact F']; tauto). discriminate.
      * split; [eauto|reflexivity].
      * discriminate.
Qed.

(** An empty line, or a line that starts with #, inserted between two lines changes nothing. *)
Lemma text_lines_prefix t1 t2 :
  t1 = [] \/ (exists t, t1 = t ++ [10]) -> text_lines (t1 ++ t2) = text_lines t1 ++ text_lines t2.
Proof.
  intros [->|[t ->]]; [reflexivity|].
  remember (List.length t) as n. assert (Hn : (List.length t <= n)%nat) by lia. clear Heqn.
  revert t Hn. induction n as [|n IH]; intros t Hn.
  - destruct t; [|cbn in Hn; lia]. reflexivity.
  - destruct (lf_split t) as [[[l r] [-> H]]|H]; cbn [fst snd] in *.
    + rewrite app_length in Hn. cbn [List.length] in Hn. rewrite <- !app_assoc. cbn [app].
      rewrite (text_lines_app l (r ++ 10 :: t2)), (text_lines_app l (r ++ [10])) by assumption.
      cbn [app]. f_equal.
      rewrite <- IH by lia. now rewrite <- app_assoc.
    + rewrite <- app_assoc. cbn [app]. rewrite !text_lines_app by assumption. reflexivity.
Qed.
Theorem C52_skipped_lines : forall od t1 t2 line ending,
  t1 = [] \/ (exists t, t1 = t ++ [10]) ->
  line = [] \/ (exists c, line = 35 :: c) -> ~ In 10 line ->
  ending = [10] \/ ending = [13; 10] ->
  parse_dict_file od (t1 ++ line ++ ending ++ t2) = parse_dict_file od (t1 ++ t2).
Proof.
  intros od t1 t2 line ending H1 HL HN HE.
  assert (E : exists l, text_lines (line ++ ending ++ t2) = l :: text_lines t2 /\ line_is_filtered l = true).
  { assert (S : forall u, ~ In 10 u -> u = [] \/ (exists c, u = 35 :: c) -> line_is_filtered u = true).
    { intros u N D. now apply line_is_filtered_skipped. }
    destruct HE as [->| ->]; cbn [app].
    - rewrite text_lines_app by assumption. eexists. split; [reflexivity|].
      destruct (ends_cr line) as [[l' ->]|N].
      + rewrite strip_cr_cr. apply S; [intros C; apply HN, in_or_app; now left|].
        destruct HL as [C|[c C]]; [destruct l'; discriminate|]. destruct l' as [|x l'].
        * discriminate.
        * right. inversion C; subst. eauto.
      + rewrite strip_cr_other by assumption. now apply S.
    - change (line ++ 13 :: 10 :: t2) with (line ++ [13] ++ 10 :: t2). rewrite app_assoc, text_lines_app.
      + rewrite strip_cr_cr. eauto.
      + intros C. apply in_app_or in C as [C|[C|[]]]; [tauto|discriminate]. }
  destruct E as (l & E & F). unfold parse_dict_file. rewrite (text_lines_prefix t1 t2), (text_lines_prefix t1 (line ++ ending ++ t2)) by assumption. rewrite E.
  clear - F. generalize (([], []) : parsed). induction (text_lines t1) as [|x ls IH]; intros st; cbn.
  - destruct st as [attrs values]. unfold parse_line at 1. rewrite F. reflexivity.
  - destruct (parse_line od st x); cbn; auto.
Qed.

(** But "blank" means empty: a line that starts with white space, be it blank or an indented
    comment, is an error, whatever follows. *)
Theorem C52_indented : forall od line m c rest,
  line = c :: rest -> white c -> means od line m ->
  m = AnError LackedItems \/ m = AnError (UnexpectedKind []).
Proof.
  intros od line m c rest -> W M. apply is_ws_white in W as W'.
  assert (F : exists ws, fields (c :: rest) ([] :: ws)).
  { destruct (fields_total (c :: rest)) as [items F]. apply fields_model in F as E.
    unfold split_items in E. cbn [split_ws] in E. rewrite W' in E. subst items. eauto. }
  destruct F as [ws F]. apply fields_model in F.
  assert (Q : forall k items, fields (c :: rest) (k :: items) -> k = []).
  { intros k items G. apply fields_model in G. congruence. }
  inversion M; subst; auto.
  - destruct H as [C|[r C]]; [discriminate|]. inversion C; subst. discriminate.
  - apply Q in H0. subst. auto.
  - apply Q in H; discriminate.
  - apply Q in H; discriminate.
  - apply Q in H; discriminate.
  - apply Q in H; discriminate.
  - apply Q in H; discriminate.
  - apply Q in H; discriminate.
Qed.

Local Notation LF := ([10]).
Definition sample_dictionary : text :=
  lit "# a comment" ++ LF ++ LF ++
  lit "ATTRIBUTE  User-Name" ++ [9] ++ lit "1 string" ++ [13; 10] ++
  lit "ATTRIBUTE Secret +69 string has_tag,encrypt=2" ++ LF ++
  lit "VALUE Zone West 2#two" ++ LF ++ lit "VALUE Area A 010" ++ LF ++ lit "VALUE Zone East 1" ++ LF ++
  lit "ATTRIBUTE Zone 7 integer" ++ LF ++ lit "ATTRIBUTE Key 8 octets[16]".
Example C52_example :
  parse_dict_file (fun _ => false) sample_dictionary =
  Ok ([RadiusAttribute (lit "User-Name") 1 VTString None false false;
       RadiusAttribute (lit "Secret") 69 VTTunnelPassword None false true;
       RadiusAttribute (lit "Zone") 7 VTInteger None false false;
       RadiusAttribute (lit "Key") 8 VTOctets (Some 16) false false],
      [(lit "Area", [RadiusValue (lit "A") 10]);
       (lit "Zone", [RadiusValue (lit "West") 2; RadiusValue (lit "East") 1])]).
Proof. vm_compute. reflexivity. Qed.
(** errors, and the numbers that abort: RADIUS integers have 32 bits, VALUE lines only 16 *)
Example C52_example_bad :
  parse_dict_file (fun _ => false) (lit "VALUE Zone West 65536") = Panic /\
  parse_dict_file (fun _ => false) (lit "VALUE Zone West 2# two") = Panic /\
  parse_dict_file (fun _ => false) (lit "VALUE Zone West 65535") = Ok ([], [(lit "Zone", [RadiusValue (lit "West") 65535])]) /\
  parse_dict_file (fun _ => false) (lit "ATTRIBUTE A 256 string") = Panic /\
  parse_dict_file (fun _ => false) (lit "ATTRIBUTE A 1 strin") = Err (InvalidType (lit "strin")) /\
  parse_dict_file (fun _ => false) (lit "ATTRIBUTE A 1") = Err LackedItems /\
  parse_dict_file (fun _ => false) (lit "VENDOR A 1 B") = Err (UnexpectedKind (lit "VENDOR")) /\
  parse_dict_file (fun _ => false) (lit "  # indented comment") = Err (UnexpectedKind []) /\
  parse_dict_file (fun c => c =? 0x663) (lit "ATTRIBUTE A 1 octets[" ++ [0x663] ++ lit "]") = Panic.
Proof. vm_compute. repeat split. Qed.

(** ** C51: what is generated *)

(** One accessor set per attribute, in order, of the kind that its type, options and values
    determine; the combinations without a template make the generator abort. *)
Theorem C51_attributes : forall attrs table,
  (forall gs, generate_attributes attrs table = Ok gs <-> Forall2 (attribute_for table) attrs gs) /\
  (generate_attributes attrs table = Panic <-> Exists unsupported attrs).
Proof.
  intros attrs table.
  assert (K : forall a, (exists k, attribute_kind a (existsb (fun e => text_eqb (ra_name a) (fst e)) table) = Ok k /\
                           ~ unsupported a /\
                           forall g, attribute_for table a g <-> g = GenAttribute (ra_name a) (ra_typ a) k) \/
                        (attribute_kind a (existsb (fun e => text_eqb (ra_name a) (fst e)) table) = Panic /\
                           unsupported a /\ forall g, ~ attribute_for table a g)).
  { intros a. set (hv := existsb (fun e => text_eqb (ra_name a) (fst e)) table).
    assert (Hhv : hv = true <-> In (ra_name a) (map fst table)).
    { unfold hv. rewrite existsb_exists. rewrite in_map_iff. split.
      - intros ([n vs] & H & E). apply text_eqb_eq in E. cbn in E. exists (n, vs). cbn. auto.
      - intros ([n vs] & E & H). cbn in E. exists (n, vs). split; [assumption|]. cbn. subst. apply text_eqb_refl. }
    assert (UQ : forall b, (b = true <-> In (ra_name a) (map fst table)) -> b = hv).
    { intros b Hb. destruct b, hv; intuition congruence. }
    clearbody hv. destruct a as [nm ty vt fx cc tg]. unfold attribute_for, unsupported, attribute_kind.
    cbn [ra_name ra_typ ra_value_type ra_fixed_octets_length ra_concat_octets ra_has_tag] in *.
    destruct vt, tg; try destruct fx; try destruct cc; try destruct hv.
    all: try (left; eexists; split; [reflexivity|]; split; [tauto || discriminate|]; intros [gn gt gk];
              cbn [ga_name ga_typ ga_kind]; split;
              [intros (-> & -> & b & Hb & T); rewrite (UQ b Hb) in T; inversion T; subst; reflexivity
              |intros G; inversion G; subst; split; [reflexivity|]; split; [reflexivity|];
               eexists; split; [exact Hhv|constructor]]).
    all: right; split; [reflexivity|]; split; [reflexivity|]; intros g (_ & _ & b & _ & T); inversion T. }
  induction attrs as [|a attrs [IH1 IH2]]; cbn.
  - split.
    + intros gs. split; [intros H; inversion H; constructor|intros H; now inversion H].
    + split; [discriminate|inversion 1].
  - destruct (K a) as [(k & -> & N & G)|(-> & U & G)]; cbn.
    + split.
      * intros gs. split.
        -- destruct (generate_attributes attrs table) as [gs'| | |] eqn:E; cbn; try discriminate.
           intros H. inversion H; subst. constructor; [now apply G|now apply IH1].
        -- intros H. inversion H; subst. apply G in H2. subst. apply IH1 in H4. now rewrite H4.
      * rewrite Exists_cons. destruct (generate_attributes attrs table) as [gs'| | |] eqn:E; cbn.
        -- split; [discriminate|]. intros [C|C]; [tauto|]. now apply IH2 in C.
        -- split; [discriminate|]. intros [C|C]; [tauto|]. now apply IH2 in C.
        -- split; [|reflexivity]. intros _. right. now apply IH2.
        -- split; [discriminate|]. intros [C|C]; [tauto|]. now apply IH2 in C.
    + split.
      * intros gs. split; [discriminate|]. intros H. inversion H; subst. now apply G in H2.
      * split; [|reflexivity]. intros _. now left.
Qed.

(** The modules generated from a list of dictionaries. *)
Inductive generated (od : N -> bool)
  : list (string * list radius_attribute) -> list (string * text) -> list gen_module -> Prop :=
| gd_nil before : generated od before [] []
| gd_cons before rfc t attrs table m dicts ms :
    parse_dict_file od t = Ok (attrs, table) -> gm_name m = rfc -> module_for before attrs table m ->
    generated od (before ++ [(rfc, attrs)]) dicts ms ->
    generated od before ((rfc, t) :: dicts) (m :: ms).

Definition names_of (before : list (string * list radius_attribute)) : list (text * string) :=
  rev (flat_map (fun '(rfc, attrs) => map (fun a => (ra_name a, rfc)) attrs) before).
Lemma find_name_none (l : list (text * string)) attr :
  find (fun e => text_eqb attr (fst e)) l = None <-> ~ In attr (map fst l).
Proof.
  induction l as [|[n r] l IH]; cbn; [tauto|]. destruct (text_eqb attr n) eqn:E.
  - apply text_eqb_eq in E. subst. split; [discriminate|tauto].
  - rewrite IH. apply text_eqb_neq in E. intuition.
Qed.
Lemma find_name_app (l l' : list (text * string)) attr :
  find (fun e => text_eqb attr (fst e)) (l ++ l') =
  match find (fun e => text_eqb attr (fst e)) l with
  | Some e => Some e | None => find (fun e => text_eqb attr (fst e)) l' end.
Proof. induction l as [|[n r] l IH]; cbn; [reflexivity|]. destruct (text_eqb attr n); auto. Qed.
Lemma names_of_snoc before rfc attrs :
  names_of (before ++ [(rfc, attrs)]) = rev (map (fun a => (ra_name a, rfc)) attrs) ++ names_of before.
Proof. unfold names_of. rewrite flat_map_app, rev_app_distr. cbn. now rewrite app_nil_r. Qed.
Lemma rfc_of_model before attr : qualifier before attr (rfc_of (names_of before) attr).
Proof.
  induction before as [|[rfc attrs] before IH] using rev_ind; [intros r a []|].
  rewrite names_of_snoc. unfold rfc_of in *. rewrite find_name_app.
  destruct (find (fun e => text_eqb attr (fst e)) (rev (map (fun a => (ra_name a, rfc)) attrs))) as [[n r]|] eqn:E.
  - apply find_some in E as [I Q]. apply text_eqb_eq in Q. cbn in Q. subst n.
    apply in_rev, in_map_iff in I as (a & Ea & I). inversion Ea; subst. cbn.
    exists before, attrs, []. split; [reflexivity|]. split; [now apply in_map|]. intros ? ? [].
  - apply find_name_none in E. rewrite map_rev, <- in_rev, map_map in E. cbn in E.
    destruct (find _ (names_of before)) as [[n r]|]; cbn in *.
    + destruct IH as (e & at' & l & -> & I & NL). exists e, at', (l ++ [(rfc, attrs)]).
      split; [now rewrite <- app_assoc|]. split; [assumption|]. intros r' a' H.
      apply in_app_or in H as [H|[H|[]]]; [eauto|]. inversion H; subst. assumption.
    + intros r a H. apply in_app_or in H as [H|[H|[]]]; [eauto|]. inversion H; subst. assumption.
Qed.
Lemma qualifier_unique before attr q q' : qualifier before attr q -> qualifier before attr q' -> q = q'.
Proof.
  assert (X : forall r r', qualifier before attr (Some r) -> qualifier before attr (Some r') -> r = r').
  { intros r r' (e & a & l & -> & I & N) (e' & a' & l' & E & I' & N').
    revert e' E. induction e as [|x e IH]; intros e' E.
    - destruct e' as [|y e']; cbn in E; inversion E; subst; [reflexivity|].
      elim (N r' a'); [apply in_or_app; right; now left|assumption].
    - destruct e' as [|y e']; cbn in E; inversion E; subst.
      + elim (N' r a); [apply in_or_app; right; now left|assumption].
      + eapply IH; eassumption. }
  assert (Y : forall r, qualifier before attr (Some r) -> ~ qualifier before attr None).
  { intros r (e & a & l & -> & I & _) C. apply (C r a); [apply in_or_app; right; now left|assumption]. }
  destruct q as [r|], q' as [r'|]; intros H H'.
  - f_equal. auto.
  - now apply Y in H.
  - now apply Y in H'.
  - reflexivity.
Qed.
Lemma module_for_model before attrs table m :
  module_for before attrs table m <->
  Forall2 (attribute_for table) attrs (gm_attributes m) /\
  gm_types m = generate_types table (names_of before) /\
  gm_constants m = generate_constants table (names_of before).
Proof.
  unfold module_for. assert (Q : forall qs, Forall2 (fun e q => qualifier before (fst e) q) table qs ->
    flat_map (fun '(e, q) => match q with None => [fst e] | Some _ => [] end) (combine table qs)
      = generate_types table (names_of before) /\
    flat_map (fun '(e, q) => map (fun v => GenConstant (fst e) (rv_name v) q (rv_value v)) (snd e)) (combine table qs)
      = generate_constants table (names_of before)).
  { intros qs F. unfold generate_types, generate_constants.
    induction F as [|[n vs] q table qs Hq F [IH1 IH2]]; [auto|]. cbn in *.
    rewrite IH1, IH2. rewrite (qualifier_unique _ _ _ _ Hq (rfc_of_model before n)). split; [|reflexivity].
    destruct (rfc_of (names_of before) n); reflexivity. }
  split.
  - intros [F (qs & FQ & -> & ->)]. destruct (Q qs FQ) as [-> ->]. auto.
  - intros (F & -> & ->). split; [assumption|]. exists (map (fun e => rfc_of (names_of before) (fst e)) table).
    assert (FQ : Forall2 (fun e q => qualifier before (fst e) q) table
                   (map (fun e => rfc_of (names_of before) (fst e)) table)).
    { clear. induction table as [|e table IH]; cbn; constructor; [apply rfc_of_model|assumption]. }
    destruct (Q _ FQ) as [-> ->]. auto.
Qed.
Lemma generated_inv od before rfc t dicts mods attrs table :
  generated od before ((rfc, t) :: dicts) mods -> parse_dict_file od t = Ok (attrs, table) ->
  exists m ms, mods = m :: ms /\ gm_name m = rfc /\ module_for before attrs table m /\
    generated od (before ++ [(rfc, attrs)]) dicts ms.
Proof.
  intros G P. inversion G as [|b r t' a tb m d ms P' E M R]; subst. rewrite P in P'. inversion P'; subst.
  exists m, ms. auto.
Qed.
Theorem C51_modules : forall od dicts,
  (forall mods, generate od dicts = Ok mods <-> generated od [] dicts mods) /\
  (generate od dicts = Panic <->
   exists rfc t, In (rfc, t) dicts /\
     forall attrs table, parse_dict_file od t = Ok (attrs, table) -> Exists unsupported attrs) /\
  (forall e, generate od dicts <> Err e) /\ generate od dicts <> OutOfFuel.
Proof.
  intros od dicts. unfold generate. change (generate_all od [] dicts) with (generate_all od (names_of []) dicts).
  generalize (@nil (string * list radius_attribute)).
  induction dicts as [|[rfc t] dicts IH]; intros before.
  - cbn. repeat split; try discriminate.
    + intros H. inversion H. constructor.
    + intros H. now inversion H.
    + intros (r & t & [] & _).
  - cbn [generate_all]. destruct (parse_dict_file od t) as [[attrs table]| | |] eqn:P.
    2-4: split; [|split; [|split]]; try discriminate;
         [intros mods; split; [discriminate|intros H; inversion H; congruence]
         |split; [|reflexivity]; intros _; exists rfc, t; split; [now left|]; intros a tb C; congruence].
    destruct (C51_attributes attrs table) as [GA GP].
    destruct (generate_attributes attrs table) as [gs|e| |] eqn:G.
    + rewrite <- names_of_snoc. destruct (IH (before ++ [(rfc, attrs)])) as (I1 & I2 & I3 & I4).
      assert (NU : ~ Exists unsupported attrs) by (intros C; apply GP in C; discriminate).
      cbn [bind].
      destruct (generate_all od (names_of (before ++ [(rfc, attrs)])) dicts) as [ms|e| |] eqn:R; cbn [bind].
      * split; [|split; [|split]]; try discriminate.
        -- intros mods. split.
           ++ intros H. inversion H; subst. eapply gd_cons; [exact P|reflexivity| |now apply I1].
              apply module_for_model. cbn. split; [now apply GA|]. auto.
           ++ intros H. destruct (generated_inv _ _ _ _ _ _ _ _ H P) as (m & ms' & -> & En & M & R').
              apply module_for_model in M as (X1 & X2 & X3). apply GA in X1. inversion X1; subst.
              apply I1 in R'. inversion R'; subst. destruct m; cbn in *. congruence.
        -- split; [discriminate|]. intros (r & t' & [C|C] & U).
           ++ inversion C; subst. elim NU. exact (U _ _ P).
           ++ assert (X : @Ok unit (list gen_module) ms = Panic) by (apply I2; eauto). discriminate.
      * now elim (I3 e).
      * split; [|split; [|split]]; try discriminate.
        -- intros mods. split; [discriminate|]. intros H.
           destruct (generated_inv _ _ _ _ _ _ _ _ H P) as (m & ms' & -> & En & M & R').
           apply I1 in R'. discriminate.
        -- split; [|reflexivity]. intros _. destruct (proj1 I2 eq_refl) as (r & t' & C & U).
           exists r, t'. split; [now right|assumption].
      * now elim I4.
    + exfalso. clear - G. revert e G. induction attrs as [|a attrs IH]; intros e G; [discriminate|]. cbn in G.
      destruct (attribute_kind a _) as [k| | |] eqn:K; cbn in G; try discriminate.
      * destruct (generate_attributes attrs table) eqn:E; cbn in G; try discriminate. now apply (IH e0).
      * clear - K. unfold attribute_kind in K. destruct (ra_value_type a), (ra_has_tag a); discriminate.
    + cbn [bind]. split; [|split; [|split]]; try discriminate.
      * intros mods. split; [discriminate|]. intros H.
        destruct (generated_inv _ _ _ _ _ _ _ _ H P) as (m & ms' & -> & En & M & R').
        apply module_for_model in M as (X1 & _). apply GA in X1. discriminate.
      * split; [|reflexivity]. intros _. exists rfc, t. split; [now left|]. intros a tb E.
        rewrite P in E. inversion E; subst. now apply GP.
    + exfalso. clear - G. induction attrs as [|a attrs IH]; [discriminate|]. cbn in G.
      destruct (attribute_kind a _) as [k| | |] eqn:K; cbn in G; try discriminate.
      * destruct (generate_attributes attrs table) eqn:E; cbn in G; try discriminate. auto.
      * clear - K. unfold attribute_kind in K. destruct (ra_value_type a), (ra_has_tag a); discriminate.
Qed.

(** The committed modules: run on the 24 dictionaries, the generator yields exactly the attributes
    (name, type code, accessor kind), type aliases and constants (name, type, value) of the
    rfc*.rs files, in their order.  Names are compared by their letters and digits, because the
    crate that turns them into identifiers is not modelled; no two names of a module then
    coincide, so nothing is confused. *)
Theorem C51_committed : forall od,
  exists mods, generate od dictionaries = Ok mods /\
    flat_map (fun m => map (fun g => (gm_name m, squash (ga_name g), ga_kind g, ga_typ g)) (gm_attributes m)) mods
      = map (fun e => (e_module e, squash (lit (e_name e)), e_kind e, b2n (e_type e))) entries /\
    flat_map (fun m => map (fun t => (gm_name m, squash t)) (gm_types m)) mods
      = map (fun t => (fst t, squash (lit (snd t)))) value_types /\
    flat_map (fun m => map (fun c => (gm_name m, squash (gc_attr c) ++ squash (gc_name c), gc_module c,
                                      squash (gc_attr c), gc_value c)) (gm_constants m)) mods
      = map (fun '(m, c, q, t, v) =>
               (m, squash (lit c), if String.eqb q "" then None else Some q, squash (lit t), v)) values.
Proof. intros od. eexists. split; [vm_compute; reflexivity|]. split; [|split]; vm_compute; reflexivity. Qed.

Fixpoint distinct (l : list (string * text)) : bool :=
  match l with
  | [] => true
  | (m, n) :: l' => negb (existsb (fun e => String.eqb m (fst e) && text_eqb n (snd e)) l') && distinct l'
  end.
Lemma distinct_NoDup l : distinct l = true -> NoDup l.
Proof.
  induction l as [|[m n] l IH]; cbn; [constructor|]. rewrite andb_true_iff, negb_true_iff. intros [H D].
  constructor; [|auto]. intros C.
  assert (X : existsb (fun e => String.eqb m (fst e) && text_eqb n (snd e)) l = true).
  { apply existsb_exists. exists (m, n). split; [assumption|]. cbn. now rewrite String.eqb_refl, text_eqb_refl. }
  congruence.
Qed.
Theorem C51_names_distinct :
  NoDup (map (fun e => (e_module e, squash (lit (e_name e)))) entries) /\
  NoDup (map (fun t : string * string => (fst t, squash (lit (snd t)))) value_types) /\
  NoDup (map (fun '(m, c, _, _, _) => (m, squash (lit c))) values).
Proof. repeat split; apply distinct_NoDup; vm_compute; reflexivity. Qed.

Example C51_example_unsupported :
  generate (fun _ => false) [("rfc1"%string, lit "ATTRIBUTE A 1 octets has_tag")] = Panic.
Proof. vm_compute. reflexivity. Qed.
Example C51_example_qualified :
  generate (fun _ => false)
    [("rfc1"%string, lit "ATTRIBUTE A 1 integer"); ("rfc2"%string, lit "VALUE A X 3" ++ LF ++ lit "VALUE B Y 4")] =
  Ok [GenModule "rfc1" [GenAttribute (lit "A") 1 KInteger] [] [];
      GenModule "rfc2" [] [lit "B"]
        [GenConstant (lit "A") (lit "X") (Some "rfc1"%string) 3; GenConstant (lit "B") (lit "Y") None 4]].
Proof. vm_compute. reflexivity. Qed.

(** * Assumptions *)
Print Assumptions C52_reading.
Print Assumptions C52_parse.
Print Assumptions C52_skipped_lines.
Print Assumptions C52_indented.
Print Assumptions C51_attributes.
Print Assumptions C51_modules.
Print Assumptions C51_committed.
Print Assumptions C51_names_distinct.
