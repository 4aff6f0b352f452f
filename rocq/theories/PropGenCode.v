(** * C79: the source text of code-generator/src/main.rs, run

    The properties of the code generator are proved about [CodeGen.v], [Inflect.v] and [GenText.v].  The theorems C79
    say that this is what the text of main.rs means: the interpreter of [RustEval.v] runs the text, and the files it
    creates hold, octet by octet, the UTF-8 of the texts of the model. *)
From Coq Require Import String List NArith ZArith Bool Arith Strings.Byte Lia ZifyBool ZifyNat ZifyN.
From Verif Require Import Prelude PreludeFacts AvpSpec CodeGen Inflect GenText CodeGenFacts Dicts Sources Rust RustEval CodeRun Utf8Text SourceGen GenRun GenTemplates
  GenAttributes GenDict GenHeader GenParse GenLines GenMain GenWhole.
From Verif Require SourceSpec PropSource.
Import ListNotations.
Local Open Scope string_scope.
Local Open Scope N_scope.
Local Open Scope list_scope.

(** ** Specification *)
(** the file main.rs in a build; [ans] is what is outside of it: the libraries, the command line, the disk *)
Definition generator (pr : profile) (rng : nat -> byte) (he : bytes -> option string)
    (ans : list event -> string -> list value -> option value) : cx :=
  Cx pr (generator_program_of source_generator) rng he ans.
(** calling a function ends in this way, from some depth of calls on *)
Definition does (c : cx) (t x : string) (args : list value) (w : world) (r : rout) : Prop :=
  exists k, forall n, (k <= n)%nat -> run c n t x args w = r.
(** The generator is called as [program args], which getopts understands as [paths] and [-o out_dir]; the dictionaries are
    the files [paths], in the order of [sort]; [file_of] is what [out_dir.join] gives. *)
Record environment (U : unicode) (od : N -> bool) (ans : list event -> string -> list value -> option value)
    (program : bytes) (args paths : list bytes) (out_dir : bytes) (file_of : bytes -> bytes) (dicts : list dictionary) : Prop := {
  en_libraries : libraries U od ans;
  en_command_line : command_line ans program args paths;
  en_no_help : forall tr, ans tr "Matches::opt_present" [VStr (bytes_of_string "h")] = Some (VBool false);
  en_out_dir : forall tr, ans tr "Matches::opt_str" [VStr (bytes_of_string "o")] = Some (vsome (VStr out_dir));
  en_paths : forall q, In q paths -> ans [] "Path::to_str" [VStr q] = Some (vsome (VStr q));
  en_sort : ans [] "sort" [VList (map v_path paths)] = Some (VList (map v_path (map d_path dicts)));
  en_dictionaries : Forall (dictionary_files ans out_dir file_of) dicts }.
(** which of the files are there *)
Record disk (ans : list event -> string -> list value -> option value) (paths : list bytes) (there regular : bytes -> bool) : Prop := {
  dk_exists : forall tr q, In q paths -> ans tr "Path::exists" [VStr q] = Some (VBool (there q));
  dk_is_file : forall tr q, In q paths -> ans tr "Path::is_file" [VStr q] = Some (VBool (regular q)) }.
Definition texts_of (U : unicode) (od : N -> bool) (dicts : list dictionary) : res unit (list (string * text)) :=
  generated_texts U od (map (fun d => (d_name d, d_text d)) dicts).
Definition output (file_of : bytes -> bytes) (d : dictionary) : bytes := file_of (out_name d).

Lemma the_generator pr rng he ans : generator pr rng he ans = gen_cx pr rng he ans.
Proof. unfold generator. now rewrite <- generator_program_ok. Qed.

(** ** C79: the whole program *)
Lemma all_checked ans paths there regular w : disk ans paths there regular ->
  (forall q, In q paths -> there q = true /\ regular q = true) -> exists w', checked there regular paths w = Some w'.
Proof.
  intros _. revert w. induction paths as [|q l IH]; intros w H; cbn [checked]; [eauto|].
  destruct (H q (or_introl eq_refl)) as [-> ->]. apply IH. intros; apply H; now right.
Qed.
Lemma not_checked paths there regular q : In q paths -> there q && regular q = false -> forall w, checked there regular paths w = None.
Proof.
  induction paths as [|q' l IH]; intros I H w; [contradiction|]. cbn [checked]. destruct I as [->|I].
  - destruct (there q); [|reflexivity]. cbn [andb] in H. now rewrite H.
  - destruct (there q'); [|reflexivity]. destruct (regular q'); [|reflexivity]. now apply IH.
Qed.

(** Every dictionary becomes one file, which holds the text of its module; no other file is touched. *)
Theorem C79_modules : forall pr rng he U od ans program args paths out_dir file_of dicts w there regular,
  environment U od ans program args paths out_dir file_of dicts -> disk ans paths there regular ->
  (forall q, In q paths -> there q = true /\ regular q = true) ->
  NoDup (map (output file_of) dicts) ->
  forall texts, texts_of U od dicts = Ok texts ->
  exists w', does (generator pr rng he ans) "" "main" [] w (RVal VUnit [] w') /\
    map fst texts = map d_name dicts /\
    Forall2 (fun d m => contents (output file_of d) (w_trace w') = Some (utf8_text (snd m))) dicts texts /\
    (forall path, ~ In path (map (output file_of) dicts) -> contents path (w_trace w') = contents path (w_trace w)).
Proof.
  intros pr rng he U od ans program args paths out_dir file_of dicts w there regular [E1 E2 E3 E4 E5 E6 E7] K T ND texts G.
  pose proof (build_contents U od file_of dicts ND [] []) as B. unfold texts_of, generated_texts in G. rewrite G in B.
  destruct (all_checked ans paths there regular (directed out_dir (started program args paths false w)) K T) as [w1 W1].
  destruct (B w1) as [w' [B1 [B2 B3]]]. destruct K as [K1 K2]. exists w'. split; [|split; [exact B2|split; [exact B3|]]].
  - exists 5%nat. intros n N. rewrite the_generator.
    rewrite (run_main pr rng he U od ans E1 out_dir file_of program args paths E2 E3 E4 there regular K1 K2 E5 dicts E6 E7 n w ltac:(lia)).
    now rewrite W1, B1.
  - intros path NI. erewrite build_other; [| |exact B1].
    + erewrite contents_checked by exact W1. reflexivity.
    + intros d I. destruct (bytes_eqb (file_of (out_name d)) path) eqn:E; [|reflexivity]. apply bytes_eqb_eq in E. exfalso.
      apply NI. rewrite <- E. now apply (in_map (output file_of)).
Qed.
(** A dictionary the model refuses makes the program panic. *)
Theorem C79_refused : forall pr rng he U od ans program args paths out_dir file_of dicts w there regular,
  environment U od ans program args paths out_dir file_of dicts -> disk ans paths there regular ->
  NoDup (map (output file_of) dicts) ->
  (forall texts, texts_of U od dicts <> Ok texts) ->
  does (generator pr rng he ans) "" "main" [] w RPanic.
Proof.
  intros pr rng he U od ans program args paths out_dir file_of dicts w there regular [E1 E2 E3 E4 E5 E6 E7] [K1 K2] ND G.
  pose proof (build_contents U od file_of dicts ND [] []) as B. unfold texts_of, generated_texts in G.
  exists 5%nat. intros n N. rewrite the_generator.
  rewrite (run_main pr rng he U od ans E1 out_dir file_of program args paths E2 E3 E4 there regular K1 K2 E5 dicts E6 E7 n w ltac:(lia)).
  destruct (checked _ _ _ _) as [w1|]; [|reflexivity].
  destruct (generate_texts U od [] [] _) as [texts|?| |]; [now destruct (G texts)|now rewrite B..].
Qed.
(** So does a dictionary that is not there, whatever the others are. *)
Theorem C79_missing : forall pr rng he U od ans program args paths out_dir file_of dicts w there regular q,
  environment U od ans program args paths out_dir file_of dicts -> disk ans paths there regular ->
  In q paths -> there q && regular q = false ->
  does (generator pr rng he ans) "" "main" [] w RPanic.
Proof.
  intros pr rng he U od ans program args paths out_dir file_of dicts w there regular q [E1 E2 E3 E4 E5 E6 E7] [K1 K2] I M.
  exists 5%nat. intros n N. rewrite the_generator.
  rewrite (run_main pr rng he U od ans E1 out_dir file_of program args paths E2 E3 E4 there regular K1 K2 E5 dicts E6 E7 n w ltac:(lia)).
  now rewrite (not_checked paths there regular q I M).
Qed.
(** [-h] prints the usage and leaves; nothing is read or written.  Without [-o] the program panics. *)
Theorem C79_help : forall pr rng he ans program args paths usage w,
  command_line ans program args paths ->
  (forall tr, ans tr "Matches::opt_present" [VStr (bytes_of_string "h")] = Some (VBool true)) ->
  (forall tr, ans tr "opts.usage" [VStr (bytes_of_string "Usage: " ++ program ++ bytes_of_string " [options] DICT_FILE OUT_FILE")] = Some (VStr usage)) ->
  (forall tr, ans tr "print!" [VStr (bytes_of_string "{}"); VStr usage] = Some VUnit) ->
  (forall tr, ans tr "process::exit" [VInt Lit 0] = None) ->
  exists w', does (generator pr rng he ans) "" "main" [] w (RWait w') /\
    (exists tr, w_trace w' = Event "process::exit" [VInt Lit 0] None :: Event "print!" [VStr (bytes_of_string "{}"); VStr usage] (Some VUnit) :: tr ++ w_trace w /\
       Forall (fun e => ev_op e <> "File::create" /\ ev_op e <> "File::write_all" /\ ev_op e <> "File::open") tr).
Proof.
  intros pr rng he ans program args paths usage w E H1 H3 H4 H5.
  exists (helped program usage (started program args paths true w)). split.
  - exists 2%nat. intros n N. rewrite the_generator.
    exact (run_main_help pr rng he ans (fun b => b) program args paths E usage H3 H4 H5 H1 n w ltac:(lia)).
  - unfold helped, started. cbn [w_trace].
    match goal with |- exists tr, _ :: _ :: ?a :: ?b :: ?c :: ?d :: ?e :: ?f :: ?g :: _ = _ /\ _ => exists [a; b; c; d; e; f; g] end.
    split; [reflexivity|]. repeat constructor; discriminate.
Qed.
Theorem C79_no_out_dir : forall pr rng he ans program args paths w,
  command_line ans program args paths ->
  (forall tr, ans tr "Matches::opt_present" [VStr (bytes_of_string "h")] = Some (VBool false)) ->
  (forall tr, ans tr "Matches::opt_str" [VStr (bytes_of_string "o")] = Some vnone) ->
  does (generator pr rng he ans) "" "main" [] w RPanic.
Proof.
  intros pr rng he ans program args paths w E H1 H2. exists 1%nat. intros n N. rewrite the_generator.
  exact (run_main_nowhere pr rng he ans (fun b => b) program args paths E H1 n w ltac:(lia) H2).
Qed.

(** ** C79: its functions *)
(** Reading a dictionary: the attributes and values of the model, and the lines again; or the text of an error *)
Theorem C79_parse_dict_file : forall pr rng he U od ans path t w,
  libraries U od ans -> Forall scalar t -> readable ans path (text_lines t) ->
  does (generator pr rng he ans) "" "parse_dict_file" [v_path path] w
    match parse_dict_file od t with
    | Ok (attrs, values) =>
        RVal (vok (VTuple [VTuple [VList (map v_attribute attrs); VList (map v_entry values)]; v_lines (text_lines t)])) [v_path path]
          (read_events path (text_lines t) (read_events path (text_lines t) w))
    | Err LackedItems => RVal (verr (v_string (lit_text "the number of items is lacked in a line"))) [v_path path] (read_events path (text_lines t) w)
    | Err (InvalidType x) => RVal (verr (v_string (lit_text "invalid type has come => " ++ x))) [v_path path] (read_events path (text_lines t) w)
    | Err (UnexpectedKind x) => RVal (verr (v_string (lit_text "unexpected kind has come => " ++ x))) [v_path path] (read_events path (text_lines t) w)
    | _ => RPanic
    end.
Proof.
  intros pr rng he U od ans path t w L S R. exists 3%nat. intros n N. rewrite the_generator.
  rewrite (run_parse pr rng he U od ans L path (text_lines t) n w ltac:(lia) R) by (apply lines_scalar; [exact S|constructor]).
  unfold parse_dict_file. destruct (parse_lines od ([], []) (text_lines t)) as [[attrs values]|[]| |]; reflexivity.
Qed.
(** Writing a module: what is written to the file is the UTF-8 of the text of the model *)
Definition writes (pr : profile) rng he ans (path : bytes) (f : string) (args : list value) (t : text) : Prop :=
  forall w, exists w', does (generator pr rng he ans) "" f (v_file path :: args) w (RVal VUnit (v_file path :: args) w') /\
    contents path (w_trace w') = option_map (fun c => c ++ utf8_text t) (contents path (w_trace w)).
Lemma wrote_writes path chunks t w : concat chunks = utf8_text t ->
  contents path (w_trace (wrote path chunks w)) = option_map (fun c => c ++ utf8_text t) (contents path (w_trace w)).
Proof. intro E. rewrite contents_wrote, bytes_eqb_refl, E. reflexivity. Qed.
Theorem C79_generate_header : forall pr rng he ans path earlier rfc lines, writable path ans ->
  writes pr rng he ans path "generate_header" [VList (map v_module earlier); v_module rfc; v_lines lines] (header_text earlier rfc lines).
Proof.
  intros pr rng he ans path earlier rfc lines W w. eexists. split.
  - exists 1%nat. intros n N. rewrite the_generator. exact (run_header pr rng he ans path W n earlier rfc lines w ltac:(lia)).
  - apply wrote_writes, header_chunks_text.
Qed.
Definition scalar_dictionary (attrs : list radius_attribute) (values : value_map) : Prop :=
  Forall (fun a => Forall scalar (ra_name a)) attrs /\ Forall scalar_entry values.
Theorem C79_generate_attributes : forall pr rng he U od ans path attrs values, libraries U od ans -> writable path ans ->
  scalar_dictionary attrs values ->
  match attributes_text U attrs values with
  | Ok t => writes pr rng he ans path "generate_attributes_code" [VList (map v_attribute attrs); v_names values] t
  | _ => forall w, does (generator pr rng he ans) "" "generate_attributes_code" [v_file path; VList (map v_attribute attrs); v_names values] w RPanic
  end.
Proof.
  intros pr rng he U od ans path attrs values L W [S F]. pose proof (attributes_chunks U values attrs) as A.
  assert (R : forall n w, (n > 2)%nat -> _) by exact (fun n w N => run_attributes pr rng he U od ans path L W n attrs values w N S F).
  destruct (chunks_of (kind_chunks U values) attrs) as [c|].
  - destruct A as [t [-> E]]. intros w. eexists. split; [|apply wrote_writes, E].
    exists 3%nat. intros n N. rewrite the_generator. exact (R n w ltac:(lia)).
  - rewrite A. intros w. exists 3%nat. intros n N. rewrite the_generator. exact (R n w ltac:(lia)).
Qed.
(** [names]: in which module an attribute was declared, the newest first; the map of main.rs:134 holds the same *)
Theorem C79_generate_values : forall pr rng he U od ans path values names l, libraries U od ans -> writable path ans ->
  Forall scalar_entry values ->
  (forall attr, Forall scalar attr -> map_get (utf8_text attr) l = option_map v_module (rfc_of names attr)) ->
  writes pr rng he ans path "generate_values_code" [v_value_map values; VList l] (all_values_text U values names).
Proof.
  intros pr rng he U od ans path values names l L W F M w. eexists. split.
  - exists 3%nat. intros n N. rewrite the_generator. exact (run_all_values pr rng he U od ans path L W n values names l w ltac:(lia) F M).
  - apply wrote_writes, all_values_chunks.
Qed.

(** ** The environments are not empty: this one fits any dictionaries *)
Section Answers.
  Context (U : unicode) (od : N -> bool) (program out_dir : bytes) (args : list bytes) (there regular : bytes -> bool) (dicts : list dictionary).
  (** a disk of dictionaries; [join] puts a slash *)
  Definition joined (name : bytes) : bytes := out_dir ++ bytes_of_string "/" ++ name.
  Definition named (q : bytes) : option dictionary := find (fun d => bytes_eqb (d_path d) q) dicts.
  Definition of_text (op : string) (b : bytes) : option value :=
    let s := utf8_decode b in
    if String.eqb op "to_snake_case" then Some (v_string (to_snake_case U s))
    else if String.eqb op "to_screaming_snake_case" then Some (v_string (to_screaming_snake_case U s))
    else if String.eqb op "to_pascal_case" then Some (v_string (to_pascal_case U s))
    else if String.eqb op "Path::to_str" then Some (vsome (VStr b))
    else if String.eqb op "Path::exists" then Some (VBool (there b))
    else if String.eqb op "Path::is_file" then Some (VBool (regular b))
    else if String.eqb op "Matches::opt_present" then Some (VBool false)
    else if String.eqb op "Matches::opt_str" then Some (vsome (VStr out_dir))
    else if String.eqb op "Path::extension" then option_map (fun d => vsome (VCtor "Path" "Path" [v_module (d_name d)])) (named b)
    else if String.eqb op "File::lines" then option_map (fun d => v_lines (text_lines (d_text d))) (named b)
    else None.
  Definition of_two (op : string) (a b : bytes) : option value :=
    let s := utf8_decode b in
    if String.eqb op "Regex::is_match" then Some (VBool (line_is_filtered s))
    else if String.eqb op "Regex::split" then Some (VList (map v_string (split_items s)))
    else if String.eqb op "Regex::captures" then
      Some (match fixed_octets_capture od s with Some ds => vsome (VList [v_string s; v_string ds]) | None => vnone end)
    else if String.eqb op "Path::join" then Some (v_path (joined b))
    else None.
  Definition answers (tr : list event) (op : string) (vs : list value) : option value :=
    match vs with
    | [] => if String.eqb op "env::args" then Some (VList (VStr program :: map VStr args)) else Some (VExt "opts")
    | [VStr b] => of_text op b
    | [VStr a; VStr b] => of_two op a b
    | [VStr path; VBytes b] => Some (vok VUnit)
    | [VStr a; VStr b; VStr c] => if String.eqb op "Regex::replace" then Some (v_string (cut_trailing_comment (utf8_decode b))) else Some (VExt "opts")
    | [VStr a; VStr b; VStr c; VStr d] => Some (VExt "opts")
    | [VList l] =>
        if String.eqb op "sort" then Some (VList l)
        else Some (vok (VStruct "Matches" [("free", VList (map VStr (map d_path dicts)))]))
    | [VCtor "Path" "Path" [VStr b]] => Some (vok (v_file b))
    | _ => None
    end.
  Lemma named_of d : NoDup (map d_path dicts) -> In d dicts -> named (d_path d) = Some d.
  Proof.
    unfold named. induction dicts as [|d' l IH]; intros ND I; [contradiction|]. inversion ND as [|x y NI ND']; subst x y. cbn [find].
    destruct (bytes_eqb (d_path d') (d_path d)) eqn:E.
    - apply bytes_eqb_eq in E. destruct I as [->|I]; [reflexivity|]. exfalso. apply NI. rewrite E. now apply in_map.
    - destruct I as [->|I]; [now rewrite bytes_eqb_refl in E|now apply IH].
  Qed.
  Theorem C79_environment : NoDup (map d_path dicts) -> Forall (fun d => Forall scalar (d_text d)) dicts ->
    environment U od answers program args (map d_path dicts) out_dir joined dicts /\
    disk answers (map d_path dicts) there regular.
  Proof.
    intros ND S. split; constructor; try (intros; reflexivity).
    - constructor; intros s SC; intros; cbn [answers v_string of_text of_two String.eqb Ascii.eqb Bool.eqb];
        unfold v_string; rewrite utf8_decode_text by exact SC; reflexivity.
    - constructor; reflexivity.
    - apply Forall_forall. intros d I. rewrite Forall_forall in S.
      pose proof (named_of d ND I) as E.
      constructor; try (intros; reflexivity).
      + split; intros; [reflexivity|]. cbn [answers of_text String.eqb Ascii.eqb Bool.eqb]. now rewrite E.
      + now apply S.
      + cbn [answers of_text String.eqb Ascii.eqb Bool.eqb]. now rewrite E.
      + unfold writable. intros. reflexivity.
  Qed.
End Answers.

(** ** The dictionaries of the repository *)
Definition shipped (dicts : list dictionary) : Prop := map (fun d => (d_name d, d_text d)) dicts = dictionaries.
(** Running the text of main.rs on them writes, for every committed module but one, the same code. *)
Theorem C79_committed : forall pr rng he U od ans program args paths out_dir file_of dicts w there regular,
  environment U od ans program args paths out_dir file_of dicts -> disk ans paths there regular ->
  (forall q, In q paths -> there q = true /\ regular q = true) ->
  NoDup (map (output file_of) dicts) -> shipped dicts ->
  exists w', does (generator pr rng he ans) "" "main" [] w (RVal VUnit [] w') /\
    Forall2 (fun d c => d_name d = fst c /\ exists t, contents (output file_of d) (w_trace w') = Some (utf8_text t) /\
               (fst c <> "rfc2865" -> SourceSpec.same_code t (snd c) /\ incl (SourceSpec.imports (snd c)) (SourceSpec.imports t)))
      dicts PropSource.committed.
Proof.
  intros pr rng he U od ans program args paths out_dir file_of dicts w there regular E K T ND S.
  destruct (PropSource.C69_regenerated_partial U od) as [texts [G F]].
  assert (G' : texts_of U od dicts = Ok texts) by (unfold texts_of; now rewrite S).
  destruct (C79_modules pr rng he U od ans program args paths out_dir file_of dicts w there regular E K T ND texts G') as [w' [R [N [C _]]]].
  exists w'. split; [exact R|]. clear - F C N. revert N F. generalize PropSource.committed as cs.
  induction C as [|d m dicts texts C _ IH]; intros cs N F; inversion F as [|x c y cs' [F1 F2] F3]; subst; constructor.
  - cbn [map] in N. injection N as N1 N2. split; [congruence|]. exists (snd m). split; [exact C|exact F2].
  - cbn [map] in N. injection N as N1 N2. now apply IH.
Qed.

(** ** Examples *)
(** scripts/generate-code.sh: code-generator --out-dir=.../radius/src/core/ .../dicts/dictionary.rfc2865 ... *)
Definition shipped_dictionaries : list dictionary :=
  map (fun m => Dictionary (bytes_of_string ("dicts/dictionary." ++ fst m)) (fst m) (snd m)) dictionaries.
Definition scalarb (c : N) : bool := (c <? 0xD800) || (0xDFFF <? c) && (c <=? 0x10FFFF).
Fixpoint distinctb (l : list bytes) : bool :=
  match l with [] => true | x :: l' => negb (existsb (bytes_eqb x) l') && distinctb l' end.
Lemma distinctb_NoDup l : distinctb l = true -> NoDup l.
Proof.
  induction l as [|x l IH]; intro H; constructor; cbn [distinctb] in H; apply andb_true_iff in H; destruct H as [H1 H2].
  - intro I. apply negb_true_iff in H1. assert (X : existsb (bytes_eqb x) l = true)
      by (apply existsb_exists; exists x; split; [exact I|apply bytes_eqb_refl]). congruence.
  - now apply IH.
Qed.
Lemma scalarb_all l : forallb (fun d => forallb scalarb (d_text d)) l = true -> Forall (fun d => Forall scalar (d_text d)) l.
Proof.
  intro H. apply Forall_forall. intros d I. rewrite forallb_forall in H. specialize (H d I).
  apply Forall_forall. intros c J. rewrite forallb_forall in H. specialize (H c J). unfold scalarb in H. unfold scalar. lia.
Qed.
Definition gen_args : list bytes := bytes_of_string "--out-dir=./radius/src/core/" :: map d_path shipped_dictionaries.
Definition gen_out : bytes := bytes_of_string "./radius/src/core".
Definition gen_name : bytes := bytes_of_string "code-generator".
Lemma shipped_environment U od :
  environment U od (answers U od gen_name gen_out gen_args (fun _ => true) (fun _ => true) shipped_dictionaries) gen_name gen_args (map d_path shipped_dictionaries)
    gen_out (joined gen_out) shipped_dictionaries /\
  disk (answers U od gen_name gen_out gen_args (fun _ => true) (fun _ => true) shipped_dictionaries) (map d_path shipped_dictionaries) (fun _ => true) (fun _ => true) /\
  NoDup (map (output (joined gen_out)) shipped_dictionaries) /\ shipped shipped_dictionaries.
Proof.
  destruct (C79_environment U od gen_name gen_out gen_args (fun _ => true) (fun _ => true) shipped_dictionaries) as [E D].
  - apply distinctb_NoDup. vm_compute. reflexivity.
  - apply scalarb_all. vm_compute. reflexivity.
  - split; [exact E|]. split; [exact D|]. split; [apply distinctb_NoDup; vm_compute; reflexivity|].
    unfold shipped, shipped_dictionaries. rewrite map_map. cbn [d_name d_text].
    induction dictionaries as [|[] l IH]; [reflexivity|]. cbn [map fst snd]. now rewrite IH.
Qed.
Example C79_committed_example : forall U od, exists w',
  does (generator Release (fun _ => x00) (fun _ => None) (answers U od gen_name gen_out gen_args (fun _ => true) (fun _ => true) shipped_dictionaries)) "" "main" [] (World 0 [])
    (RVal VUnit [] w') /\
  exists t, contents (bytes_of_string "./radius/src/core/rfc4072.rs") (w_trace w') = Some (utf8_text t) /\
    SourceSpec.same_code t (PropSource.source_text source_rfc4072).
Proof.
  intros U od. destruct (shipped_environment U od) as [E [D [ND S]]].
  destruct (C79_committed Release (fun _ => x00) (fun _ => None) U od _ _ _ _ _ _ _ (World 0 []) _ _ E D ltac:(now split) ND S) as [w' [R F]].
  exists w'. split; [exact R|].
  assert (X : nth_error PropSource.committed 8 = Some ("rfc4072", PropSource.source_text source_rfc4072)) by reflexivity.
  assert (Y : nth_error (map (output (joined gen_out)) shipped_dictionaries) 8 = Some (bytes_of_string "./radius/src/core/rfc4072.rs")) by (vm_compute; reflexivity).
  revert X Y. generalize (bytes_of_string "./radius/src/core/rfc4072.rs") as target. generalize (8%nat) as i. clear -F.
  induction F as [|d c ds cs [F1 [t [F2 F3]]] _ IH]; intros [|i] target X Y; try discriminate.
  - cbn [nth_error map] in X, Y. injection X as X. injection Y as Y. subst c. exists t. subst target. split; [exact F2|]. apply F3. discriminate.
  - now apply (IH i target).
Qed.

(** The interpreter runs the text of main.rs on a dictionary of two lines; no theorem is used. *)
Definition small_text : text := lit_text "# a comment
ATTRIBUTE	Foo-Bar		200	integer
VALUE	Foo-Bar		On-Line		1
".
Definition small (t : text) : list dictionary := [Dictionary (bytes_of_string "d.rfc9") "rfc9" t].
Definition run_small (U : unicode) (t : text) : rout :=
  run (generator Release (fun _ => x00) (fun _ => None) (answers U (fun _ => false) gen_name (bytes_of_string "out") [] (fun _ => true) (fun _ => true) (small t))) 8 "" "main" [] (World 0 []).
Example C79_run : forall U,
  match run_small U small_text, texts_of U (fun _ => false) (small small_text) with
  | RVal VUnit [] w', Ok [(n, t)] =>
      n = "rfc9" /\ contents (bytes_of_string "out/rfc9.rs") (w_trace w') = Some (utf8_text t) /\ (length t > 1000)%nat
  | _, _ => False
  end.
Proof. intro U. vm_compute. split; [reflexivity|]. split; [reflexivity|]. repeat constructor. Qed.
Example C79_run_refused : forall U, run_small U (lit_text "ATTRIBUTE Foo 1 nonsense") = RPanic /\
  texts_of U (fun _ => false) (small (lit_text "ATTRIBUTE Foo 1 nonsense")) = Panic.
Proof. intro U. split; vm_compute; reflexivity. Qed.
Example C79_missing_example : forall U od, exists q,
  environment U od (answers U od gen_name (bytes_of_string "out") [] (fun _ => true) (fun _ => false) (small small_text)) gen_name []
    (map d_path (small small_text)) (bytes_of_string "out") (joined (bytes_of_string "out")) (small small_text) /\
  disk (answers U od gen_name (bytes_of_string "out") [] (fun _ => true) (fun _ => false) (small small_text))
    (map d_path (small small_text)) (fun _ => true) (fun _ => false) /\
  In q (map d_path (small small_text)).
Proof.
  intros U od. exists (bytes_of_string "d.rfc9").
  destruct (C79_environment U od gen_name (bytes_of_string "out") [] (fun _ => true) (fun _ => false) (small small_text)) as [E D].
  - apply distinctb_NoDup. vm_compute. reflexivity.
  - apply scalarb_all. vm_compute. reflexivity.
  - split; [exact E|]. split; [exact D|]. now left.
Qed.
(** [-h]: the environment answers nothing once the program has left *)
Definition asked_for_help (U : unicode) (tr : list event) (op : string) (vs : list value) : option value :=
  if String.eqb op "Matches::opt_present" then Some (VBool true)
  else if String.eqb op "opts.usage" then Some (VStr (bytes_of_string "usage"))
  else if String.eqb op "print!" then Some VUnit
  else if String.eqb op "process::exit" then None
  else answers U (fun _ => false) gen_name (bytes_of_string "out") [] (fun _ => true) (fun _ => true) (small small_text) tr op vs.
Example C79_help_example : forall U,
  command_line (asked_for_help U) gen_name [] [bytes_of_string "d.rfc9"] /\
  (forall tr, asked_for_help U tr "Matches::opt_present" [VStr (bytes_of_string "h")] = Some (VBool true)) /\
  (forall tr b, asked_for_help U tr "opts.usage" [VStr b] = Some (VStr (bytes_of_string "usage"))) /\
  (forall tr, asked_for_help U tr "print!" [VStr (bytes_of_string "{}"); VStr (bytes_of_string "usage")] = Some VUnit) /\
  (forall tr, asked_for_help U tr "process::exit" [VInt Lit 0] = None).
Proof. intro U. split; [constructor; reflexivity|]. now repeat split. Qed.
(** no [-o] *)
Definition without_out (U : unicode) (tr : list event) (op : string) (vs : list value) : option value :=
  if String.eqb op "Matches::opt_str" then Some vnone
  else answers U (fun _ => false) gen_name (bytes_of_string "out") [] (fun _ => true) (fun _ => true) (small small_text) tr op vs.
Example C79_no_out_dir_example : forall U,
  command_line (without_out U) gen_name [] [bytes_of_string "d.rfc9"] /\
  (forall tr, without_out U tr "Matches::opt_present" [VStr (bytes_of_string "h")] = Some (VBool false)) /\
  (forall tr, without_out U tr "Matches::opt_str" [VStr (bytes_of_string "o")] = Some vnone).
Proof. intro U. split; [constructor; reflexivity|]. now split. Qed.

(** * Assumptions *)
Print Assumptions C79_modules.
Print Assumptions C79_refused.
Print Assumptions C79_missing.
Print Assumptions C79_help.
Print Assumptions C79_no_out_dir.
Print Assumptions C79_parse_dict_file.
Print Assumptions C79_generate_header.
Print Assumptions C79_generate_attributes.
Print Assumptions C79_generate_values.
Print Assumptions C79_committed.
