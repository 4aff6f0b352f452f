(** * Running the whole generator: main of main.rs *)
From Coq Require Import String List NArith ZArith Bool Arith Strings.Byte Lia ZifyBool ZifyNat ZifyN.
From Verif Require Import Prelude PreludeFacts AvpSpec Accessors CodeGen Inflect GenText Rust RustEval CodeRun RustFacts CodeTactics Utf8Text CodeGenFacts SourceGen GenRun GenTemplates GenAttributes GenDict GenHeader GenParse GenLines GenMain.
Import ListNotations.
Local Open Scope string_scope.
Local Open Scope N_scope.
Local Open Scope list_scope.

Section Main.
  Context (p : profile) (rnd : nat -> byte) (he : bytes -> option string) (U : unicode) (od : N -> bool)
          (ans : list event -> string -> list value -> option value).
  Context (L : libraries U od ans).
  Let C := gen_cx p rnd he ans.
  Context (out_dir : bytes) (file_of : bytes -> bytes).

  (** what the loop of main.rs:136-159 does to the world; [None] is a panic *)
  Fixpoint build (earlier : list string) (names : list (text * string)) (dicts : list dictionary) (w : world) : option world :=
    match dicts with
    | [] => Some w
    | d :: dicts' =>
        match parse_dict_file od (d_text d) with
        | Ok (attrs, values) =>
            match module_chunks U earlier names d attrs values with
            | Some c =>
                build (earlier ++ [d_name d]) (rev (map (fun a => (ra_name a, d_name d)) attrs) ++ names) dicts'
                  (wrote (file_of (out_name d)) c (created (file_of (out_name d))
                     (read_events (d_path d) (text_lines (d_text d)) (read_events (d_path d) (text_lines (d_text d)) w))))
            | None => None
            end
        | _ => None
        end
    end.
  Lemma run_dicts n dict_paths matches program args dicts : (n > 3)%nat -> Forall (dictionary_files ans out_dir file_of) dicts ->
    forall earlier names l w, names_map names l ->
    match build earlier names dicts w with
    | Some w' => exists st, for_loop (for_body (PVar "dict_file_path") (fun s => eval C n "" (run C n) s dict_body)) (map v_path (map d_path dicts))
                      (State (main_vars out_dir dict_paths matches program args (earlier, l)) w)
                    = Norm VUnit (State (main_vars out_dir dict_paths matches program args st) w')
    | None => for_loop (for_body (PVar "dict_file_path") (fun s => eval C n "" (run C n) s dict_body)) (map v_path (map d_path dicts))
                      (State (main_vars out_dir dict_paths matches program args (earlier, l)) w)
                    = Panicked
    end.
  Proof.
    intros N F. induction F as [|d dicts D F IH]; intros earlier names l w M.
    - exists (earlier, l). reflexivity.
    - cbn [build map for_loop].
      pose proof (fun k => run_dict p rnd he U od ans L out_dir file_of dict_paths matches program args n d earlier names l w k N D M) as R.
      unfold C in *. 
      destruct (parse_dict_file od (d_text d)) as [[attrs values]|e| |] eqn:P.
      2-4: rewrite R; reflexivity.
      destruct (module_chunks U earlier names d attrs values) as [c|].
      2: rewrite R; reflexivity.
      specialize (IH (earlier ++ [d_name d]) (rev (map (fun a => (ra_name a, d_name d)) attrs) ++ names) (insert_all (d_name d) l attrs)
        (wrote (file_of (out_name d)) c (created (file_of (out_name d))
                     (read_events (d_path d) (text_lines (d_text d)) (read_events (d_path d) (text_lines (d_text d)) w))))).
      assert (SA : Forall (fun a => Forall scalar (ra_name a)) attrs).
      { unfold parse_dict_file in P. destruct D as [_ D2 _ _ _ _ _].
        eapply parse_lines_scalar in P; [apply P| |constructor..]. apply lines_scalar; [exact D2|constructor]. }
      specialize (IH (names_map_insert (d_name d) attrs SA names l M)).
      destruct (build _ _ dicts _) as [w'|].
      + destruct IH as [st IH]. exists st. rewrite R. exact IH.
      + rewrite R. exact IH.
  Qed.

  (** main.rs:120-130: the dictionaries named on the command line have to be there *)
  Definition asked (op : string) (q : bytes) (b : bool) (w : world) : world :=
    World (w_random w) (Event op [VStr q] (Some (VBool b)) :: w_trace w).
  Fixpoint checked (there regular : bytes -> bool) (paths : list bytes) (w : world) : option world :=
    match paths with
    | [] => Some w
    | q :: r =>
        if there q then
          if regular q then checked there regular r (asked "Path::is_file" q true (asked "Path::exists" q true w)) else None
        else None
    end.
  Lemma filter_checked (there regular : bytes -> bool) (f : value -> state -> RustEval.out) vars (l : list bytes) :
    (forall (q : bytes) w, In q l -> f (v_path q) (State vars w)
       = if there q then
           if regular q then Norm (VBool true) (State vars (asked "Path::is_file" q true (asked "Path::exists" q true w))) else Panicked
         else Panicked) ->
    forall w, filter_loop f (map v_path l) (State vars w)
      = match checked there regular l w with Some w' => Norm (VList (map v_path l)) (State vars w') | None => Panicked end.
  Proof.
    intros H. induction l as [|q l IH]; intro w; [reflexivity|].
    cbn [map filter_loop checked]. rewrite H by now left.
    destruct (there q); [|reflexivity]. destruct (regular q); [|reflexivity]. cbn [bindo].
    rewrite IH by (intros; apply H; now right).
    now destruct (checked there regular l _).
  Qed.

  Context (program : bytes) (args : list bytes) (paths : list bytes) (CL : command_line ans program args paths).
  Definition started (help : bool) (w : world) : world :=
    World (w_random w)
     (Event "Matches::opt_present" [VStr (bytes_of_string "h")] (Some (VBool help))
      :: Event "opts.parse" [VList (map VStr args)] (Some (VCtor "" "Ok" [VStruct "Matches" [("free", VList (map VStr paths))]]))
      :: Event "opts.optopt" [VStr (bytes_of_string "o"); VStr (bytes_of_string "out-dir");
           VStr (bytes_of_string "[mandatory] a directory to out the generated code"); VStr (bytes_of_string "/path/to/out/")] (Some (VExt "opts"))
      :: Event "opts.optflag" [VStr (bytes_of_string "h"); VStr (bytes_of_string "help"); VStr (bytes_of_string "print this help menu")] (Some (VExt "opts"))
      :: Event "Options::new" [] (Some (VExt "opts"))
      :: Event "env::args" [] (Some (VList (VStr program :: map VStr args))) :: w_trace w).

  (** main.rs:82-86 and 110-112 *)
  Definition brief : bytes := bytes_of_string "Usage: " ++ program ++ bytes_of_string " [options] DICT_FILE OUT_FILE".
  Definition helped (usage : bytes) (w : world) : world :=
    World (w_random w)
      (Event "process::exit" [VInt Lit 0] None :: Event "print!" [VStr (bytes_of_string "{}"); VStr usage] (Some VUnit)
       :: Event "opts.usage" [VStr brief] (Some (VStr usage)) :: w_trace w).
  Section Help.
    Context (usage : bytes) (H3 : forall tr, ans tr "opts.usage" [VStr brief] = Some (VStr usage)).
    Context (H4 : forall tr, ans tr "print!" [VStr (bytes_of_string "{}"); VStr usage] = Some VUnit).
    Context (H5 : forall tr, ans tr "process::exit" [VInt Lit 0] = None).
    Lemma run_usage n w : (n > 0)%nat -> run C n "" "print_usage" [VStr program; VExt "opts"] w = RWait (helped usage w).
    Proof.
      intros N. destruct n as [|n]; [lia|]. unfold C, gen_cx.
      assert (B : bytes_of_string "Usage: " ++ program ++ bytes_of_string " [options] DICT_FILE OUT_FILE" ++ [] = brief)
        by (unfold brief; now rewrite app_nil_r).
      repeat first [given ans ltac:(first [rewrite B|rewrite H3|rewrite H4|rewrite H5]) | step]. reflexivity.
    Qed.
    Context (H1 : forall tr, ans tr "Matches::opt_present" [VStr (bytes_of_string "h")] = Some (VBool true)).
    Lemma run_main_help n w : (n > 1)%nat -> run C n "" "main" [] w = RWait (helped usage (started true w)).
    Proof.
      intros N. destruct n as [|n]; [lia|]. pose proof (fun w => run_usage n w ltac:(lia)) as R. unfold C, gen_cx in *. destruct CL as [A1 A2 A3 A4 A5].
      assert (B : (1 <=? len (VStr program :: map VStr args)) = true) by (unfold len; cbn [length]; lia).
      change (map VStr args) with (skipn (N.to_nat 1) (VStr program :: map VStr args)) in A5.
      plain_step.
      match goal with |- context [EFor (PVar "dict_file_path") ?b ?c] => remember (EFor (PVar "dict_file_path") b c) as loop eqn:E; clear E end.
      destruct w as [wr wt].
      repeat (not_named; first [given ans ltac:(first [rewrite A1|rewrite A2|rewrite A3|rewrite A4 |rewrite A5|rewrite H1|rewrite R]) | step]).
      reflexivity.
    Qed.
  End Help.

  Context (H1 : forall tr, ans tr "Matches::opt_present" [VStr (bytes_of_string "h")] = Some (VBool false)).
  Lemma run_main_nowhere n w : (n > 0)%nat ->
    (forall tr, ans tr "Matches::opt_str" [VStr (bytes_of_string "o")] = Some (VCtor "" "None" [])) ->
    run C n "" "main" [] w = RPanic.
  Proof.
    intros N H2. destruct n as [|n]; [lia|]. unfold C, gen_cx in *. destruct CL as [A1 A2 A3 A4 A5].
    assert (B : (1 <=? len (VStr program :: map VStr args)) = true) by (unfold len; cbn [length]; lia).
    change (map VStr args) with (skipn (N.to_nat 1) (VStr program :: map VStr args)) in A5.
    plain_step.
    match goal with |- context [EFor (PVar "dict_file_path") ?b ?c] => remember (EFor (PVar "dict_file_path") b c) as loop eqn:E; clear E end.
    repeat (not_named; first [given ans ltac:(first [rewrite A1|rewrite A2|rewrite A3|rewrite A4 |rewrite A5|rewrite H1|rewrite H2]) | step]).
    reflexivity.
  Qed.
  Context (H2 : forall tr, ans tr "Matches::opt_str" [VStr (bytes_of_string "o")] = Some (VCtor "" "Some" [VStr out_dir])).
  Context (there regular : bytes -> bool).
  Context (T1 : forall tr q, In q paths -> ans tr "Path::exists" [VStr q] = Some (VBool (there q))).
  Context (T2 : forall tr q, In q paths -> ans tr "Path::is_file" [VStr q] = Some (VBool (regular q))).
  Context (T3 : forall q, In q paths -> ans [] "Path::to_str" [VStr q] = Some (VCtor "" "Some" [VStr q])).
  Context (dicts : list dictionary).
  Context (S1 : ans [] "sort" [VList (map v_path paths)] = Some (VList (map v_path (map d_path dicts)))).
  Context (D : Forall (dictionary_files ans out_dir file_of) dicts).
  Definition directed (w : world) : world :=
    World (w_random w) (Event "Matches::opt_str" [VStr (bytes_of_string "o")] (Some (VCtor "" "Some" [VStr out_dir])) :: w_trace w).
  Lemma run_main n w : (n > 4)%nat ->
    run C n "" "main" [] w
    = match checked there regular paths (directed (started false w)) with
      | Some w1 => match build [] [] dicts w1 with Some w2 => RVal VUnit [] w2 | None => RPanic end
      | None => RPanic
      end.
  Proof.
    intros N. destruct n as [|n]; [lia|].
    assert (M : names_map [] []) by (intros attr _; reflexivity).
    pose proof (fun w => run_dicts n (map d_path dicts) (VStruct "Matches" [("free", VList (map VStr paths))]) program args dicts ltac:(lia) D [] [] [] w M) as R.
    unfold C, gen_cx in *. destruct CL as [A1 A2 A3 A4 A5].
    assert (B : (1 <=? len (VStr program :: map VStr args)) = true) by (unfold len; cbn [length]; lia).
    change (map VStr args) with (skipn (N.to_nat 1) (VStr program :: map VStr args)) in A5.
    plain_step.
    match goal with |- context [EFor (PVar "dict_file_path") ?b ?c] => remember (EFor (PVar "dict_file_path") b c) as loop eqn:E end.
    destruct w as [wr wt].
    repeat (not_named; first [given ans ltac:(first [rewrite A1|rewrite A2|rewrite A3|rewrite A4 |rewrite A5|rewrite H1|rewrite H2]) | step]). 
    match goal with |- context [map_loop ?f (map VStr paths) ?s] => rewrite (map_loop_map VStr v_path f paths s) end.
    2: { intros a. steps. reflexivity. }
    repeat (not_named; step).
    match goal with |- context [filter_loop ?f (map v_path paths) (State ?vars ?w)] =>
      change w with (directed (started false (World wr wt)));
      rewrite (filter_checked there regular f vars paths) end.
    2: { intros q [wr' wt'] I. unfold v_path. cbn [apply_closure].
         repeat first [given ans ltac:(first [rewrite T1 by exact I|rewrite T2 by exact I|rewrite T3 by exact I]) | step].
         all: destruct (there q), (regular q); try discriminate; reflexivity. }
    destruct (checked there regular paths (directed (started false (World wr wt)))) as [[wr1 wt1]|].
    2: { unfold v_path. repeat (not_named; step). reflexivity. }
    specialize (R (World wr1 wt1)).
    assert (G : is_guard loop = false) by (subst loop; reflexivity). 
    unfold v_path in S1. unfold v_path at 1.
    repeat (not_named; first [given ans ltac:(first [rewrite S1]) | step]).
    subst loop. unfold dict_body, main_vars, v_path in R. cbn [map fst snd] in R. unfold v_path in R.
    steps.
    destruct (build [] [] dicts (World wr1 wt1)) as [w2|].
    - destruct R as [[st1 st2] R]. rewrite R. cbn [fst snd]. steps. reflexivity.
    - rewrite R. steps. reflexivity.
  Qed.

  (** ** What the files hold afterwards *)
  (** [create] makes a file empty, [write_all] adds to what it holds; the newest event is first *)
  Fixpoint contents (path : bytes) (tr : list event) : option bytes :=
    match tr with
    | [] => None
    | Event op [VCtor "Path" "Path" [VStr q]] _ :: tr' =>
        if (String.eqb op "File::create" && bytes_eqb q path)%bool then Some [] else contents path tr'
    | Event op [VStr q; VBytes b] _ :: tr' =>
        if (String.eqb op "File::write_all" && bytes_eqb q path)%bool
        then option_map (fun c => c ++ b) (contents path tr') else contents path tr'
    | _ :: tr' => contents path tr'
    end.
  Lemma contents_wrote path q chunks : forall w,
    contents path (w_trace (wrote q chunks w))
    = if bytes_eqb q path then option_map (fun c => c ++ concat chunks) (contents path (w_trace w)) else contents path (w_trace w).
  Proof.
    induction chunks as [|b r IH]; intro w; cbn [wrote concat].
    - destruct (bytes_eqb q path); [|reflexivity]. destruct (contents path (w_trace w)); cbn [option_map]; [|reflexivity]. now rewrite app_nil_r.
    - rewrite IH. cbn [w_trace]. unfold write_event. cbn [contents]. cbn [String.eqb Ascii.eqb Bool.eqb andb].
      destruct (bytes_eqb q path); [|reflexivity]. destruct (contents path (w_trace w)); cbn [option_map]; [|reflexivity]. now rewrite app_assoc.
  Qed.
  Lemma contents_created path q w : contents path (w_trace (created q w)) = if bytes_eqb q path then Some [] else contents path (w_trace w).
  Proof. reflexivity. Qed.
  Lemma contents_read path q lines w : contents path (w_trace (read_events q lines w)) = contents path (w_trace w).
  Proof. reflexivity. Qed.
  Lemma contents_checked there' regular' path l : forall w w', checked there' regular' l w = Some w' -> contents path (w_trace w') = contents path (w_trace w).
  Proof.
    induction l as [|q l IH]; intros w w'; cbn [checked].
    - now injection 1 as <-.
    - destruct (there' q); [|discriminate]. destruct (regular' q); [|discriminate]. intro H. apply IH in H. exact H.
  Qed.
  Lemma contents_started path help w : contents path (w_trace (started help w)) = contents path (w_trace w).
  Proof. reflexivity. Qed.
  Lemma contents_directed path w : contents path (w_trace (directed w)) = contents path (w_trace w).
  Proof. reflexivity. Qed.

  Lemma module_chunks_text earlier names d attrs values :
    match module_chunks U earlier names d attrs values with
    | Some c => exists t, attributes_text U attrs values = Ok t /\
        concat c = utf8_text (header_text earlier (d_name d) (text_lines (d_text d)) ++ t ++ all_values_text U values names)
    | None => attributes_text U attrs values = Panic
    end.
  Proof.
    unfold module_chunks. pose proof (attributes_chunks U values attrs) as A.
    destruct (chunks_of (kind_chunks U values) attrs) as [c|]; [|exact A].
    destruct A as [t [A B]]. exists t. split; [exact A|].
    rewrite !concat_app, B, header_chunks_text, all_values_chunks, !utf8_text_app. reflexivity.
  Qed.
  Lemma build_other path l : (forall d, In d l -> bytes_eqb (file_of (out_name d)) path = false) ->
    forall earlier names w w', build earlier names l w = Some w' -> contents path (w_trace w') = contents path (w_trace w).
  Proof.
    induction l as [|d l IH]; intros H earlier names w w'; cbn [build].
    - now injection 1 as <-.
    - destruct (parse_dict_file od (d_text d)) as [[attrs values]|?| |]; try discriminate.
      destruct (module_chunks U earlier names d attrs values) as [c|]; [|discriminate].
      intro B. apply IH in B; [|intros; apply H; now right]. rewrite B, contents_wrote, contents_created, (H d (or_introl eq_refl)), !contents_read.
      reflexivity.
  Qed.
  Lemma build_contents l : NoDup (map (fun d => file_of (out_name d)) l) ->
    forall earlier names w,
    match generate_texts U od earlier names (map (fun d => (d_name d, d_text d)) l) with
    | Ok ms => exists w', build earlier names l w = Some w' /\
        map fst ms = map d_name l /\
        Forall2 (fun d m => contents (file_of (out_name d)) (w_trace w') = Some (utf8_text (snd m))) l ms
    | _ => build earlier names l w = None
    end.
  Proof.
    induction l as [|d l IH]; intros ND earlier names w; cbn [map generate_texts build].
    - exists w. repeat split. constructor.
    - inversion ND as [|x y NI ND']; subst x y.
      destruct (parse_dict_file od (d_text d)) as [[attrs values]|?| |]; try reflexivity.
      pose proof (module_chunks_text earlier names d attrs values) as M.
      destruct (module_chunks U earlier names d attrs values) as [c|].
      2: { now rewrite M. }
      destruct M as [t [M1 M2]]. rewrite M1. cbn [bind].
      match goal with |- context [build _ _ l ?w'] => set (w1 := w') end.
      specialize (IH ND' (earlier ++ [d_name d]) (rev (map (fun a => (ra_name a, d_name d)) attrs) ++ names) w1).
      destruct (generate_texts U od (earlier ++ [d_name d]) _ _) as [ms|?| |]; cbn [bind]; try exact IH.
      destruct IH as [w' [B [F1 F2]]]. exists w'. split; [exact B|]. split; [cbn [map fst]; now f_equal|].
      constructor; [|exact F2]. cbn [snd].
      erewrite build_other; [| |exact B].
      + unfold w1. rewrite contents_wrote, contents_created, bytes_eqb_refl. cbn [option_map app]. now rewrite M2.
      + intros d' I. destruct (bytes_eqb _ _) eqn:E; [|reflexivity]. apply bytes_eqb_eq in E. exfalso. apply NI. rewrite <- E.
        now apply (in_map (fun d => file_of (out_name d))).
  Qed.
End Main.
