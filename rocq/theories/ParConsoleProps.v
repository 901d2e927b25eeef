(** C102: what a parallel run prints. *)
From Verif Require Import PyStrFacts CaseRunProps RunCaseProofs RunCaseProps ReportsProofs RunnerProofs ReviewProofs ConsoleSpec ConsoleProofs ConsoleProps ParProps ParConsoleModel.
From Verif Require TokenizerProps.
From Coq Require Import Permutation.

(** forgetting the text gives the runs of ParModel *)
Lemma erase_par_review {D} (show_ms : D -> str) parse_dur sp sh E O c order : forall f,
  io_map fst (par_review_out E O c parse_dur sp show_ms sh order f) = par_review E O c parse_dur sp order f.
Proof.
  induction order as [|n order IH]; intros f; [reflexivity|]. cbn [par_review_out par_review].
  destruct (batch_record O parse_dur sp n f) as [[[name res] d]|]; [|reflexivity]. cbv zeta.
  destruct (case_review _ _ _ _ _ _ _) as [[[res' req] ans] f1|f1]; [|reflexivity]. cbn [io_bind]. rewrite <- IH.
  destruct (par_review_out _ _ _ _ _ _ _ _ _) as [[recs t] f2|f2]; reflexivity.
Qed.
(** The run that prints does to the files and returns what the run of ParModel does (C82), whatever is printed. *)
Theorem C102_files_as_modelled cc refloat E O c body {D} (show_dur : D -> str) parse_dur sp show_ms show_nat sh dur all_names printed metrics_of took deps selected f x :
  parallel_run_out cc refloat E O c body show_dur parse_dur sp show_ms show_nat sh dur all_names printed metrics_of took deps selected f x ->
  parallel_run cc refloat E O c body show_dur parse_dur sp dur all_names printed metrics_of (metrics_json took) deps selected f (io_map fst x).
Proof.
  intros (st & g & order & A & B & C & ND & ->). exists st, g, order. split; [exact A|]. split; [exact B|]. split; [exact C|]. split; [exact ND|].
  unfold par_finish_out, par_finish. rewrite <- (erase_par_review show_ms parse_dur sp sh).
  destruct (par_review_out _ _ _ _ _ _ _ _ _) as [[recs t] f2|f2]; reflexivity.
Qed.
Print Assumptions C102_files_as_modelled.

Section Main.
Context {D : Type} (show_dur : D -> str) (parse_dur : str -> option D) (sp : char -> bool).
Variable show_ms : D -> str.
Variable sh : shown.
Variables (E o : str).
Hypothesis HE : plain_dir E.
Hypothesis Ho : plain o.
Notation O := (E ++ SLASH :: o).
Variable c : config.
Hypothesis HB : batch c.
Hypothesis DUR : durations_ok show_dur parse_dur.
Hypothesis SPC : space_ok sp.
Variable durP : str -> D.
Variable names : list str.
Hypothesis Hsep : separate names.
Hypothesis Hfield : forall n, In n names -> field_ok n.

Lemma par_review_text order g res : (forall n, In n order -> In n names /\ auto c (res n) = false /\
    lookup (bdir E o n ++ SLASH :: lit "cases.txt") g = Some (report_text show_dur [(n, res n, durP n)])) ->
  par_review_out E O c parse_dur sp show_ms sh order g =
    Ret (map (fun n => (n, res n, durP n)) order, concat (map (fun n => report_case_text show_ms sh O c n (res n) (durP n) [] g) order)) g.
Proof.
  induction order as [|n order IH]; intros H; [reflexivity|]. cbn [par_review_out map]. destruct (H n (or_introl eq_refl)) as (Hn & AU & L).
  unfold batch_record. rewrite report_eq, L by (try assumption; now apply (a_ne names Hsep)).
  rewrite (of_file_roundtrip show_dur parse_dur sp DUR SPC) by (constructor; [now apply Hfield|constructor]).
  cbn [hd_error]. cbv zeta. rewrite batch_review by exact HB. rewrite AU. cbn [io_bind fst snd]. rewrite IH by (intros m Hm; apply H; now right). reflexivity.
Qed.
End Main.

(** The text of a sequential and of a parallel run of the same tests, which changes no snapshots unless by -a: both print the same heading, then
    the same tests, the parallel run in the order in which they ended; what they print about a test is the same but for the time it
    took, for the name in front of its log (-L), and for tests that were accepted (-a), which the parallel run prints as ok. The
    last lines give the same numbers and name the same tests. *)
Theorem C102_parallel_prints_partial :
  forall cc refloat E o c body (D : Type) (show_dur : D -> str) parse_dur sp show_ms show_nat sh durS durP all_names printed metrics_of tookS tookP names deps
    selected answers f rv recs rest text g,
  TokClassOK cc -> plain_dir E -> plain o -> starts_with [DOT] o = true -> let O := E ++ SLASH :: o in
  batch c -> update c = false -> fail_fast c = false -> durations_ok show_dur parse_dur -> space_ok sp ->
  separate names -> ~ In (lit "output") names ->
  (forall n, In n names -> field_ok n /\ incl (deps n) names /\ reads_deps E O deps n (body n)) ->
  NoDup selected -> incl selected names -> deps_first deps selected -> (forall n, In n names -> ready E O n f) ->
  run_async_out show_dur parse_dur sp show_ms show_nat sh cc refloat E O O c body durS all_names tookS selected answers f = Some (Ret (rv, recs, rest, text) g) ->
  (verbose sh = true -> forall n report, In n selected -> lookup (O ++ SLASH :: n ++ lit ".txt") g = Some report -> ~ In CR report) ->
  forall x, parallel_run_out cc refloat E O c body show_dur parse_dur sp show_ms show_nat sh durP all_names printed metrics_of tookP deps selected f x ->
  exists ran ran' report log short recs' text' h, x = Ret (is_ok rv, recs', text') h /\ Permutation ran ran' /\
    (let told := fun r s res ms => case_shown sh (rc_name r) s (report (rc_name r)) (log (rc_name r)) res ms in
     text = heading_shown ++ concat (map (fun r => told r (short (rc_name r)) (rc_verdict r) (show_ms (durS (rc_name r)))) ran) ++
            summary_shown show_nat (failing ran) (length ran) tookS /\
     text' = heading_shown ++ concat (map (fun r => told r (rc_name r) (rc_result r) (show_ms (durP (rc_name r)))) ran') ++
            summary_shown show_nat (failing ran') (length ran') tookP) /\
    (forall r, In r ran -> (rc_result r = rc_verdict r \/ accept c = true /\ rc_verdict r = DIFF /\ rc_result r = OK) /\
       last_part (rc_name r) (short (rc_name r)) /\ In (rc_name r, rc_result r, durS (rc_name r)) recs /\ In (rc_name r, rc_result r, durP (rc_name r)) recs') /\
    (cont c = false -> map rc_name ran = selected).
Proof.
  intros cc refloat E o c body D show_dur parse_dur sp show_ms show_nat sh durS durP all_names printed metrics_of tookS tookP names deps
    selected answers f rv recs rest text g TOK HE Ho Hdot O HB HU HF DUR SPC SEP NOUT HN ND INS ORD RD H CRS x (st & gp & order & ST & ENDED & OIFF & ONOD & ->).
  pose proof (erase_run show_dur parse_dur sp show_ms show_nat sh cc refloat E O O c body durS all_names tookS selected answers f) as HR.
  rewrite H in HR. cbn [run_map fst] in HR. symmetry in HR.
  destruct (parallel_core cc refloat E o c body D show_dur parse_dur sp durS durP all_names printed metrics_of (metrics_json tookS) names deps
    selected answers f rv recs rest g HE Ho Hdot HB HU HF SEP NOUT HN ND INS ORD (fun n Hn => RD n (INS n Hn)) HR st gp ST ENDED) as (res & IN & TND & RS & ER & EV & SAME & EI).
  fold O in RS, ER, EV, SAME, IN, TND. set (todo := par_todo O c parse_dur sp selected f) in *.
  destruct (run_exact show_dur parse_dur sp show_ms show_nat sh cc refloat E o HE Ho Hdot c HB body durS names SEP all_names tookS selected answers f rv recs rest text g INS ND RD H)
    as (old & ran & blocks & left & E1 & [EL _] & EO & E2 & E3 & E4 & E5 & _ & _ & _ & _). fold O in E1, E3, EO.
  destruct EL as [->|[X _]]; [|congruence]. rewrite app_nil_r in *. change (snd _) with todo in E1.
  assert (EK : old = par_kept O c parse_dur sp selected f).
  { rewrite EO. unfold par_kept. fold todo. rewrite <- E1. reflexivity. }
  assert (RES : forall r, In r ran -> rc_result r = res (rc_name r)).
  { rewrite ER, <- EK in E2. apply app_inv_head in E2. rewrite E1 in E2. clear - E2. induction ran as [|r ran IH]; [intros r []|]. cbn [map] in E2.
    assert (X := f_equal (fun l => match l with x :: _ => Some (rec_result x) | [] => None end) E2). assert (Y := f_equal (@tl _) E2). cbn in X, Y.
    intros r' [<-|Hr]; [now injection X|auto]. }
  assert (PO : Permutation todo order) by (apply NoDup_Permutation; auto; intros n; symmetry; apply OIFF).
  rewrite E1 in PO. destruct (Permutation_map_inv _ _ (Permutation_sym PO)) as (ran' & RO & PR).
  set (report := fun n => match lookup (O ++ SLASH :: n ++ lit ".txt") g with Some t => t | None => [] end).
  set (log := fun n => read_lines (lookup (O ++ SLASH :: n ++ lit ".log") g)).
  assert (Hfield : forall n, In n names -> field_ok n) by (intros n Hn; apply HN; exact Hn).
  exists ran, ran', report, log, (fun n => snd (path_split n)).
  assert (REV := par_review_text show_dur parse_dur sp show_ms sh E o HE Ho c HB DUR SPC durP names SEP Hfield order gp res).
  assert (Hord : forall n, In n order -> In n names /\ auto c (res n) = false /\
    lookup (bdir E o n ++ SLASH :: lit "cases.txt") gp = Some (report_text show_dur [(n, res n, durP n)])).
  { intros n Hn. apply OIFF in Hn. split; [now apply IN|]. now apply RS. }
  specialize (REV Hord). fold O in REV. unfold par_finish_out. rewrite REV. cbn [io_bind]. cbv zeta.
  assert (TEXTS : forall r t, In r ran -> told show_ms sh cc refloat E o c durS g r t ->
    t = case_shown sh (rc_name r) (snd (path_split (rc_name r))) (report (rc_name r)) (log (rc_name r)) (rc_verdict r) (show_ms (durS (rc_name r))) /\
    report_case_text show_ms sh O c (rc_name r) (rc_result r) (durP (rc_name r)) [] gp =
      case_shown sh (rc_name r) (rc_name r) (report (rc_name r)) (log (rc_name r)) (rc_result r) (show_ms (durP (rc_name r)))).
  { intros r t Hr T. destruct (told_text _ _ _ _ _ _ _ _ _ _ _ T) as (s & rp & lg & file & point & ops & A & B & RB & RE & ->).
    assert (Hs : In (rc_name r) todo) by (rewrite E1; now apply in_map). assert (Hn : In (rc_name r) names) by (now apply IN).
    pose proof (names_case names SEP (rc_name r) Hn) as C. fold O in A, B.
    assert (GA : forall x, In x case_exts -> lookup (O ++ SLASH :: rc_name r ++ x) gp = lookup (O ++ SLASH :: rc_name r ++ x) g).
    { intros x Hx. apply SAME. apply (own_not_booked E o Hdot (rc_name r)); [exact C|now apply (not_output names NOUT)|]. apply (own_O E o (rc_name r) x); [exact Hx|apply prefix_refl]. }
    unfold report, log. rewrite A, B. split; [reflexivity|].
    assert (PJ : forall x, path_join O (rc_name r ++ x) = O ++ SLASH :: rc_name r ++ x).
    { intros x. apply path_join_name; [now apply HO|]. pose proof (proper_start _ (proj1 C)) as S. pose proof (proper_nonempty _ (proj1 C)) as NE. destruct (rc_name r); [easy|exact S]. }
    unfold report_case_text. rewrite !PJ, !GA, A, B by (unfold case_exts; cbn [In]; tauto). destruct HB as [B1 B2]. unfold review_text. rewrite B1, B2, andb_false_r. cbn [orb].
    rewrite <- case_text_shown. destruct (verbose sh) eqn:V; [|reflexivity]. rewrite lines_of_read; [reflexivity| |].
    - apply (CRS eq_refl (rc_name r)); [|exact A]. unfold todo, par_todo in Hs. now apply todo_incl in Hs.
    - subst rp. exact (report_ends cc refloat file point ops s TOK RB). }
  assert (TOLD : forall r, In r ran -> exists t, told show_ms sh cc refloat E o c durS g r t).
  { clear - E3. induction E3 as [|r t ran blocks T _ IH]; [intros r []|]. intros r' [<-|Hr]; eauto. }
  eexists. eexists. eexists. split; [|split; [|split; [split|split]]].
  - f_equal. f_equal. f_equal. rewrite EV.
    assert (X : forall l, forallb (fun r => is_ok (rec_result r)) (map (fun n => (n, res n, durP n)) l) = forallb is_ok (map (fun n => res n) l)).
    { induction l as [|n l IH]; [reflexivity|]. cbn [map forallb]. now rewrite IH. }
    rewrite X. assert (P : Permutation (map (fun n => res n) order) (map (fun n => res n) todo)) by (apply Permutation_map; rewrite E1; now symmetry).
    apply Bool.eq_iff_eq_true. rewrite !forallb_forall. split; intros Y r Hr; apply Y; [symmetry in P|]; now apply (Permutation_in _ P).
  - exact PR.
  - rewrite E4. f_equal. f_equal. f_equal. clear - E3 TEXTS. assert (Y : forall r, In r ran -> In r ran) by auto. revert Y. generalize ran at 2 as all. clear -E3 TEXTS.
    intros all Y.
    assert (Z : forall r t, In r ran -> told show_ms sh cc refloat E o c durS g r t ->
      t = case_shown sh (rc_name r) (snd (path_split (rc_name r))) (report (rc_name r)) (log (rc_name r)) (rc_verdict r) (show_ms (durS (rc_name r)))) by (intros r t Hr T; now apply TEXTS).
    clear TEXTS Y. induction E3 as [|r t ran blocks T F IH]; [reflexivity|]. cbn [map]. f_equal; [apply Z; [now left|exact T]|]. apply IH. intros r' t' Hr. apply Z. now right.
  - rewrite end_text_shown, map_length. change (start_text) with heading_shown. f_equal. rewrite RO, map_map.
    assert (IR : forall r, In r ran' -> In r ran) by (intros r Hr; now apply (Permutation_in _ (Permutation_sym PR))).
    f_equal; [f_equal; apply map_ext_in; intros r Hr; destruct (TOLD r (IR r Hr)) as [t T]; rewrite <- (RES r (IR r Hr)); now apply (TEXTS r t (IR r Hr))|].
    rewrite map_length. f_equal. rewrite map_map. clear - RES IR. unfold failed, failing.
    induction ran' as [|r l IH]; [reflexivity|]. cbn [map filter]. unfold not_ok at 1, rec_result at 1. cbn [fst snd]. rewrite <- (RES r (IR r (or_introl eq_refl))).
    specialize (IH (fun r' Hr => IR r' (or_intror Hr))). destruct (rc_result r); cbn [is_ok negb map]; rewrite ?IH; reflexivity.
  - intros r Hr. destruct (TOLD r Hr) as [t T]. pose proof (told_result _ _ _ _ _ _ _ _ _ _ _ T) as TR. split; [|split; [|split]].
    + rewrite TR. unfold auto. rewrite HU. destruct (rc_verdict r); cbn; auto. destruct (accept c); auto.
    + apply last_part_split. assert (Hs : In (rc_name r) todo) by (rewrite E1; now apply in_map). apply (names_case names SEP). now apply IN.
    + rewrite E2. apply in_or_app. right. apply in_map_iff. exists r. split; [reflexivity|exact Hr].
    + apply in_or_app. right. apply in_map_iff. exists (rc_name r). split; [now rewrite <- (RES r Hr)|]. rewrite RO. apply in_map. now apply (Permutation_in _ PR).
  - intros HC. rewrite <- E1. unfold todo, par_todo, cases_to_done_and_todo. rewrite HC. reflexivity.
Qed.
Print Assumptions C102_parallel_prints_partial.

(** ** Examples *)
Notation two_seq sh acc sel :=
  (run_async_out (fun d : str => d) Some (fun c => N.eqb c SP) (fun d => d) dec sh ascii_class no_float demo_E demo_O demo_O (demo_conf acc) demo_body (fun _ => lit "7") sel (lit "12") sel [] demo_f0).
Notation two_par sh acc sel x :=
  (parallel_run_out ascii_class no_float demo_E demo_O (demo_conf acc) demo_body (fun d : str => d) Some (fun c => N.eqb c SP) (fun d => d) dec sh (fun _ => lit "7") sel
    (fun n => n) (fun n => n) (lit "12") (fun _ => []) sel demo_f0 x).

(** The same text is printed: false with -a, even for one test, and with -L for names with a slash. *)
Lemma one_par sh acc n : In n [lit "t/b"; lit "t/a"] -> exists st h, 
  psteps [n] (fun _ => []) (worker ascii_class no_float demo_E demo_O (demo_conf acc) demo_body (fun d : str => d) Some (fun c => N.eqb c SP) (fun _ => lit "7") [n] (fun n => n) (fun n => n),
    par_prepare demo_O (demo_conf acc) (fun d : str => d) Some (fun c => N.eqb c SP) [n] demo_f0) (st, h) /\
  (forall m, In m [n] -> ended (st m)) /\
  h = fst (solo (worker ascii_class no_float demo_E demo_O (demo_conf acc) demo_body (fun d : str => d) Some (fun c => N.eqb c SP) (fun _ => lit "7") [n] (fun n => n) (fun n => n) n)
    (par_prepare demo_O (demo_conf acc) (fun d : str => d) Some (fun c => N.eqb c SP) [n] demo_f0)) /\
  two_par sh acc [n] (par_finish_out demo_E demo_O (demo_conf acc) (fun d : str => d) Some (fun c => N.eqb c SP) (fun d => d) dec sh [n] (lit "12")
    (par_kept demo_O (demo_conf acc) Some (fun c => N.eqb c SP) [n] demo_f0) [n] [n] h).
Proof.
  intros Hn. set (w := worker _ _ _ _ _ _ _ _ _ _ _ _ _). set (f := par_prepare _ _ _ _ _ _ _).
  destruct (solo_steps [n] (fun _ => []) n (or_introl eq_refl) (w n) w f eq_refl) as (st & PS & EN & _); [intros d []|].
  exists st, (fst (solo (w n) f)). assert (EN' : forall m, In m [n] -> ended (st m)) by (intros m [<-|[]]; eexists; exact EN).
  split; [exact PS|]. split; [exact EN'|]. split; [reflexivity|].
  assert (T : par_todo demo_O (demo_conf acc) Some (fun c => N.eqb c SP) [n] demo_f0 = [n]) by reflexivity.
  unfold parallel_run_out. cbv zeta. rewrite T. exists st, (fst (solo (w n) f)), [n]. split; [exact PS|]. split; [exact EN'|]. split; [reflexivity|]. split; [repeat constructor; intros []|].
  reflexivity.
Qed.
Theorem C102_same_text_refuted :
  (exists rv recs rest text g recs' text' h,
    two_seq (shown_demo false false) true [lit "t/b"] = Some (Ret (rv, recs, rest, text) g) /\ two_par (shown_demo false false) true [lit "t/b"] (Ret (is_ok rv, recs', text') h) /\
    text = lines_text [[]; lit "# test results:"; []; lit "  t/b..DIFFERED in 7 ms"; []; lit "1/1 test succeeded in 12 ms"; []] /\
    text' = lines_text [[]; lit "# test results:"; []; lit "  t/b..7 ms"; []; lit "1/1 test succeeded in 12 ms"; []]) /\
  (exists rv recs rest text g recs' text' h,
    two_seq (shown_demo false true) false [lit "t/a"] = Some (Ret (rv, recs, rest, text) g) /\ two_par (shown_demo false true) false [lit "t/a"] (Ret (is_ok rv, recs', text') h) /\
    text = lines_text [[]; lit "# test results:"; []; lit "  t/a.."; lit "    log: log"; lit "  a..7 ms"; []; lit "1/1 test succeeded in 12 ms"; []] /\
    text' = lines_text [[]; lit "# test results:"; []; lit "  t/a.."; lit "    log: log"; lit "  t/a..7 ms"; []; lit "1/1 test succeeded in 12 ms"; []]).
Proof.
  split.
  - destruct (one_par (shown_demo false false) true (lit "t/b") ltac:(cbn [In]; tauto)) as (st & h & _ & _ & EH & P). subst h.
    do 8 eexists. split; [vm_compute; reflexivity|]. split; [match type of P with parallel_run_out _ _ _ _ _ _ _ _ _ _ _ _ _ _ _ _ _ _ _ _ ?X => let Y := eval vm_compute in X in assert (EX : X = Y) by (vm_compute; reflexivity) end; rewrite EX in P; exact P|].
    split; vm_compute; reflexivity.
  - destruct (one_par (shown_demo false true) false (lit "t/a") ltac:(cbn [In]; tauto)) as (st & h & _ & _ & EH & P). subst h.
    do 8 eexists. split; [vm_compute; reflexivity|]. split; [match type of P with parallel_run_out _ _ _ _ _ _ _ _ _ _ _ _ _ _ _ _ _ _ _ _ ?X => let Y := eval vm_compute in X in assert (EX : X = Y) by (vm_compute; reflexivity) end; rewrite EX in P; exact P|].
    split; vm_compute; reflexivity.
Qed.
Print Assumptions C102_same_text_refuted.

(** The hypotheses of C102_parallel_prints_partial are met by two tests of which the second uses the value of the first, and a parallel run exists. *)
Example C102_example : forall v, exists rv recs rest text g x,
  run_async_out (fun _ : unit => lit "7") (fun _ => Some tt) (fun c => N.eqb c SP) (fun _ => lit "7") dec (shown_demo v false) ascii_class no_float demo_E demo_O demo_O (demo_conf false)
    demo_using (fun _ => tt) demo_two (lit "12") demo_two [] demo_f0 = Some (Ret (rv, recs, rest, text) g) /\
  parallel_run_out ascii_class no_float demo_E demo_O (demo_conf false) demo_using (fun _ : unit => lit "7") (fun _ => Some tt) (fun c => N.eqb c SP) (fun _ => lit "7") dec (shown_demo v false)
    (fun _ => tt) demo_two (fun n => n) (fun n => n) (lit "11") demo_deps demo_two demo_f0 x /\
  (forall n report, In n demo_two -> lookup (demo_O ++ SLASH :: n ++ lit ".txt") g = Some report -> ~ In CR report) /\
  exists ran ran' recs' text' h, x = Ret (is_ok rv, recs', text') h /\ Permutation ran ran' /\ map rc_name ran = demo_two /\ length (failing ran') = 1.
Proof.
  intros v.
  assert (S : exists rv recs rest text g, run_async_out (fun _ : unit => lit "7") (fun _ => Some tt) (fun c => N.eqb c SP) (fun _ => lit "7") dec (shown_demo v false) ascii_class no_float demo_E demo_O demo_O (demo_conf false)
      demo_using (fun _ => tt) demo_two (lit "12") demo_two [] demo_f0 = Some (Ret (rv, recs, rest, text) g) /\
    map (fun r => (rec_name r, rec_result r)) recs = [(lit "t/a", OK); (lit "t/b", DIFF)] /\
    (forall n report, In n demo_two -> lookup (demo_O ++ SLASH :: n ++ lit ".txt") g = Some report -> ~ In CR report)).
  { destruct v; (do 5 eexists; split; [vm_compute; reflexivity|split; [vm_compute; reflexivity|]]; intros n report [<-|[<-|[]]] X; vm_compute in X; injection X as <-; vm_compute; intuition discriminate). }
  destruct S as (rv & recs & rest & text & g & S & SR & NC).
  assert (P : exists x, parallel_run_out ascii_class no_float demo_E demo_O (demo_conf false) demo_using (fun _ : unit => lit "7") (fun _ => Some tt) (fun c => N.eqb c SP) (fun _ => lit "7") dec (shown_demo v false)
    (fun _ => tt) demo_two (fun n => n) (fun n => n) (lit "11") demo_deps demo_two demo_f0 x).
  { unfold parallel_run_out. cbv zeta. unfold par_todo. set (old := of_file _ _ _). change (cont (demo_conf false)) with false. set (f := par_prepare _ _ _ _ _ _ _).
    set (w := worker _ _ _ _ _ _ _ _ _ _ _ _ _).
    destruct (C82_parallel_run_ends result unit old false demo_deps demo_two demo_NoDup demo_first w f) as (_ & st & h & PS & AL).
    eexists. exists st, h, demo_two. split; [exact PS|]. split; [exact AL|]. split; [intros n; reflexivity|]. split; [exact demo_NoDup|reflexivity]. }
  destruct P as [x P]. exists rv, recs, rest, text, g, x. split; [exact S|]. split; [exact P|]. split; [exact NC|].
  destruct (C102_parallel_prints_partial ascii_class no_float demo_E demo_o (demo_conf false) demo_using unit (fun _ : unit => lit "7") (fun _ => Some tt) (fun c => N.eqb c SP) (fun _ => lit "7") dec (shown_demo v false)
    (fun _ => tt) (fun _ => tt) demo_two (fun n => n) (fun n => n) (lit "12") (lit "11") demo_two demo_deps demo_two [] demo_f0 rv recs rest text g TokenizerProps.ascii_TokClassOK
    (proj1 demo_dirs) (proj1 (proj2 demo_dirs)) eq_refl (demo_conf_batch false) eq_refl eq_refl demo_durations demo_space
    demo_separate demo_not_output demo_tests demo_NoDup (incl_refl _) demo_first demo_ready S (fun _ => NC) x P) as (ran & ran' & report & log & short & recs' & text' & h & EX & PR & _ & RR & AL).
  exists ran, ran', recs', text', h. split; [exact EX|]. split; [exact PR|]. pose proof (AL eq_refl) as AL'. split; [exact AL'|].
  unfold failing. rewrite map_length. 
  assert (PF : Permutation (map not_ok ran) (map not_ok ran')) by now apply Permutation_map.
  assert (FL : forall l, length (filter not_ok l) = length (filter (fun b => b) (map not_ok l))).
  { induction l as [|r l IH]; [reflexivity|]. cbn [filter map]. destruct (not_ok r); cbn [length]; now rewrite IH. }
  assert (FP : forall a b : list bool, Permutation a b -> length (filter (fun b => b) a) = length (filter (fun b => b) b)).
  { induction 1 as [|y a b Q IH|y z a|a b d Q IH Q' IH']; [reflexivity| | |congruence]; cbn [filter]; [destruct y; cbn [length]; now rewrite IH|destruct y, z; reflexivity]. }
  rewrite FL, <- (FP _ _ PF), <- FL.
  destruct ran as [|r1 [|r2 [|r3 ran]]]; try discriminate AL'. injection AL' as N1 N2.
  assert (IR : forall r, In r [r1; r2] -> In (rc_name r, rc_result r) [(lit "t/a", OK); (lit "t/b", DIFF)]).
  { intros r Hr. destruct (RR r Hr) as (_ & _ & I & _). rewrite <- SR. apply in_map_iff. exists (rc_name r, rc_result r, tt). split; [reflexivity|exact I]. }
  pose proof (IR r1 (or_introl eq_refl)) as I1. pose proof (IR r2 (or_intror (or_introl eq_refl))) as I2. rewrite N1 in I1. rewrite N2 in I2.
  cbn [filter]. unfold not_ok. destruct I1 as [I1|[I1|[]]]; [|discriminate I1]. destruct I2 as [I2|[I2|[]]]; [discriminate I2|].
  injection I1 as <-. injection I2 as <-. reflexivity.
Qed.
