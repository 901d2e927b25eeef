(** C123: the exit status of the command booktest. *)
From Verif Require Import CaseRunProps PyStrFacts FsFacts ReviewSpec ReviewProps FormatProofs FormatProps RunnerProofs SelectProofs SelectProps ReportsProofs ReportsProps
  RunCaseProofs RunCaseProps ConsoleProofs ConsoleProps CommandsSpec CommandsProofs CommandsProps MainModel.
From Verif Require ConfigModel.
From Coq Require Import Lia ZArith.

(** *** Any sequential run, with or without questions to the user *)
Lemma interact_rest res : forall answers req rest, interact res answers = Some (req, rest) -> incl rest answers /\ (req = ABORT -> In (lit "q") answers).
Proof.
  induction answers as [|a answers IH]; intros req rest; cbn [interact]; [discriminate|].
  destruct (str_eqb a (lit "a") && negb (is_fail res)); [intros [= <- <-]; split; [now apply incl_tl, incl_refl|discriminate]|].
  destruct (str_eqb a (lit "c")); [intros [= <- <-]; split; [now apply incl_tl, incl_refl|discriminate]|].
  destruct (str_eqb_spec a (lit "q")) as [->|_]; [intros [= <- <-]; split; [now apply incl_tl, incl_refl|now left]|].
  intros H. apply IH in H as [H1 H2]. split; [now apply incl_tl|]. intros E. right. auto.
Qed.
Lemma review_rest E O n res c answers f res' req rest g : case_review E O n res c answers f = Ret (res', req, rest) g -> incl rest answers /\ (req = ABORT -> In (lit "q") answers).
Proof.
  unfold case_review. destruct (_ || _).
  - destruct (interact res answers) as [[rq rs]|] eqn:I; [|discriminate]. apply interact_rest in I.
    destruct (_ || _); [unfold io_bind; destruct (freeze_case _ _ _ _); [|discriminate]|]; intros [= <- <- <- <-]; exact I.
  - destruct (_ || _); [unfold io_bind; destruct (freeze_case _ _ _ _); [|discriminate]|]; intros [= <- <- <- <-]; (split; [apply incl_refl|discriminate]).
Qed.
Lemma case_rest cc refloat E O c body n answers f res req rest g : run_case cc refloat E O c body n answers f = Some (Ret (res, req, rest) g) -> incl rest answers /\ (req = ABORT -> In (lit "q") answers).
Proof.
  unfold run_case. unfold run_bind at 1. destruct (case_start E O n f) as [snapshot f1|f1]; [|discriminate]. cbv zeta.
  destruct (run_body _ _ _ _ _) as [s|]; [|discriminate]. unfold run_bind.
  destruct (case_review _ _ _ _ _ _ _) as [[[res' req'] rest'] f3|f3] eqn:CR; [|discriminate]. apply review_rest in CR.
  destruct res'; [unfold io_bind; destruct (save_value _ _ _ _); [|discriminate]| |unfold io_bind; destruct (save_value _ _ _ _); [|discriminate]]; intros [= <- <- <- <-]; exact CR.
Qed.

Lemma todo_any {D} (show_dur : D -> str) cc refloat E O R c body dur : forall todo rv fails recs answers f rv' recs' rest g,
  run_todo cc refloat E O R c body show_dur dur todo rv fails recs answers f = Some (Ret (rv', recs', rest) g) ->
  (fails = true -> rv <> OK) ->
  exists ran left, todo = map rec_name ran ++ left /\ recs' = recs ++ ran /\ (rv' = OK <-> rv = OK /\ Forall (fun r => rec_result r = OK) ran) /\
    (left = [] \/ rv' <> OK \/ In (lit "q") answers) /\ (ran = [] -> g = f) /\ (ran <> [] -> lookup (report_file R) g = Some (report_text show_dur recs')).
Proof.
  induction todo as [|n todo IH]; intros rv fails recs answers f rv' recs' rest g; cbn [run_todo].
  - intros [= <- <- <- <-] _. exists [], []. split; [reflexivity|]. split; [now rewrite app_nil_r|]. split; [intuition|]. split; [now left|]. split; [reflexivity|congruence].
  - unfold run_bind. destruct (run_case _ _ _ _ _ _ _ _ _) as [[[[res req] answers1] f1|f1]|] eqn:RC; [|discriminate|discriminate]. apply case_rest in RC as [IR AB].
    cbv zeta. destruct (is_abort req || (fail_fast c && (fails || negb (is_ok res)))) eqn:STOP.
    + intros [= <- <- <- <-] FA. exists [(n, res, dur n)], todo. split; [reflexivity|]. split; [reflexivity|]. split; [rewrite ConsoleProps.add_ok; split; intros [X Y]; (split; [exact X|]); [repeat constructor; exact Y|now inversion Y]|].
      split; [|split; [discriminate|intros _; now rewrite lookup_write, str_eqb_refl]]. right. apply orb_true_iff in STOP as [A|A]; [right; apply AB; now destruct req|].
      left. apply andb_true_iff in A as [_ A]. rewrite ConsoleProps.add_ok. intros [X Y]. apply orb_true_iff in A as [A|A]; [now apply (FA A)|]. now rewrite Y in A.
    + intros H FA. apply IH in H as (ran & left & -> & -> & OKI & LF & G0 & G1).
      2: { intros X. rewrite ConsoleProps.add_ok. intros [Y Z]. apply orb_true_iff in X as [X|X]; [now apply (FA X)|now rewrite Z in X]. }
      exists ((n, res, dur n) :: ran), left. split; [reflexivity|]. split; [now rewrite <- app_assoc|].
      split; [rewrite OKI, ConsoleProps.add_ok; split; [intros [[X Y] Z]; split; [exact X|now constructor]|intros [X Y]; inversion Y; subst; auto]|].
      split; [destruct LF as [LF|[LF|LF]]; auto|]. split; [discriminate|]. intros _. destruct ran as [|r ran]; [|now apply G1].
      rewrite (G0 eq_refl), lookup_write, str_eqb_refl, app_nil_r. reflexivity.
Qed.

Section Main.
Context {D : Type} (show_dur : D -> str) (parse_dur : str -> option D) (sp : char -> bool).
Variable show_ms : D -> str.
Variable show_nat : nat -> str.
Variable read_took : str -> option str.
Variable cc : CharClass.
Variable refloat : str -> option str.
Variable o : objects.
Variable fuel : nat.
Variable body : ConfigModel.config -> str -> fs -> body_run.
Variable dur : str -> D.
Variable took : str.
Variable shell : str -> fs -> str * Z.
Variable parallel_run : list (str * meth) -> str -> ConfigModel.config -> list str -> list str -> fs -> run (option Z * str).
Context {G : Type}.
Variable walk : str -> walked meth G.
Let booktest := main show_dur parse_dur sp show_ms show_nat read_took cc refloat o fuel body dur took shell parallel_run walk.

(** the configuration, the tests and the directory that the command works with *)
Definition works_with environ (p : ConfigModel.flags) f c tests root : Prop :=
  exists c0 s, ConfigModel.get_default_config cc None f environ = Some c0 /\ setup_test_suite cc c0 walk = Some (tests, s) /\ books_dir c0 = Some root /\
    c = ConfigModel.put_all (ConfigModel.flag_settings p) c0.
Definition accepted (tests : list (str * meth)) (args : list str) : Prop := forall a, In a args -> In a (ConfigModel.test_choices (map fst tests)).
(** the test cases of the command line *)
Definition given (args : list str) : option (list str) := match args with [] => None | _ => Some args end.

Lemma booktest_inv environ p args cmd answers f c tests root : works_with environ p f c tests root -> accepted tests args ->
  booktest environ p args cmd answers f =
  match exec_parsed show_dur parse_dur sp show_ms show_nat read_took cc refloat o tests fuel body dur took shell (parallel_run tests root) root c (given args) cmd answers f with
  | None => None
  | Some (Raise g) => Some (1%Z, [], g)
  | Some (Ret (s, text) g) => Some (exit_status s, text, g)
  end.
Proof.
  intros (c0 & s & E1 & E2 & E3 & ->) A. unfold booktest, main. rewrite E1, E2, E3.
  assert (forallb (fun a => str_mem a (ConfigModel.test_choices (map fst tests))) args = true) as ->.
  { apply forallb_forall. intros a I. now apply str_mem_In, A. }
  unfold invoke. unfold ConfigModel.exec_config, ConfigModel.get_default_config. reflexivity.
Qed.

Lemma ends_differently d d' x y : x <> [] -> y <> [] -> starts_with [SLASH] x = false -> starts_with [SLASH] y = false -> last x 0%N <> last y 0%N -> str_eqb (path_join d x) (path_join d' y) = false.
Proof.
  assert (L : forall d x, x <> [] -> starts_with [SLASH] x = false -> last (path_join d x) 0%N = last x 0%N).
  { clear. intros d x NE SL. unfold path_join. rewrite SL.
    assert (A : forall a b : str, b <> [] -> last (a ++ b) 0%N = last b 0%N).
    { clear. intros a b NE. induction a as [|c a IH]; [reflexivity|]. cbn [app last]. destruct (a ++ b) eqn:E; [|now rewrite <- IH]. apply app_eq_nil in E as [_ ->]. congruence. }
    destruct (match d with [] => true | _ => ends_with [SLASH] d end); [now apply A|]. rewrite app_assoc. now apply A. }
  intros X Y SX SY NE. apply str_eqb_neq. intros E. apply NE. rewrite <- (L d x X SX), <- (L d' y Y SY). now rewrite E.
Qed.

(** The status of a sequential run is 0 exactly if all records that the run adds to the report are OK; otherwise, unless there was an exception, it is 255. With status 0, every test that was asked for, and
    everything they need that had no result yet, was run, or, with -c, was OK by the report that was there before - unless the user has typed q. *)
Theorem C123_run_partial environ p args answers f c tests root status text g :
  works_with environ p f c tests root -> accepted tests args -> NoDup (map fst tests) -> ConfigModel.is_parallel c = false ->
  booktest environ p args CRun answers f = Some (status, text, g) ->
  let report := path_join (path_join root (lit ".out")) (lit "cases.txt") in let old := of_file parse_dur sp (lookup report f) in
  status = 1%Z \/
  exists keeps ran, lookup report g = Some (report_text show_dur (keeps ++ ran)) /\ incl keeps old /\
    (status = 0%Z <-> Forall (fun r => rec_result r = OK) ran) /\ (status = 0%Z \/ status = 255%Z) /\
    (status = 0%Z -> ~ In (lit "q") answers -> forall sel n, selection_of c (given args) = Some sel -> In n (map fst tests) -> is_selected n sel = true ->
       forall m, m = n \/ needs_trans o tests sel (stored root c f) n m ->
         (exists r, In r ran /\ rec_name r = m /\ rec_result r = OK) \/
         cont (run_config c) = true /\ exists r l, by_name m old = r :: l /\ rec_result r = OK).
Proof.
  intros W A ND NP. rewrite (booktest_inv environ p args CRun answers f c tests root W A). intros H. cbv zeta.
  unfold exec_parsed in H. destruct (chosen parse_dur sp o tests fuel root c (given args) f) as [[[cases todo]|]|] eqn:CH; [|injection H as <- _ _; now left|discriminate].
  rewrite NP in H. pose proof (erase_run show_dur parse_dur sp show_ms show_nat (shown_config show_nat c) cc refloat root (out_of_root root) (out_of_root root) (run_config c) (body c) dur (all_names tests) took cases answers f) as ER.
  unfold run_bind in H. destruct (run_async_out _ _ _ _ _ _ _ _ _ _ _ _ _ _ _ _ _ _ _) as [[[[[rv recs] rest] t1] h1|h1]|] in H, ER; [|injection H as <- _ _; now left|discriminate].
  injection H as <- <- <-. right. cbn [run_map fst] in ER. symmetry in ER. unfold run_async in ER. cbv zeta in ER.
  unfold chosen in CH. destruct (selection_of c (given args)) as [sel|] eqn:SEL; [|discriminate]. destruct (selected_names o tests fuel sel (stored root c f)) as [l|] eqn:SN; [|discriminate].
  injection CH as -> TD. change (on (lit "continue") c) with (cont (run_config c)) in TD. set (report := report_file (out_of_root root)) in *. change (path_join (path_join root (lit ".out")) (lit "cases.txt")) with report.
  set (old := of_file parse_dur sp (lookup report f)) in *. rewrite TD in ER.
  destruct (run_todo _ _ _ _ _ _ _ _ _ _ _ _ _ _ _) as [[[[rv1 recs1] ans1] h|h]|] eqn:RT in ER; [|discriminate|discriminate]. unfold run_bind in ER. injection ER as -> -> -> <-.
  apply todo_any in RT as (ran & left & TL & -> & OKI & LF & G0 & G1); [|discriminate].
  exists (kept old todo), ran. split; [|split; [intros r Hr; now apply filter_In in Hr|]].
  { unfold report, report_file. rewrite !lookup_write, !ends_differently; try (vm_compute; discriminate || reflexivity).
    destruct ran as [|r ran]; [|now apply G1]. rewrite (G0 eq_refl). unfold report_file. rewrite lookup_write, str_eqb_refl, app_nil_r. reflexivity. }
  match goal with |- (?s = 0%Z <-> _) /\ _ => assert (STS : s = if is_ok rv then 0%Z else 255%Z) by now destruct rv end. rewrite STS.
  assert (RO : is_ok rv = true <-> Forall (fun r => rec_result r = OK) ran) by (destruct rv; cbn [is_ok]; intuition discriminate).
  split; [rewrite <- RO; destruct (is_ok rv); intuition discriminate|]. split; [destruct (is_ok rv); auto|].
  intros Z0 NQ sel' n [= <-] IN IS m HM. assert (OKR : rv = OK) by (destruct rv; [reflexivity|discriminate|discriminate]).
  destruct LF as [->|[X|X]]; [|congruence|contradiction]. rewrite app_nil_r in TL.
  assert (IC : In m cases) by (apply (C28_run_list_any_fuel o tests fuel sel (stored root c f) cases ND SN); eauto).
  assert (DEC : In m todo \/ (cont (run_config c) = true /\ exists r l, by_name m old = r :: l /\ rec_result r = OK)).
  { rewrite <- TD, todo_list. destruct (cont (run_config c)); [|left; split; [exact IC|discriminate]].
    destruct (by_name m old) as [|r l] eqn:BN; [left; split; [exact IC|intros _ (r & l & X & _); discriminate]|].
    destruct (rec_result r) eqn:RR; [right; eauto| |]; left; (split; [exact IC|]); intros _ (r' & l' & X & Y); injection X as <- <-; congruence. }
  destruct DEC as [IT|DONE]; [left|right; exact DONE]. rewrite TL in IT. apply in_map_iff in IT as (r & ER & IR). exists r. split; [exact IR|]. split; [exact ER|].
  apply OKI in OKR as [_ OKR]. rewrite Forall_forall in OKR. now apply OKR.
Qed.

(** In batch mode also what is printed: status 0 after a sequential run that was asked for these tests means that every one of them, and everything they need that had no result yet,
    was run and was OK, or, with -c, was OK by the report that was there before; otherwise, unless there was an exception, it is 255, and one of the tests that were run was not OK. *)
Theorem C123_run_prints environ p args answers f c tests root status text g :
  works_with environ p f c tests root -> accepted tests args -> project root tests -> Forall (fun n => ~ In NL n) (map fst tests) -> batch (run_config c) -> ConfigModel.is_parallel c = false ->
  all_ready root (lit ".out") (map fst tests) f ->
  booktest environ p args CRun answers f = Some (status, text, g) ->
  status = 1%Z \/
  exists ran blocks, text = heading_shown ++ concat blocks ++ summary_shown show_nat (failing ran) (length ran) took /\
    (status = 0%Z <-> failing ran = []) /\ (status = 0%Z \/ status = 255%Z) /\
    (status = 0%Z -> forall sel n, selection_of c (given args) = Some sel -> In n (map fst tests) -> is_selected n sel = true ->
       forall m, m = n \/ needs_trans o tests sel (stored root c f) n m -> 
         (exists r, In r ran /\ rc_name r = m /\ rc_result r = OK) \/
         cont (run_config c) = true /\ exists r l, by_name m (of_file parse_dur sp (lookup (root ++ SLASH :: lit ".out/cases.txt") f)) = r :: l /\ rec_result r = OK).
Proof.
  intros W A PR NN B NP AR. rewrite (booktest_inv environ p args CRun answers f c tests root W A).
  destruct (exec_parsed _ _ _ _ _ _ _ _ _ _ _ _ _ _ _ _ _ _ _ _ _ _) as [[[s t] h|h]|] eqn:E; [|intros [= <- <- <-]; now left|discriminate]. intros [= <- <- <-]. right.
  assert (CL : exists cases todo, exec_parsed show_dur parse_dur sp show_ms show_nat read_took cc refloat o tests fuel body dur took shell (parallel_run tests root) root c (given args) CList answers f = Some (Ret (Some 0%Z, listing todo) f)
     /\ chosen parse_dur sp o tests fuel root c (given args) f = Some (Some (cases, todo))).
  { unfold exec_parsed in *. destruct (chosen parse_dur sp o tests fuel root c (given args) f) as [[[cases todo]|]|]; [|discriminate|discriminate]. exists cases, todo. split; reflexivity. }
  destruct CL as (cases & todo & CL & CH).
  destruct (C87_list_is_what_runs show_dur parse_dur sp show_ms show_nat read_took cc refloat o tests fuel dur took shell (parallel_run tests root) root body c (given args) answers f _ _ _ PR CL) as (L & EL & _ & _ & _ & IL & _ & _ & RUN).
  destruct (RUN _ _ _ _ B NP AR E) as (ran & blocks & left & ELL & LEFT & _ & ET & ES). exists ran, blocks. split; [exact ET|].
  assert (STS : exit_status s = match failing ran with [] => 0 | _ => 255 end%Z) by (rewrite ES; now destruct (failing ran)).
  split; [rewrite STS; destruct (failing ran); split; congruence|]. split; [rewrite STS; destruct (failing ran); auto|].
  intros Z0 sel n SEL IN IS m HM. rewrite STS in Z0.
  assert (FN : failing ran = []) by (destruct (failing ran); [reflexivity|discriminate]). clear Z0 STS.
  destruct LEFT as [->|[_ N]]; [|congruence]. rewrite app_nil_r in ELL.
  assert (ND : NoDup (map fst tests)) by apply PR.
  destruct (chosen_some parse_dur sp o tests fuel root (proj1 PR) ND c (given args) f cases todo CH) as (sel' & SEL' & SN & TD & _ & IC' & TI). rewrite SEL in SEL'. injection SEL' as <-.
  assert (IC : In m cases) by (apply (C28_run_list_any_fuel o tests fuel sel (stored root c f) cases ND SN); eauto).
  assert (L = todo) as ->.
  { apply listing_inj; [| |now symmetry]; rewrite Forall_forall in *; intros x I; apply NN; [now apply IL|].
    now apply IC', TI. }
  assert (PA : outputs root ++ SLASH :: lit "cases.txt" = root ++ SLASH :: lit ".out/cases.txt") by (unfold outputs; now rewrite <- app_assoc).
  rewrite <- PA. set (old := of_file parse_dur sp _) in TD |- *.
  assert (DEC : In m todo \/ (cont (run_config c) = true /\ exists r l, by_name m old = r :: l /\ rec_result r = OK)).
  { rewrite TD, todo_list. destruct (cont (run_config c)); [|left; split; [exact IC|discriminate]].
    destruct (by_name m old) as [|r l] eqn:BN; [left; split; [exact IC|intros _ (r & l & X & _); discriminate]|].
    destruct (rec_result r) eqn:RR; [right; eauto| |]; left; (split; [exact IC|]); intros _ (r' & l' & X & Y); injection X as <- <-; congruence. }
  destruct DEC as [IT|DONE]; [left|right; exact DONE].
  rewrite ELL in IT. apply in_map_iff in IT as (r & ER & IR). exists r. split; [exact IR|]. split; [exact ER|].
  unfold failing in FN. destruct (rc_result r) eqn:RR; [reflexivity| |]; exfalso; apply (in_nil (a := rc_name r)); rewrite <- FN; apply in_map, filter_In; (split; [exact IR|]); unfold not_ok; now rewrite RR.
Qed.

(** Arguments that are not a test, not a directory above one, not skip: of those and not * end with status 2, and nothing is changed. *)
Theorem C123_rejected environ p args cmd answers f c tests root : works_with environ p f c tests root -> ~ accepted tests args ->
  booktest environ p args cmd answers f = Some (2%Z, [], f).
Proof.
  intros (c0 & s & E1 & E2 & E3 & ->) A. unfold booktest, main. rewrite E1, E2.
  destruct (forallb _ args) eqn:F; [|reflexivity]. elim A. rewrite forallb_forall in F. intros a I. now apply str_mem_In, F.
Qed.

(** When there is no configuration, no suite of tests or no directory of books to work with, the command ends with status 1 (or 2,
    when it gets as far as its arguments, and does not accept them), prints nothing and changes nothing. *)
Theorem C123_broken environ p args cmd answers f : (forall c tests root, ~ works_with environ p f c tests root) ->
  exists status, booktest environ p args cmd answers f = Some (status, [], f) /\
    (status = 1%Z \/ status = 2%Z /\ exists c0 tests s, ConfigModel.get_default_config cc None f environ = Some c0 /\ setup_test_suite cc c0 walk = Some (tests, s) /\ ~ accepted tests args).
Proof.
  intros N. unfold booktest, main. destruct (ConfigModel.get_default_config cc None f environ) as [c0|] eqn:E1; [|eauto].
  destruct (setup_test_suite cc c0 walk) as [[tests s]|] eqn:E2; [|eauto]. destruct (forallb _ args) eqn:F.
  - destruct (books_dir c0) as [root|] eqn:E3; [|eauto]. elim (N (ConfigModel.put_all (ConfigModel.flag_settings p) c0) tests root). exists c0, s. now rewrite E1.
  - exists 2%Z. split; [reflexivity|]. right. split; [reflexivity|]. exists c0, tests, s. split; [reflexivity|]. split; [exact E2|]. intros A. rewrite <- not_true_iff_false in F. apply F.
    apply forallb_forall. intros a I. apply str_mem_In. exact (A a I).
Qed.

(** The other commands. Of --view the process tells only whether the viewer was killed by a signal: os.system returns 256 times its exit status. *)
Theorem C123_commands_partial environ p args cmd answers f c tests root status text g :
  works_with environ p f c tests root -> accepted tests args ->
  booktest environ p args cmd answers f = Some (status, text, g) ->
  match cmd with
  | CConfig | CGarbage | CPrint | CPath | CClean | CList | CForget => status = 0%Z \/ status = 1%Z
  | CReview => status = 1%Z \/
      exists new, lookup (path_join (path_join root (lit ".out")) (lit "cases.txt")) g = Some (report_text show_dur new) /\
        (status = 0%Z <-> Forall (fun r => rec_result r = OK) new) /\ (status = 0%Z \/ status = 255%Z)
  | CView => status = 0%Z \/ status = 1%Z \/
      exists viewer files, ConfigModel.dget (lit "md_viewer") c = Some viewer /\ files <> [] /\ (forall x, In x files -> path_exists x f = true) /\
        status = (snd (shell (ConfigModel.show_cval show_nat viewer ++ [SP] ++ join_with [SP] files) f) mod 256)%Z
  | CRun => True
  end.
Proof.
  intros W A. rewrite (booktest_inv environ p args cmd answers f c tests root W A). clear W A.
  destruct (exec_parsed _ _ _ _ _ _ _ _ _ _ _ _ _ _ _ _ _ _ _ _ _ _) as [[[s t] h|h]|] eqn:E; [|intros [= <- <- <-]; now destruct cmd; auto|discriminate]. intros [= <- <- <-].
  unfold exec_parsed in E. destruct (chosen _ _ _ _ _ _ _ _ _) as [[[cases todo]|]|]; [|discriminate|discriminate]. unfold says in E.
  destruct cmd; try (injection E as <- _ _; left; reflexivity); [| |exact I].
  - destruct (filter (fun p0 => path_exists p0 f) (map (shot root) cases)) as [|x l] eqn:FI; [injection E as <- _ _; left; reflexivity|].
    unfold run_tool in E. destruct (ConfigModel.dget (lit "md_viewer") c) as [v|] eqn:V; [|injection E as <- _ _; right; left; reflexivity].
    destruct (shell (ConfigModel.show_cval show_nat v ++ [SP] ++ join_with [SP] (x :: l)) f) as [t0 s0] eqn:SH. injection E as <- _ _. right. right. exists v, (x :: l). split; [reflexivity|]. split; [discriminate|].
    split; [intros y I; rewrite <- FI in I; now apply filter_In in I|]. now rewrite SH.
  - injection E as E. unfold io_bind in E. destruct (review_out _ _ _ _ _ _ _ _ _ _ _ _ _ _) as [[ok t1] f1|f1] eqn:RO; [|discriminate]. injection E as <- _ <-. right.
    assert (RV : review show_dur parse_dur sp root (out_of_root root) (run_config c) None (Some cases) answers f = Ret ok f1).
    { rewrite <- (erase_review show_dur parse_dur sp show_ms show_nat read_took (shown_config show_nat c)); [now rewrite RO|].
      intros m M N. unfold review_out in RO. rewrite M, N in RO. discriminate. }
    destruct (C26_review_command _ _ _ _ _ _ _ _ _ _ _ _ _ RV) as (new & os & LK & _ & _ & _ & _ & OKN & _). exists new. split; [exact LK|]. cbn [fst]. split; [|destruct ok; auto].
    rewrite <- OKN. destruct ok; split; intros H; try reflexivity; discriminate H.
Qed.
End Main.
Print Assumptions C123_run_partial.
Print Assumptions C123_run_prints.
Print Assumptions C123_rejected.
Print Assumptions C123_broken.
Print Assumptions C123_commands_partial.

(** *** Examples *)
Definition main_walk (p : str) : walked meth nat :=
  if str_eqb p (lit "test") then [(lit "test", [(lit "a_test.py", ([(lit "test_x", MFunc (Fn 1)); (lit "test_y", MFunc (Fn 2))], []))])] else [].
Definition main_tests : list (str * meth) := [(lit "test/a/x", Fn 1); (lit "test/a/y", Fn 2)].
Definition main_objects : objects := {| o_deps := fun _ => []; o_resources := fun _ => []; o_self_type := fun _ => None; o_isinstance := fun _ _ => false |}.
Definition main_body (name : str) (f : fs) : body_run :=
  {| b_ops := [OTln (lit "hello")]; b_exc := None; b_files := []; b_tmp := []; b_log := []; b_value := None |}.
(** a viewer that fails: it exits with 3, so os.system returns 3 * 256 *)
Notation main_demo := (main cmd_dur (fun _ => Some tt) (fun c => N.eqb c SP) cmd_dur dec demo_took ascii_class no_float main_objects 5
  (fun _ => main_body) (fun _ => tt) (lit "12") (fun line _ => (line ++ [NL], 768%Z)) (fun _ _ _ _ _ _ => None) main_walk).
Definition main_flags (a : bool) (viewer : str) : ConfigModel.flags :=
  {| ConfigModel.f_i := false; ConfigModel.f_I := false; ConfigModel.f_v := false; ConfigModel.f_L := false; ConfigModel.f_f := false; ConfigModel.f_c := false; ConfigModel.f_r := false; ConfigModel.f_u := false;
     ConfigModel.f_a := a; ConfigModel.f_p := ConfigModel.VBool false; ConfigModel.f_s := false; ConfigModel.f_S := false; ConfigModel.f_cov := false; ConfigModel.f_md_viewer := viewer; ConfigModel.f_diff_tool := [] |}.
(** the snapshot of x fits, that of y does not *)
Definition main_f : fs := [(lit "books/test/a/x.md", lit "hello" ++ [NL]); (lit "books/test/a/y.md", lit "bye" ++ [NL])].
Definition main_config (a : bool) : ConfigModel.config := ConfigModel.put_all (ConfigModel.flag_settings (main_flags a [])) [].

Example C123_example :
  (forall a, works_with ascii_class main_walk [] (main_flags a []) main_f (main_config a) main_tests (lit "books")) /\
  accepted main_tests [] /\ accepted main_tests [lit "test/a/x"] /\ accepted main_tests [lit "test"; lit "skip:test/a/y"] /\ ~ accepted main_tests [lit "a/x"] /\
  project (lit "books") main_tests /\ Forall (fun n => ~ In NL n) (map fst main_tests) /\ all_ready (lit "books") (lit ".out") (map fst main_tests) main_f /\
  (forall a, batch (run_config (main_config a)) /\ ConfigModel.is_parallel (main_config a) = false /\ cont (run_config (main_config a)) = false) /\
  option_map (fun x => fst (fst x)) (main_demo [] (main_flags false []) [] CRun [] main_f) = Some 255%Z /\
  option_map (fun x => fst (fst x)) (main_demo [] (main_flags true []) [] CRun [] main_f) = Some 0%Z /\
  option_map (fun x => fst (fst x)) (main_demo [] (main_flags false []) [lit "test/a/x"] CRun [] main_f) = Some 0%Z /\
  option_map (fun x => fst (fst x)) (main_demo [] (main_flags false []) [lit "test"; lit "skip:test/a/y"] CRun [] main_f) = Some 0%Z /\
  option_map (fun x => fst (fst x)) (main_demo [] (main_flags false []) [lit "a/x"] CRun [] main_f) = Some 2%Z /\
  option_map (fun x => fst (fst x)) (main_demo [] (main_flags false []) [] CReview [] main_f) = Some 1%Z /\
  option_map (fun x => fst (fst x)) (main_demo [] (main_flags false []) [] CForget [] main_f) = Some 0%Z.
Proof.
  assert (ACC : forall args, forallb (fun a => str_mem a (ConfigModel.test_choices (map fst main_tests))) args = true -> accepted main_tests args).
  { intros args H a I. rewrite forallb_forall in H. now apply str_mem_In, H. }
  split; [intros [|]; do 2 eexists; (split; [reflexivity|]); (split; [vm_compute; reflexivity|]); (split; [reflexivity|]); reflexivity|].
  split; [intros a []|]. split; [apply ACC; vm_compute; reflexivity|]. split; [apply ACC; vm_compute; reflexivity|].
  split; [intros H; specialize (H _ (or_introl eq_refl)); apply str_mem_In in H; vm_compute in H; discriminate|].
  split; [split; [split; [discriminate|reflexivity]|split; [|repeat constructor; cbn [In]; intuition discriminate]]|].
  { split.
    - repeat constructor; try (vm_compute; intuition discriminate).
      + change (lit "test/a/x") with (join_with [SLASH] [lit "test"; lit "a"; lit "x"]). apply proper_parts; [discriminate|repeat constructor; discriminate].
      + change (lit "test/a/y") with (join_with [SLASH] [lit "test"; lit "a"; lit "y"]). apply proper_parts; [discriminate|repeat constructor; discriminate].
    - intros n m [<-|[<-|[]]] [<-|[<-|[]]]; intros H; try reflexivity; exfalso; destruct H as [E|[r E]]; discriminate E. }
  split; [repeat constructor; vm_compute; intuition discriminate|].
  split; [intros n [<-|[<-|[]]]; apply readyb_ok; vm_compute; reflexivity|].
  split; [intros [|]; repeat split; vm_compute; reflexivity|].
  repeat split; vm_compute; reflexivity.
Qed.

(** with -c, after a report in which x was OK: only y is run, so the changed snapshot of x does not count *)
Definition main_again (a : bool) : ConfigModel.flags :=
  {| ConfigModel.f_i := false; ConfigModel.f_I := false; ConfigModel.f_v := false; ConfigModel.f_L := false; ConfigModel.f_f := false; ConfigModel.f_c := true; ConfigModel.f_r := false; ConfigModel.f_u := false;
     ConfigModel.f_a := a; ConfigModel.f_p := ConfigModel.VBool false; ConfigModel.f_s := false; ConfigModel.f_S := false; ConfigModel.f_cov := false; ConfigModel.f_md_viewer := []; ConfigModel.f_diff_tool := [] |}.
Definition main_old : fs := [(lit "books/test/a/x.md", lit "no" ++ [NL]); (lit "books/test/a/y.md", lit "hello" ++ [NL]);
  (lit "books/.out/cases.txt", report_text cmd_dur [(lit "test/a/x", OK, tt); (lit "test/a/y", DIFF, tt)])].
(** a line without "=" in the configuration file; test paths and a directory that are not a text *)
Example C123_broken_example :
  (forall c tests root, ~ works_with ascii_class main_walk [] (main_flags false []) ((lit ".booktest", lit "test_paths") :: main_f) c tests root) /\
  main_demo [] (main_flags false []) [] CRun [] ((lit ".booktest", lit "test_paths") :: main_f) = Some (1%Z, [], (lit ".booktest", lit "test_paths") :: main_f) /\
  main_demo [] (main_flags false []) [] CRun [] ((lit ".booktest", lit "test_paths=1") :: main_f) = Some (1%Z, [], (lit ".booktest", lit "test_paths=1") :: main_f) /\
  main_demo [] (main_flags false []) [lit "x"] CRun [] ((lit ".booktest", lit "books_path=1") :: main_f) = Some (2%Z, [], (lit ".booktest", lit "books_path=1") :: main_f).
Proof. split; [intros c tests root (c0 & s & E & _); vm_compute in E; discriminate|]. repeat split; vm_compute; reflexivity. Qed.

Example C123_continue_example :
  (exists c, works_with ascii_class main_walk [] (main_again false) main_old c main_tests (lit "books") /\ batch (run_config c) /\ ConfigModel.is_parallel c = false /\ cont (run_config c) = true) /\
  all_ready (lit "books") (lit ".out") (map fst main_tests) main_old /\
  option_map (fun x => (fst (fst x), lookup (lit "books/.out/test/a/x.txt") (snd x))) (main_demo [] (main_again false) [] CRun [] main_old) = Some (0%Z, None) /\
  option_map (fun x => fst (fst x)) (main_demo [] (main_flags false []) [] CRun [] main_old) = Some 255%Z.
Proof.
  split; [eexists; split; [do 2 eexists; (split; [reflexivity|]); (split; [vm_compute; reflexivity|]); (split; [reflexivity|]); reflexivity|repeat split; vm_compute; reflexivity]|].
  split; [intros n [<-|[<-|[]]]; apply readyb_ok; vm_compute; reflexivity|]. split; vm_compute; reflexivity.
Qed.

(** asking after every test (-I) or after those that are not OK (-i) *)
Definition main_asking (always : bool) : ConfigModel.flags :=
  {| ConfigModel.f_i := negb always; ConfigModel.f_I := always; ConfigModel.f_v := false; ConfigModel.f_L := false; ConfigModel.f_f := false; ConfigModel.f_c := false; ConfigModel.f_r := false; ConfigModel.f_u := false;
     ConfigModel.f_a := false; ConfigModel.f_p := ConfigModel.VBool false; ConfigModel.f_s := false; ConfigModel.f_S := false; ConfigModel.f_cov := false; ConfigModel.f_md_viewer := []; ConfigModel.f_diff_tool := [] |}.
Example C123_asking_example :
  (forall i, exists c, works_with ascii_class main_walk [] (main_asking i) main_f c main_tests (lit "books") /\ ConfigModel.is_parallel c = false /\ ~ batch (run_config c)) /\
  option_map (fun x => fst (fst x)) (main_demo [] (main_asking false) [] CRun [lit "x"; lit "a"] main_f) = Some 0%Z /\
  option_map (fun x => fst (fst x)) (main_demo [] (main_asking false) [] CRun [lit "c"] main_f) = Some 255%Z /\
  option_map (fun x => fst (fst x)) (main_demo [] (main_asking true) [] CRun [lit "c"; lit "a"] main_f) = Some 0%Z /\
  option_map (fun x => fst (fst x)) (main_demo [] (main_asking false) [] CRun [] main_f) = Some 1%Z.
Proof.
  split; [intros [|]; eexists; (split; [do 2 eexists; (split; [reflexivity|]); (split; [vm_compute; reflexivity|]); (split; [reflexivity|]); reflexivity|]); (split; [vm_compute; reflexivity|]); intros [X Y]; (vm_compute in X; discriminate X) || (vm_compute in Y; discriminate Y)|].
  repeat split; vm_compute; reflexivity.
Qed.

(** That status 0 means that the selected tests were run is false if the user quits: with -I, q after the first test, which is OK, gives status 0. y is never run. *)
Theorem C123_quit_refuted : exists environ p answers f c tests root sel n text g,
  works_with ascii_class main_walk environ p f c tests root /\ NoDup (map fst tests) /\ ConfigModel.is_parallel c = false /\
  main_demo environ p [] CRun answers f = Some (0%Z, text, g) /\ selection_of c None = Some sel /\ In n (map fst tests) /\ is_selected n sel = true /\
  lookup (lit "books/.out/cases.txt") g = Some (report_text cmd_dur [(lit "test/a/x", OK, tt)]) /\ n = lit "test/a/y" /\ cont (run_config c) = false.
Proof.
  exists [], (main_asking true), [lit "q"], main_f. do 3 eexists. exists (split_on COMMA (lit "test,book")), (lit "test/a/y"). do 2 eexists.
  split; [do 2 eexists; (split; [reflexivity|]); (split; [vm_compute; reflexivity|]); (split; [reflexivity|]); reflexivity|].
  split; [apply C123_example|]. split; [vm_compute; reflexivity|]. split; [vm_compute; reflexivity|]. split; [vm_compute; reflexivity|]. split; [vm_compute; auto|].
  repeat split; vm_compute; reflexivity.
Qed.
Print Assumptions C123_quit_refuted.

(** --view with a viewer that fails ends with status 0 *)
Theorem C123_view_refuted : exists environ p args f code g c tests root viewer files,
  works_with ascii_class main_walk environ p f c tests root /\ accepted tests args /\
  ConfigModel.dget (lit "md_viewer") c = Some viewer /\
  main_demo environ p args CView [] f = Some (0%Z, code, g) /\ code = (ConfigModel.show_cval dec viewer ++ [SP] ++ files) ++ [NL] /\ 768%Z <> 0%Z.
Proof.
  exists [], (main_flags false (lit "less")), [lit "test"], main_f. do 7 eexists.
  split; [do 2 eexists; split; [reflexivity|]; split; [vm_compute; reflexivity|]; split; [reflexivity|]; reflexivity|].
  split; [intros a [<-|[]]; apply str_mem_In; vm_compute; reflexivity|]. split; [vm_compute; reflexivity|]. split; [vm_compute; reflexivity|].
  split; [|discriminate]. instantiate (1 := lit "books/test/a/x.md books/test/a/y.md"). vm_compute. reflexivity.
Qed.
Print Assumptions C123_view_refuted.
