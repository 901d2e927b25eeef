(** booktest/runs.py: a parallel run that is killed. *)
From Verif Require Export ParModel.

Section ParKill.
Variable cc : CharClass.
Variable refloat : str -> option str.
Variables exp_dir out_dir : str.
Variable c : config.
Variable body : str -> fs -> body_run.
Context {D : Type} (show_dur : D -> str) (parse_dur : str -> option D) (sp : char -> bool).
Variable dur : str -> D.
Variable all_names : list str.
Variables printed metrics_of : str -> str.
Variable deps : str -> list str.
Notation report := (path_join out_dir (lit "cases.txt")).
Notation worker := (worker cc refloat exp_dir out_dir c body show_dur parse_dur sp dur all_names printed metrics_of).

(** the files of the run itself: runs.py:32-40 .batches, 314-316 cases.txt, 381-398 output.txt, 406 metrics.json, 415 index.md *)
Definition run_file (p : str) : Prop :=
  below (batches_dir out_dir) p = true \/
  In p [batches_dir out_dir; report; path_join out_dir (lit "output.txt"); path_join out_dir (lit "metrics.json"); path_join exp_dir (lit "index.md")].

(** testrun.py:88-107 run_case, testcaserun.py:23-104, 109-125, 269-316: what a test writes for itself *)
Definition case_scratch (name p : str) : Prop :=
  below (case_path out_dir name []) p = true \/ below (case_path out_dir name (lit ".tmp")) p = true \/
  In p [case_path out_dir name (lit ".md"); case_path out_dir name (lit ".txt"); case_path out_dir name (lit ".log")].

(** runs.py:285-417 parallel_run_tests, killed (main thread and workers) with the files [h]. [whole = false]: while the report,
    which is opened with "w", is filled again with the records of the tests that do not run (316-321). [whole = true]: later. Then
    the workers have come to [st] and [g]. The main thread has written the records of some of the tests that have ended (335-356),
    the last perhaps not to its end. What belongs to the run itself has any text. What a test that is running
    writes may be half written; its value (testrun.py:78-86) only if it got as far as that, which it does not when it fails.
    That the main thread stops starting tests after a failure or an abort is one of these runs. Not modelled: what -a and -u write
    below exp_dir (case_review, in the workers and the main thread), so this is for runs without them, and without questions. *)
Definition par_killed (selected : list str) (f : fs) (whole : bool) (h : fs) : Prop :=
  let todo := par_todo out_dir c parse_dur sp selected f in
  let recs := par_kept out_dir c parse_dur sp selected f in
  if whole then
    exists st g new t u,
      psteps todo deps (worker, par_prepare out_dir c show_dur parse_dur sp selected f) (st, g) /\
      (forall n r d, In (n, r, d) new -> In n todo /\ st n = Halt (Value r) /\ d = dur n) /\
      report_text show_dur new = t ++ u /\ lookup report h = Some (report_text show_dur recs ++ t) /\
      forall p, lookup p h <> lookup p g ->
        run_file p \/
        exists n, In n todo /\ ~ ended (st n) /\ (forall d, In d (deps n) -> In d todo -> ended (st d)) /\
          (case_scratch n p \/
           p = path_join out_dir (n ++ lit ".bin") /\ exists r, snd (solo (st n) g) = Value r /\ r <> FAIL)
  else
    exists t u, report_text show_dur recs = t ++ u /\ lookup report h = Some t /\
      forall p, lookup p h <> lookup p f -> run_file p.
End ParKill.
