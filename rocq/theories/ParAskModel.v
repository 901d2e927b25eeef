(** booktest/runs.py: the main thread of a parallel run, which asks the user and accepts while the workers go on, and which stops
    on 'q' and with fail-fast. ParModel lets it review at the end, after all workers. *)
From Verif Require Export ParModel.

Section Ask.
Variable cc : CharClass.
Variable refloat : str -> option str.
Variables exp_dir out_dir : str.
Variable c : config.
Variable body : str -> fs -> body_run.
Context {D : Type} (show_dur : D -> str) (parse_dur : str -> option D) (sp : char -> bool).
Variable dur : str -> D.
Variable all_names : list str.
Variables printed metrics_of : str -> str.
Variable par_metrics : str.
Variable deps : str -> list str.

(** review.py:101-125 case_review, one file operation at a time. The answers are read at the start; while the user thinks, the
    workers go on. *)
Definition ask_proc (name : str) (res : result) (answers : list str) : proc (result * request * list str) :=
  let do_interact := always_interactive c || (negb (is_ok res) && interactive c) in
  match (if do_interact then interact res answers else Some (NONE, answers)) with
  | None => Halt Crashed
  | Some (req, rest) =>
      if match req with FREEZE => true | _ => false end || (is_ok res && update c) || (match res with DIFF => true | _ => false end && accept c)
      then (_ <- freeze_proc exp_dir out_dir name;; Halt (Value (OK, req, rest)))
      else Halt (Value (res, req, rest))
  end.

(** The state of a run: the workers, the cases that were handed to the pool, the file system, the cases whose reports have been
    collected (self.done), the collected reports (self.reports), the cases that were shown to the user, with the answers and the files
    at that moment, the review that is going on, the reviewed cases, whether the exit code is 0, self._abort, the answers not yet
    read, whether the loop was left by an exception, and at the end all records of the run. *)
Inductive cut := Interrupted (left : list str) | Failed.
Record ask_state := {
  k_st : str -> proc result; k_sched : list str; k_fs : fs; k_seen : list str; k_reports : list (case_rec D);
  k_shown : list (case_rec D * list str * fs); k_now : option (case_rec D * proc (result * request * list str)); k_recs : list (case_rec D); k_ok : bool; k_stop : bool;
  k_answers : list str; k_cut : option cut; k_end : option (list (case_rec D))
}.

(** runs.py:387-415: what is written at the end, except cases.txt, which is written when its file is closed *)
Definition ask_files (todo : list str) (f : fs) : fs :=
  write_file (path_join exp_dir (lit "index.md")) (index_text all_names)
    (write_file (path_join out_dir (lit "metrics.json")) par_metrics
      (write_file (path_join out_dir (lit "output.txt")) (write_lines (flat_map (fun n => read_lines (lookup (output_file out_dir n) f)) todo)) f)).

Variable todo : list str.
Inductive ask_step : ask_state -> ask_state -> Prop :=
(** runs.py:178-191, 204-212: a case is handed to the pool when the cases it depends on are done, until the run is stopped. In which
    order the cases are handed over, and which of them wait for a resource, is left open. *)
| KSchedule st sched f seen reports shown now recs ok answers cut e n :
    In n todo -> ~ In n sched -> (forall d, In d (deps n) -> In d todo -> In d seen) ->
    ask_step {| k_st := st; k_sched := sched; k_fs := f; k_seen := seen; k_reports := reports; k_shown := shown; k_now := now; k_recs := recs; k_ok := ok; k_stop := false; k_answers := answers; k_cut := cut; k_end := e |}
             {| k_st := st; k_sched := n :: sched; k_fs := f; k_seen := seen; k_reports := reports; k_shown := shown; k_now := now; k_recs := recs; k_ok := ok; k_stop := false; k_answers := answers; k_cut := cut; k_end := e |}
(** one operation of a worker; those that were handed to the pool go on after a stop (runs.py:278-282) *)
| KWork st sched f seen reports shown now recs ok stop answers cut e n s :
    In n sched -> st n = Act s ->
    ask_step {| k_st := st; k_sched := sched; k_fs := f; k_seen := seen; k_reports := reports; k_shown := shown; k_now := now; k_recs := recs; k_ok := ok; k_stop := stop; k_answers := answers; k_cut := cut; k_end := e |}
             {| k_st := set_proc st n (snd (s f)); k_sched := sched; k_fs := fst (s f); k_seen := seen; k_reports := reports; k_shown := shown; k_now := now; k_recs := recs; k_ok := ok; k_stop := stop; k_answers := answers; k_cut := cut; k_end := e |}
(** runs.py:218-238: the report of a worker that has ended is collected (a report that cannot be read: see C38) *)
| KReport st sched f seen reports shown now recs ok stop answers cut e n r :
    In n sched -> ended (st n) -> ~ In n seen -> batch_record out_dir parse_dur sp n f = Some r ->
    ask_step {| k_st := st; k_sched := sched; k_fs := f; k_seen := seen; k_reports := reports; k_shown := shown; k_now := now; k_recs := recs; k_ok := ok; k_stop := stop; k_answers := answers; k_cut := cut; k_end := e |}
             {| k_st := st; k_sched := sched; k_fs := f; k_seen := n :: seen; k_reports := reports ++ [r]; k_shown := shown; k_now := now; k_recs := recs; k_ok := ok; k_stop := stop; k_answers := answers; k_cut := cut; k_end := e |}
(** runs.py:335-345: the next report is reviewed *)
| KTake st sched f seen reports shown recs ok answers r :
    ask_step {| k_st := st; k_sched := sched; k_fs := f; k_seen := seen; k_reports := r :: reports; k_shown := shown; k_now := None; k_recs := recs; k_ok := ok; k_stop := false; k_answers := answers; k_cut := None; k_end := None |}
             {| k_st := st; k_sched := sched; k_fs := f; k_seen := seen; k_reports := reports; k_shown := shown ++ [(r, answers, f)]; k_now := Some (r, ask_proc (rec_name r) (rec_result r) answers); k_recs := recs; k_ok := ok; k_stop := false; k_answers := answers; k_cut := None; k_end := None |}
| KReview st sched f seen reports shown recs ok stop answers cut e r s :
    ask_step {| k_st := st; k_sched := sched; k_fs := f; k_seen := seen; k_reports := reports; k_shown := shown; k_now := Some (r, Act s); k_recs := recs; k_ok := ok; k_stop := stop; k_answers := answers; k_cut := cut; k_end := e |}
             {| k_st := st; k_sched := sched; k_fs := fst (s f); k_seen := seen; k_reports := reports; k_shown := shown; k_now := Some (r, snd (s f)); k_recs := recs; k_ok := ok; k_stop := stop; k_answers := answers; k_cut := cut; k_end := e |}
(** runs.py:347-357 *)
| KReviewed st sched f seen reports shown recs ok stop answers cut e r res req rest :
    ask_step {| k_st := st; k_sched := sched; k_fs := f; k_seen := seen; k_reports := reports; k_shown := shown; k_now := Some (r, Halt (Value (res, req, rest))); k_recs := recs; k_ok := ok; k_stop := stop; k_answers := answers; k_cut := cut; k_end := e |}
             {| k_st := st; k_sched := sched; k_fs := f; k_seen := seen; k_reports := reports; k_shown := shown; k_now := None; k_recs := recs ++ [(rec_name r, res, rec_dur r)]; k_ok := ok && is_ok res;
                k_stop := stop || is_abort req || (fail_fast c && negb (is_ok res)); k_answers := rest; k_cut := cut; k_end := e |}
(** runs.py:359-362: a KeyboardInterrupt in the main thread, while it waits for a report or reviews one, which is then lost; the
    cases that have not ended are printed, in the order of a set. One that comes between the statements after a review (347-357) is
    as if it came before them. The signal reaches the main process only. *)
| KInterrupt st sched f seen reports shown now recs ok stop answers left :
    NoDup left -> (forall n, In n left <-> In n todo /\ ~ In n seen) ->
    ask_step {| k_st := st; k_sched := sched; k_fs := f; k_seen := seen; k_reports := reports; k_shown := shown; k_now := now; k_recs := recs; k_ok := ok; k_stop := stop; k_answers := answers; k_cut := None; k_end := None |}
             {| k_st := st; k_sched := sched; k_fs := f; k_seen := seen; k_reports := reports; k_shown := shown; k_now := None; k_recs := recs; k_ok := ok; k_stop := true; k_answers := answers; k_cut := Some (Interrupted left); k_end := None |}
(** another exception in a review: no further answer, or a file that is missing; _abort is set later (runs.py:276) *)
| KFail st sched f seen reports shown recs ok stop answers r :
    ask_step {| k_st := st; k_sched := sched; k_fs := f; k_seen := seen; k_reports := reports; k_shown := shown; k_now := Some (r, Halt Crashed); k_recs := recs; k_ok := ok; k_stop := stop; k_answers := answers; k_cut := None; k_end := None |}
             {| k_st := st; k_sched := sched; k_fs := f; k_seen := seen; k_reports := reports; k_shown := shown; k_now := None; k_recs := recs; k_ok := ok; k_stop := stop; k_answers := answers; k_cut := Some Failed; k_end := None |}
(** runs.py:246-248, 335, 364-415: the loop ends when the run is stopped, by an exception, or when all reports are collected and
    reviewed; reports that were collected but not reviewed are recorded as they are *)
| KLeave st sched f seen reports shown recs ok stop answers cut :
    stop = true \/ cut <> None \/ (reports = [] /\ forall n, In n todo -> In n seen) ->
    ask_step {| k_st := st; k_sched := sched; k_fs := f; k_seen := seen; k_reports := reports; k_shown := shown; k_now := None; k_recs := recs; k_ok := ok; k_stop := stop; k_answers := answers; k_cut := cut; k_end := None |}
             {| k_st := st; k_sched := sched; k_fs := ask_files todo f; k_seen := seen; k_reports := reports; k_shown := shown; k_now := None; k_recs := recs; k_ok := ok; k_stop := true; k_answers := answers; k_cut := cut; k_end := Some (recs ++ reports) |}.
Inductive ask_steps : ask_state -> ask_state -> Prop :=
| KS0 x : ask_steps x x
| KS1 x y z : ask_steps x y -> ask_step y z -> ask_steps x z.
End Ask.

Section AskRun.
Variable cc : CharClass.
Variable refloat : str -> option str.
Variables exp_dir out_dir : str.
Variable c : config.
Variable body : str -> fs -> body_run.
Context {D : Type} (show_dur : D -> str) (parse_dur : str -> option D) (sp : char -> bool).
Variable dur : str -> D.
Variable all_names : list str.
Variables printed metrics_of : str -> str.
Variable par_metrics : str.
Variable deps : str -> list str.

Definition ask_start (selected : list str) (answers : list str) (f : fs) : ask_state (D := D) :=
  {| k_st := worker cc refloat exp_dir out_dir c body show_dur parse_dur sp dur all_names printed metrics_of; k_sched := [];
     k_fs := par_prepare out_dir c show_dur parse_dur sp selected f; k_seen := []; k_reports := []; k_shown := []; k_now := None; k_recs := []; k_ok := true; k_stop := false;
     k_answers := answers; k_cut := None; k_end := None |}.

(** runs.py:285-417 parallel_run_tests: [x] is how some run from [f] ends, with the answers of the user. Leaving the block of the
    runner waits for the workers that were handed to the pool. An interrupt is swallowed, another exception goes on ([Raise]).
    [ctrl_c]: there was an interrupt. *)
Definition ask_run (selected : list str) (answers : list str) (f : fs) (ctrl_c : bool) (x : io (bool * list (case_rec D))) : Prop :=
  let todo := par_todo out_dir c parse_dur sp selected f in
  exists y recs, ask_steps exp_dir out_dir c parse_dur sp all_names par_metrics deps todo (ask_start selected answers f) y /\
    k_end y = Some recs /\ (forall n, In n (k_sched y) -> ended (k_st y n)) /\
    let all := par_kept out_dir c parse_dur sp selected f ++ recs in
    let g := write_file (path_join out_dir (lit "cases.txt")) (report_text show_dur all) (k_fs y) in
    ctrl_c = match k_cut y with Some (Interrupted _) => true | _ => false end /\
    x = match k_cut y with Some Failed => Raise g | _ => Ret (k_ok y, all) g end.
End AskRun.
