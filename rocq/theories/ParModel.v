(** booktest/runs.py on the file system: the workers of a parallel run, each of which runs one case, and what the main thread
    does before and after. *)
From Verif Require Export InterleaveModel RunCaseModel.
From Verif Require SchedModel.

(** runs.py:142-148: the configuration of the workers *)
Definition job_config (c : config) : config :=
  {| always_interactive := false; interactive := false; update := update c; accept := accept c; cont := false; fail_fast := fail_fast c;
     point_error_pos := point_error_pos c |}.

Section Case.
Variable cc : CharClass.
Variable refloat : str -> option str.
Variables exp_dir out_dir : str.
Variable c : config.
Variable body : str -> fs -> body_run.

Definition reading {A} (r : fs -> A) : proc A := prim (fun f => Ret (r f) f).
Definition writing (p t : str) : proc unit := prim (fun f => Ret tt (write_file p t f)).
Fixpoint writing_below (d : str) (files : list (str * str)) : proc unit :=
  match files with
  | [] => Halt (Value tt)
  | (r, t) :: rest => _ <- writing (d ++ [SLASH] ++ r) t;; writing_below d rest
  end.
Definition when (b : bool) (p : proc unit) : proc unit := if b then p else Halt (Value tt).

(** RunCaseModel.case_start, one operation at a time *)
Definition start_proc (name : str) : proc (option str) :=
  let exp_file := case_path exp_dir name (lit ".md") in
  existed <- reading (path_exists exp_file);;
  _ <- prim (purge (case_path out_dir name []));;
  _ <- prim (purge (case_path out_dir name (lit ".tmp")));;
  _ <- prim (open_w (case_path out_dir name (lit ".md")));;
  _ <- prim (open_w (case_path out_dir name (lit ".txt")));;
  _ <- prim (open_w (case_path out_dir name (lit ".log")));;
  if existed then prim (fun f => match lookup exp_file f with Some t => Ret (Some t) f | None => Raise f end)
  else Halt (Value None).

(** RunCaseModel.case_files *)
Definition files_proc (name : str) (b : body_run) (s : state) : proc unit :=
  _ <- writing_below (case_path out_dir name []) (b_files b);;
  _ <- writing_below (case_path out_dir name (lit ".tmp")) (b_tmp b);;
  _ <- writing (case_path out_dir name (lit ".log")) (b_log b);;
  _ <- writing (case_path out_dir name (lit ".md")) (out s);;
  writing (case_path out_dir name (lit ".txt")) (rep s).

(** review.py:85-98 freeze_case *)
Definition freeze_proc (exp_dir out_dir name : str) : proc unit :=
  let exp_dir_name := path_join exp_dir name in
  let exp_file_name := path_join exp_dir (name ++ lit ".md") in
  let out_dir_name := path_join out_dir name in
  let out_file_name := path_join out_dir (name ++ lit ".md") in
  old <- reading (path_exists exp_dir_name);;
  _ <- when old (prim (rmtree exp_dir_name));;
  _ <- prim (rename_file out_file_name exp_file_name);;
  new <- reading (path_exists out_dir_name);;
  when new (prim (rename_path out_dir_name exp_dir_name)).

(** review.py:101-125 case_review of a worker, which does not ask *)
Definition review_proc (exp_dir out_dir name : str) (res : result) : proc result :=
  if (is_ok res && update c) || (match res with DIFF => true | _ => false end && accept c)
  then (_ <- freeze_proc exp_dir out_dir name;; Halt (Value OK))
  else Halt (Value res).

(** RunCaseModel.save_value *)
Definition save_proc (name : str) (v : option str) : proc unit :=
  let bin := path_join out_dir (name ++ lit ".bin") in
  match v with
  | None => old <- reading (path_exists bin);; when old (prim (fun f => if is_file bin f then Ret tt (remove_file bin f) else Raise f))
  | Some x => prim (fun f => if is_dir bin f then Raise f else Ret tt (write_file bin x f))
  end.

(** RunCaseModel.run_case. What the code of the test reads, it reads at one moment. *)
Definition case_proc (name : str) : proc result :=
  snapshot <- start_proc name;;
  b <- reading (body name);;
  match run_body cc refloat snapshot (point_error_pos c) (all_ops b) with
  | None => Halt Hangs
  | Some s =>
      _ <- files_proc name b s;;
      there <- reading (path_exists (case_path exp_dir name (lit ".md")));;
      res <- review_proc (base_dir exp_dir name) (base_dir out_dir name) (snd (path_split name)) (verdict there s);;
      _ <- when (negb (is_fail res)) (save_proc name (match b_exc b with Some _ => None | None => b_value b end));;
      Halt (Value res)
  end.

End Case.

Section Par.
Variable cc : CharClass.
Variable refloat : str -> option str.
Variables exp_dir out_dir : str.
Variable c : config.
Variable body : str -> fs -> body_run.
Context {D : Type} (show_dur : D -> str) (parse_dur : str -> option D) (sp : char -> bool).
Variable dur : str -> D.
Variable all_names : list str.
(** what the worker of a case prints, and the text of its metrics.json *)
Variables printed metrics_of : str -> str.

Definition batches_dir : str := path_join out_dir (lit ".batches").
Definition output_file (name : str) : str := path_join (SchedModel.case_batch_dir batches_dir name) (lit "output.txt").

(** runs.py:61-98 RunBatch.__call__ with testrun.py:112-191 run_async: one case, whose report is in its batch directory *)
Definition worker (name : str) : proc result :=
  let report := SchedModel.case_report_file batches_dir name in
  _ <- prim (open_w (output_file name));;
  old <- reading (fun f => of_file parse_dur sp (lookup report f));;
  let recs := kept old [name] in
  _ <- writing report (report_text show_dur recs);;
  res <- case_proc cc refloat exp_dir out_dir (job_config c) body name;;
  _ <- writing report (report_text show_dur (recs ++ [(name, res, dur name)]));;
  _ <- writing (path_join out_dir (lit "metrics.json")) (metrics_of name);;
  _ <- writing (path_join exp_dir (lit "index.md")) (index_text all_names);;
  _ <- writing (output_file name) (printed name);;
  Halt (Value res).

(** runs.py:32-40 prepare_batch_dir: rm -rf *)
Definition rm_rf (d : str) (f : fs) : fs := filter (fun e => negb (below d (fst e) || str_eqb d (fst e))) f.

(** runs.py:285-328: what happens before the workers start *)
Definition par_todo (selected : list str) (f : fs) : list str :=
  snd (cases_to_done_and_todo (of_file parse_dur sp (lookup (path_join out_dir (lit "cases.txt")) f)) (cont c) selected).
Definition par_kept (selected : list str) (f : fs) : list (case_rec D) :=
  kept (of_file parse_dur sp (lookup (path_join out_dir (lit "cases.txt")) f)) (par_todo selected f).
Definition par_prepare (selected : list str) (f : fs) : fs :=
  write_file (path_join out_dir (lit "cases.txt")) (report_text show_dur (par_kept selected f)) (rm_rf batches_dir f).

(** runs.py:226-234: the record that the worker of a case left ([None]: its report is not there or empty, see C38) *)
Definition batch_record (name : str) (f : fs) : option (case_rec D) :=
  hd_error (of_file parse_dur sp (lookup (SchedModel.case_report_file batches_dir name) f)).

(** runs.py:335-356: the main thread reviews the cases in the order in which the workers ended *)
Fixpoint par_review (ended : list str) (f : fs) : io (list (case_rec D)) :=
  match ended with
  | [] => Ret [] f
  | n :: rest =>
      match batch_record n f with
      | None => Raise f
      | Some (name, res, d) =>
          io_bind (case_review exp_dir out_dir name res c [] f) (fun x f1 =>
          io_bind (par_review rest f1) (fun recs f2 => Ret ((name, fst (fst x), d) :: recs) f2))
      end
  end.

(** runs.py:335-417: after all workers have ended. The records are written to cases.txt as they come; nobody reads that file
    meanwhile, so here they are written at the end. The exit code is 0 iff the boolean is true. *)
Variable par_metrics : str.
Definition par_finish (kept_recs : list (case_rec D)) (todo ended : list str) (f : fs) : io (bool * list (case_rec D)) :=
  io_bind (par_review ended f) (fun recs f1 =>
    let f2 := write_file (path_join out_dir (lit "cases.txt")) (report_text show_dur (kept_recs ++ recs)) f1 in
    let f3 := write_file (path_join out_dir (lit "output.txt")) (write_lines (flat_map (fun n => read_lines (lookup (output_file n) f2)) todo)) f2 in
    let f4 := write_file (path_join out_dir (lit "metrics.json")) par_metrics f3 in
    Ret (forallb (fun r => is_ok (rec_result r)) recs, kept_recs ++ recs) (write_file (path_join exp_dir (lit "index.md")) (index_text all_names) f4)).

(** runs.py:285-417 parallel_run_tests, without abort: [x] is the result of some run from [f] in which all workers end. *)
Variable deps : str -> list str.
Definition parallel_run (selected : list str) (f : fs) (x : io (bool * list (case_rec D))) : Prop :=
  let todo := par_todo selected f in
  exists st g order, psteps todo deps (worker, par_prepare selected f) (st, g) /\ (forall n, In n todo -> ended (st n)) /\
    (forall n, In n order <-> In n todo) /\ NoDup order /\ x = par_finish (par_kept selected f) todo order g.
End Par.
