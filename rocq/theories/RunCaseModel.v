(** booktest/testcaserun.py and booktest/testrun.py together: a sequential run of test cases on the file system. *)
From Verif Require Export RunnerModel FormatModel CaseRunModel.

(** A run may not return at all (a text with a NUL character, see C04): [None]. *)
Definition run (A : Type) := option (io A).
Definition run_bind {A B} (x : run A) (k : A -> fs -> run B) : run B :=
  match x with
  | None => None
  | Some (Raise f) => Some (Raise f)
  | Some (Ret a f) => k a f
  end.
Notation "x >>- k" := (run_bind x k) (at level 50, left associativity).

(** open(p, "w"): the file is empty until the handle is closed; a directory raises *)
Definition open_w (p : str) (f : fs) : io unit := if is_dir p f then Raise f else Ret tt (write_file p [] f).
(** path.exists then shutil.rmtree *)
Definition purge (p : str) (f : fs) : io unit := if path_exists p f then rmtree p f else Ret tt f.

(** What the code of a test does when it runs: the calls it makes on its TestCaseRun, the exception it raises (message line and
    traceback as printed), the files it leaves in its directory (t.file) and in its temporary directory (t.tmp_file), what it
    logs, and the value it returns (as pickled; None is None). *)
Record body_run := {
  b_ops : list op; b_exc : option (str * str); b_files : list (str * str); b_tmp : list (str * str);
  b_log : str; b_value : option str
}.

Section RunCase.
Variable cc : CharClass.
Variable refloat : str -> option str.
Variables exp_dir out_dir report_dir : str.
Variable c : config.
(** the code of the case [name]; it may read any file *)
Variable body : str -> fs -> body_run.

(** testcaserun.py:28, 46-55, 60-65, 71-73, 77: the paths of a case, with [root] exp_dir or out_dir *)
Definition base_dir (root test_path : str) : str := path_join root (fst (path_split test_path)).
Definition case_path (root test_path ext : str) : str := path_join (base_dir root test_path) (snd (path_split test_path) ++ ext).
Definition write_below (d : str) (files : list (str * str)) (f : fs) : fs :=
  fold_left (fun f e => write_file (d ++ [SLASH] ++ fst e) (snd e) f) files f.

(** testcaserun.py:23-104 __init__ (purging), 109-125 start and reset_exp_reader, 269-289 open. The snapshot read is that of
    the file if it existed on entry. *)
Definition case_start (name : str) (f : fs) : io (option str) :=
  let exp_file := case_path exp_dir name (lit ".md") in
  let existed := path_exists exp_file f in
  io_bind (purge (case_path out_dir name []) f) (fun _ f =>
  io_bind (purge (case_path out_dir name (lit ".tmp")) f) (fun _ f =>
  io_bind (open_w (case_path out_dir name (lit ".md")) f) (fun _ f =>
  io_bind (open_w (case_path out_dir name (lit ".txt")) f) (fun _ f =>
  io_bind (open_w (case_path out_dir name (lit ".log")) f) (fun _ f =>
  if existed then
    match lookup exp_file f with Some t => Ret (Some t) f | None => Raise f end
  else Ret None f))))).

(** testrun.py:92-100: the calls that are made in all *)
Definition all_ops (b : body_run) : list op :=
  b_ops b ++ match b_exc b with Some (m, tb) => exception_ops m tb | None => [] end.

(** the files written by the body, and by close() (testcaserun.py:292-316) *)
Definition case_files (name : str) (b : body_run) (s : state) (f : fs) : fs :=
  write_file (case_path out_dir name (lit ".txt")) (rep s)
  (write_file (case_path out_dir name (lit ".md")) (out s)
  (write_file (case_path out_dir name (lit ".log")) (b_log b)
  (write_below (case_path out_dir name (lit ".tmp")) (b_tmp b)
  (write_below (case_path out_dir name []) (b_files b) f)))).

(** testrun.py:78-86 save_test_result (the cache in memory is CacheModel's) *)
Definition save_value (name : str) (v : option str) (f : fs) : io unit :=
  let bin := path_join out_dir (name ++ lit ".bin") in
  match v with
  | None => if path_exists bin f then (if is_file bin f then Ret tt (remove_file bin f) else Raise f) else Ret tt f
  | Some x => if is_dir bin f then Raise f else Ret tt (write_file bin x f)
  end.

(** testrun.py:88-107 run_case with testcaserun.py:222-259 end *)
Definition run_case (name : str) (answers : list str) (f : fs) : run (result * request * list str) :=
  Some (case_start name f) >>- fun snapshot f1 =>
  let b := body name f1 in
  match run_body cc refloat snapshot (point_error_pos c) (all_ops b) with
  | None => None
  | Some s =>
      let f2 := case_files name b s f1 in
      let res := verdict (path_exists (case_path exp_dir name (lit ".md")) f2) s in
      Some (case_review (base_dir exp_dir name) (base_dir out_dir name) (snd (path_split name)) res c answers f2) >>- fun x f3 =>
      let '(res', req, answers') := x in
      match res' with
      | FAIL => Some (Ret x f3)
      | _ => Some (io_bind (save_value name (match b_exc b with Some _ => None | None => b_value b end) f3) (fun _ f4 => Ret x f4))
      end
  end.

Context {D : Type} (show_dur : D -> str) (parse_dur : str -> option D) (sp : char -> bool).
(** how long a case took *)
Variable dur : str -> D.

Definition report_file : str := path_join report_dir (lit "cases.txt").

(** testrun.py:154-179; [recs]: the records in the report so far. Every record is in the file when the next case starts (C24). *)
Fixpoint run_todo (todo : list str) (rv : result) (fails : bool) (recs : list (case_rec D)) (answers : list str) (f : fs)
  : run (result * list (case_rec D) * list str) :=
  match todo with
  | [] => Some (Ret (rv, recs, answers) f)
  | name :: rest =>
      run_case name answers f >>- fun x f1 =>
      let '(res, req, answers1) := x in
      let recs1 := recs ++ [(name, res, dur name)] in
      let f2 := write_file report_file (report_text show_dur recs1) f1 in
      let rv1 := add_result rv res in
      let fails1 := fails || negb (is_ok res) in
      if is_abort req || (fail_fast c && fails1) then Some (Ret (rv1, recs1, answers1) f2)
      else run_todo rest rv1 fails1 recs1 answers1 f2
  end.

(** testrun.py:112-191 run_async; [all_names]: all tests, [metrics]: the text of metrics.json *)
Variable all_names : list str.
Variable metrics : str.
Definition run_async (selected : list str) (answers : list str) (f : fs) : run (result * list (case_rec D) * list str) :=
  let old := of_file parse_dur sp (lookup report_file f) in
  let todo := snd (cases_to_done_and_todo old (cont c) selected) in
  let recs := kept old todo in
  run_todo todo OK false recs answers (write_file report_file (report_text show_dur recs) f) >>- fun x f1 =>
  let f2 := write_file (path_join out_dir (lit "metrics.json")) metrics f1 in
  Some (Ret x (write_file (path_join exp_dir (lit "index.md")) (index_text all_names) f2)).
End RunCase.
