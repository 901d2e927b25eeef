(** What a parallel run with questions prints (runs.py:285-417), as ParAskModel with the printed text. *)
From Verif Require Export ParAskModel ConsoleModel.

Section AskConsole.
Variable cc : CharClass.
Variable refloat : str -> option str.
Variables exp_dir out_dir : str.
Variable c : config.
Variable body : str -> fs -> body_run.
Context {D : Type} (show_dur : D -> str) (parse_dur : str -> option D) (sp : char -> bool).
Variable show_ms : D -> str.
Variable show_nat : nat -> str.
Variable sh : shown.
Variable dur : str -> D.
Variable all_names : list str.
Variables printed metrics_of : str -> str.
Variable took : str.
Variable deps : str -> list str.

(** runs.py:338-345 report_case. The report and the log of the case are read when the review begins; its worker has ended. *)
Definition ask_block (s : case_rec D * list str * fs) : str :=
  let '(r, answers, f) := s in report_case_text show_ms sh out_dir c (rec_name r) (rec_result r) (rec_dur r) answers f.

(** runs.py:335-417, from the reviews to the end: the cases that were reviewed, a part of what is printed in a review that was not
    finished, the cases that are said to be interrupted, the cases that were not reviewed, the summary *)
Definition ask_text (y : ask_state (D := D)) (recs : list (case_rec D)) (text : str) : Prop :=
  let n := length (k_recs y) in
  exists part,
    match skipn n (k_shown y), k_cut y with
    | [], _ => part = []
    | s :: _, Some Failed => ask_block s = part ++ (if verbose sh then [NL] else [])
    | s :: _, _ => exists rest, ask_block s = part ++ rest
    end /\
    text = start_text ++ flat_map ask_block (firstn n (k_shown y)) ++ part ++
      (match k_cut y with Some (Interrupted lf) => flat_map (fun i => lit "  " ++ i ++ lit "..interrupted" ++ [NL]) lf | _ => [] end) ++
      flat_map (fun r => begin_text false (rec_name r) ++ result_text false (rec_name r) (rec_result r) (show_ms (rec_dur r))) (skipn n recs) ++
      end_text show_nat (failed recs) (length recs) took.

(** runs.py:285-417 parallel_run_tests: as ParAskModel.ask_run, with the printed text *)
Definition ask_run_out (selected : list str) (answers : list str) (f : fs) (ctrl_c : bool) (x : io (bool * list (case_rec D))) (text : str) : Prop :=
  let todo := par_todo out_dir c parse_dur sp selected f in
  exists y recs, ask_steps exp_dir out_dir c parse_dur sp all_names (metrics_json took) deps todo
      (ask_start cc refloat exp_dir out_dir c body show_dur parse_dur sp dur all_names printed metrics_of selected answers f) y /\
    k_end y = Some recs /\ (forall n, In n (k_sched y) -> ended (k_st y n)) /\
    let all := par_kept out_dir c parse_dur sp selected f ++ recs in
    let g := write_file (path_join out_dir (lit "cases.txt")) (report_text show_dur all) (k_fs y) in
    ctrl_c = match k_cut y with Some (Interrupted _) => true | _ => false end /\
    x = match k_cut y with Some Failed => Raise g | _ => Ret (k_ok y, all) g end /\
    ask_text y recs text.
End AskConsole.
