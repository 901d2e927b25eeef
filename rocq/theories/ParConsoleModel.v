(** What a parallel run prints (runs.py:285-417), as ParModel with the printed text. What the workers print goes to their output
    files; the main thread prints each case after its worker has ended. *)
From Verif Require Export ParModel ConsoleModel.

Section ParConsole.
Variable cc : CharClass.
Variable refloat : str -> option str.
Variables exp_dir out_dir : str.
Variable c : config.
Variable body : str -> fs -> body_run.
Context {D : Type} (show_dur : D -> str) (parse_dur : str -> option D) (sp : char -> bool).
Variable show_ms : D -> str.
Variable show_nat : nat -> str.
Variable sh : shown.
Variable dur : str -> D.
Variable all_names : list str.
Variables printed metrics_of : str -> str.

(** runs.py:335-356: report_case for each case, in the order in which the workers ended. As in ParModel.par_review it is as if the
    main thread began when all workers have ended: the files that it reads are those of cases that have ended. *)
Fixpoint par_review_out (ended : list str) (f : fs) : io (list (case_rec D) * str) :=
  match ended with
  | [] => Ret ([], []) f
  | n :: rest =>
      match batch_record out_dir parse_dur sp n f with
      | None => Raise f
      | Some (name, res, d) =>
          let text := report_case_text show_ms sh out_dir c name res d [] f in
          io_bind (case_review exp_dir out_dir name res c [] f) (fun x f1 =>
          io_bind (par_review_out rest f1) (fun y f2 => Ret ((name, fst (fst x), d) :: fst y, text ++ snd y) f2))
      end
  end.

(** runs.py:309, 335-417 *)
Variable took : str.
Definition par_finish_out (kept_recs : list (case_rec D)) (todo ended : list str) (f : fs) : io (bool * list (case_rec D) * str) :=
  io_bind (par_review_out ended f) (fun y f1 =>
    let '(recs, text) := y in
    let f2 := write_file (path_join out_dir (lit "cases.txt")) (report_text show_dur (kept_recs ++ recs)) f1 in
    let f3 := write_file (path_join out_dir (lit "output.txt")) (write_lines (flat_map (fun n => read_lines (lookup (output_file out_dir n) f2)) todo)) f2 in
    let f4 := write_file (path_join out_dir (lit "metrics.json")) (metrics_json took) f3 in
    Ret (forallb (fun r => is_ok (rec_result r)) recs, kept_recs ++ recs, start_text ++ text ++ end_text show_nat (failed recs) (length recs) took)
        (write_file (path_join exp_dir (lit "index.md")) (index_text all_names) f4)).

(** runs.py:285-417 parallel_run_tests, without abort *)
Variable deps : str -> list str.
Definition parallel_run_out (selected : list str) (f : fs) (x : io (bool * list (case_rec D) * str)) : Prop :=
  let todo := par_todo out_dir c parse_dur sp selected f in
  exists st g order,
    psteps todo deps (worker cc refloat exp_dir out_dir c body show_dur parse_dur sp dur all_names printed metrics_of,
                      par_prepare out_dir c show_dur parse_dur sp selected f) (st, g) /\
    (forall n, In n todo -> ended (st n)) /\ (forall n, In n order <-> In n todo) /\ NoDup order /\
    x = par_finish_out (par_kept out_dir c parse_dur sp selected f) todo order g.
End ParConsole.
