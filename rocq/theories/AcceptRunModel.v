(** booktest/testrun.py: a sequential run, also one with -a or -u, that is killed. *)
From Verif Require Export AcceptKillModel.

Section Kill.
Variable cc : CharClass.
Variable refloat : str -> option str.
Variables exp_dir out_dir report_dir : str.
Variable c : config.
Variable body : str -> fs -> body_run.
Context {D : Type} (show_dur : D -> str) (parse_dur : str -> option D) (sp : char -> bool).
Variable dur : str -> D.
Notation report := (report_file report_dir).

(** testrun.py:154-179, left in a case, in the middle of the record of a case, or at its end *)
Fixpoint todo_died (todo : list str) (fails : bool) (recs : list (case_rec D)) (answers : list str) (f h : fs) : Prop :=
  match todo with
  | [] => h = f
  | name :: rest =>
      case_died cc refloat exp_dir out_dir c body name answers f h \/
      exists res req answers1 f1, run_case cc refloat exp_dir out_dir c body name answers f = Some (Ret (res, req, answers1) f1) /\
        let recs1 := recs ++ [(name, res, dur name)] in
        let f2 := write_file report (report_text show_dur recs1) f1 in
        let fails1 := fails || negb (is_ok res) in
        ((exists t u, report_text show_dur recs1 = report_text show_dur recs ++ t ++ u /\
            h = write_file report (report_text show_dur recs ++ t) f1) \/
         if is_abort req || (fail_fast c && fails1) then h = f2 else todo_died rest fails1 recs1 answers1 f2 h)
  end.

(** testrun.py:112-191 run_async, left at any moment after the report is opened (143), with the files [h]: while the report, which is opened with
    "w" and so empty at first, is filled again with the records of the tests that do not run (144-151), in a case (153-179), in
    metrics.json (183-185) or in index.md (189), which are left with any text. *)
Inductive run_died (selected : list str) (answers : list str) (f : fs) : fs -> Prop :=
| died_in_report t u :
    let old := of_file parse_dur sp (lookup report f) in
    let todo := snd (cases_to_done_and_todo old (cont c) selected) in
    report_text show_dur (kept old todo) = t ++ u -> run_died selected answers f (write_file report t f)
| died_in_cases h :
    let old := of_file parse_dur sp (lookup report f) in
    let todo := snd (cases_to_done_and_todo old (cont c) selected) in
    todo_died todo false (kept old todo) answers (write_file report (report_text show_dur (kept old todo)) f) h -> run_died selected answers f h
| died_in_metrics x f2 m :
    let old := of_file parse_dur sp (lookup report f) in
    let todo := snd (cases_to_done_and_todo old (cont c) selected) in
    run_todo cc refloat exp_dir out_dir report_dir c body show_dur dur todo OK false (kept old todo) answers
      (write_file report (report_text show_dur (kept old todo)) f) = Some (Ret x f2) ->
    run_died selected answers f (write_file (path_join out_dir (lit "metrics.json")) m f2)
| died_in_index x f2 m i :
    let old := of_file parse_dur sp (lookup report f) in
    let todo := snd (cases_to_done_and_todo old (cont c) selected) in
    run_todo cc refloat exp_dir out_dir report_dir c body show_dur dur todo OK false (kept old todo) answers
      (write_file report (report_text show_dur (kept old todo)) f) = Some (Ret x f2) ->
    run_died selected answers f (write_file (path_join exp_dir (lit "index.md")) i (write_file (path_join out_dir (lit "metrics.json")) m f2)).
End Kill.
