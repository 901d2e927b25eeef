(** booktest/testrun.py: a sequential run that is killed, or left with Ctrl-C. *)
From Verif Require Export RunCaseModel.

Section Kill.
Variable cc : CharClass.
Variable refloat : str -> option str.
Variables exp_dir out_dir report_dir : str.
Variable c : config.
Variable body : str -> fs -> body_run.

(** testrun.py:88-107 run_case, left before its end; testcaserun.py:23-104 __init__, 109-125 start, 269-289 open, 292-316 close.
    Any of the files that the case writes may be missing, half written or left from before: the files in its two directories,
    its three reports and, when it got as far as save_test_result (testrun.py:78-86, for OK and DIFF only), its value. Not
    modelled: what -a and -u write below exp_dir (case_review), so this is for runs without them. *)
Definition case_cut (name : str) (answers : list str) (f h : fs) : Prop :=
  let bin := path_join out_dir (name ++ lit ".bin") in
  (forall p, lookup p h <> lookup p f ->
     below (case_path out_dir name []) p = true \/ below (case_path out_dir name (lit ".tmp")) p = true \/
     In p [case_path out_dir name (lit ".md"); case_path out_dir name (lit ".txt"); case_path out_dir name (lit ".log"); bin]) /\
  (lookup bin h <> lookup bin f ->
     exists res req rest g, run_case cc refloat exp_dir out_dir c body name answers f = Some (Ret (res, req, rest) g) /\ res <> FAIL).

Context {D : Type} (show_dur : D -> str) (parse_dur : str -> option D) (sp : char -> bool).
Variable dur : str -> D.
Notation report := (report_file report_dir).

(** testrun.py:154-179, left in a case, in the middle of the record of a case, or at its end *)
Fixpoint todo_cut (todo : list str) (fails : bool) (recs : list (case_rec D)) (answers : list str) (f h : fs) : Prop :=
  match todo with
  | [] => h = f
  | name :: rest =>
      case_cut name answers f h \/
      exists res req answers1 f1, run_case cc refloat exp_dir out_dir c body name answers f = Some (Ret (res, req, answers1) f1) /\
        let recs1 := recs ++ [(name, res, dur name)] in
        let f2 := write_file report (report_text show_dur recs1) f1 in
        let fails1 := fails || negb (is_ok res) in
        ((exists t u, report_text show_dur recs1 = report_text show_dur recs ++ t ++ u /\
            h = write_file report (report_text show_dur recs ++ t) f1) \/
         if is_abort req || (fail_fast c && fails1) then h = f2 else todo_cut rest fails1 recs1 answers1 f2 h)
  end.

(** testrun.py:112-191 run_async, left at any moment with the files [h]. [whole = false]: while the report, which is opened with
    "w" and so empty at first, is filled again with the records of the tests that do not run (144-151); [whole = true]: later,
    in a case (153-179), in metrics.json (183-185) or in index.md (189), which are left with any text. *)
Definition killed (selected : list str) (answers : list str) (f : fs) (whole : bool) (h : fs) : Prop :=
  let old := of_file parse_dur sp (lookup report f) in
  let todo := snd (cases_to_done_and_todo old (cont c) selected) in
  let recs := kept old todo in
  if whole then
    let f1 := write_file report (report_text show_dur recs) f in
    todo_cut todo false recs answers f1 h \/
    exists x f2 m, run_todo cc refloat exp_dir out_dir report_dir c body show_dur dur todo OK false recs answers f1 = Some (Ret x f2) /\
      let f3 := write_file (path_join out_dir (lit "metrics.json")) m f2 in
      (h = f3 \/ exists i, h = write_file (path_join exp_dir (lit "index.md")) i f3)
  else exists t u, report_text show_dur recs = t ++ u /\ h = write_file report t f.
End Kill.
