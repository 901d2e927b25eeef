(** booktest/testrun.py, testcaserun.py and review.py: the process dies while a test runs that is accepted. *)
From Verif Require Export RunCaseModel CrashModel.

Section Die.
Variable cc : CharClass.
Variable refloat : str -> option str.
Variables exp_dir out_dir : str.
Variable c : config.
Variable body : str -> fs -> body_run.

(** review.py:101-125: the output is accepted *)
Definition freezes (res : result) (answers : list str) : bool :=
  match (if always_interactive c || (negb (is_ok res) && interactive c) then interact res answers else Some (NONE, answers)) with
  | None => false
  | Some (req, _) =>
      match req with FREEZE => true | _ => false end || (is_ok res && update c) || (match res with DIFF => true | _ => false end && accept c)
  end.

(** testrun.py:88-107 run_case, left before its end with the files [h].
    While the code of the test runs (testcaserun.py:23-125, 269-316) any of the output files of the case may be missing, half
    written or left from before; then freeze_case (review.py:85-98) is left at any moment (CrashModel); then the value of the test
    (testrun.py:78-86) may be missing or half written. *)
Inductive case_died (name : str) (answers : list str) (f : fs) : fs -> Prop :=
| died_running h :
    (forall p, lookup p h <> lookup p f ->
       below (case_path out_dir name []) p = true \/ below (case_path out_dir name (lit ".tmp")) p = true \/
       In p [case_path out_dir name (lit ".md"); case_path out_dir name (lit ".txt"); case_path out_dir name (lit ".log")]) ->
    case_died name answers f h
| died_accepting snapshot f1 s f2 h :
    case_start exp_dir out_dir name f = Ret snapshot f1 ->
    run_body cc refloat snapshot (point_error_pos c) (all_ops (body name f1)) = Some s ->
    case_files out_dir name (body name f1) s f1 = f2 ->
    freezes (verdict (path_exists (case_path exp_dir name (lit ".md")) f2) s) answers = true ->
    freeze_killed (base_dir exp_dir name) (base_dir out_dir name) (snd (path_split name)) f2 h ->
    case_died name answers f h
| died_saving res req rest g h :
    run_case cc refloat exp_dir out_dir c body name answers f = Some (Ret (res, req, rest) g) -> res <> FAIL ->
    (forall p, p <> path_join out_dir (name ++ lit ".bin") -> lookup p h = lookup p g) ->
    case_died name answers f h.
End Die.
