(** booktest/testrun.py: a run in which the value that a test returns can not be stored. *)
From Verif Require Export CacheModel CaseRunModel.

Section Store.
Variable V : Type.
(** pickle.dump: what it writes, and whether it gets to the end; if not it raises (a lambda, an open file, a coroutine, ...) *)
Variable dump : V -> str * bool.
Variable out_dir : str.

(** a test that is run: its name, its verdict, and what it returned *)
Record case_run := { c_name : str; c_result : result; c_value : option V }.

(** testrun.py:78-86 save_test_result, the file; the flag: it returned *)
Definition save_file (name : str) (v : option V) (f : fs) : fs * bool :=
  let p := bin_path out_dir name in
  match v with
  | None => (remove_file p f, true)
  | Some x => (write_file p (fst (dump x)) f, snd (dump x))
  end.

(** testrun.py:88-107 run_case, the end: outside of the try *)
Definition case_end (c : case_run) (f : fs) : fs * bool :=
  match c_result c with
  | OK | DIFF => save_file (c_name c) (c_value c) f
  | FAIL => (f, true)
  end.

(** testrun.py:143-181 run_async, 2.2.2: the records that are written, the files, and whether the run got to its end; the report is
    closed (with open) when the loop raises. Aborting and fail_fast end the list of cases. *)
Fixpoint run_cases (cs : list case_run) (f : fs) : list (str * result) * fs * bool :=
  match cs with
  | [] => ([], f, true)
  | c :: rest =>
      match case_end c f with
      | (f1, false) => ([], f1, false)
      | (f1, true) => let '(records, f2, finished) := run_cases rest f1 in ((c_name c, c_result c) :: records, f2, finished)
      end
  end.

(** several runs, one after the other *)
Fixpoint run_history (runs : list (list case_run)) (f : fs) : fs :=
  match runs with
  | [] => f
  | cs :: rest => run_history rest (snd (fst (run_cases cs f)))
  end.
End Store.
Arguments c_name {V}. Arguments c_result {V}. Arguments c_value {V}.
