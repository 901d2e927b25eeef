(** booktest/testrun.py: the sequential test run. *)
From Verif Require Export ReviewModel.

(** What executing one case does is a parameter: [exec name w] is the case's result, the
    user's request, its duration and the new state of the world (files, cache, user input).
    RunCaseModel.v gives the concrete one. *)
Section Runner.
Context {D W : Type} (exec : str -> W -> result * request * D * W).

(** testrun.py:159-162: how the verdict of the run changes *)
Definition add_result (rv res : result) : result :=
  match res with
  | OK => rv
  | _ => match rv with FAIL => FAIL | _ => res end
  end.

(** testrun.py:154-179: run the cases in [todo]; [fails] = a case has failed before.
    Result: verdict, the records written, the world. *)
Fixpoint run_loop (ff : bool) (todo : list str) (rv : result) (fails : bool) (w : W)
  : result * list (case_rec D) * W :=
  match todo with
  | [] => (rv, [], w)
  | name :: rest =>
      let '(res, req, dur, w1) := exec name w in
      let rv1 := add_result rv res in
      let fails1 := fails || negb (is_ok res) in
      if is_abort req || (ff && fails1) then (rv1, [(name, res, dur)], w1)
      else let '(rv2, recs, w2) := run_loop ff rest rv1 fails1 w1 in
           (rv2, (name, res, dur) :: recs, w2)
  end.

(** testrun.py:146-151: the records kept from the old report *)
Definition kept (old : list (case_rec D)) (todo : list str) : list (case_rec D) :=
  filter (fun c => negb (str_mem (rec_name c) todo)) old.

(** testrun.py:112-191 run_async, on records: verdict, records of the new report, and those
    executed now. *)
Definition run_cases (c : config) (old : list (case_rec D)) (selected : list str) (w : W)
  : result * list (case_rec D) * list (case_rec D) * W :=
  let todo := snd (cases_to_done_and_todo old (cont c) selected) in
  let '(rv, recs, w') := run_loop (fail_fast c) todo OK false w in
  (rv, kept old todo ++ recs, recs, w').

(** reports.py:19-23 test_result_to_exit_code, as used by runs.py run_tests; true = 0 *)
Definition exit_ok (rv : result) : bool := is_ok rv.

End Runner.
