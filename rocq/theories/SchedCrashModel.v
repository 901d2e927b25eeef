(** A parallel run with a worker that leaves no report file: what is in the report in the end. *)
From Verif Require Export SchedSpec.

(** runs.py:366-385: what the finally block adds to the report when the main thread has failed in the
    loop (at record_case, 354-357, with a result that is a string): the reports that wait in the
    queue, up to the next one with a string, at which record_case raises again. The loop goes over the
    list that the scheduler thread extends, so that a report that is handed over while the loop runs
    is recorded too: the queue is that of the moment in which the loop ends. *)
Definition finally_adds (s : state) : list report := before_string (queue s).

(** runs.py:320-417 parallel_run_tests: [rep] are the reports in cases.txt (those of this run, in
    order) when the main thread is through with them: after the last pass ([LRest] in the events), or
    after the finally block that follows a failure in the loop. *)
Definition report_of todo deps res dur leaves (tr : list label) (s : state) (rep : list report) : Prop :=
  run todo deps res dur leaves tr s /\
  (((exists rs, In (LRest rs) tr) /\ rep = written tr) \/
   (main s = Crashed /\ (forall rs, ~ In (LRest rs) tr) /\ rep = written tr ++ finally_adds s)).
