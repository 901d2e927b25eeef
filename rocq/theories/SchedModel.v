(** booktest/runs.py: the parallel runner. *)
From Verif Require Export FsModel ReportsModel ReviewModel.

(** ** Batch directories *)

(** runs.py:101-104 case_batch_dir_and_report_file, and 62-75 RunBatch.__call__ *)
Definition batch_name (name : str) : str := join_with [DOT] (split_on SLASH name).
Definition case_batch_dir (batches_dir name : str) : str := path_join batches_dir (batch_name name).
Definition case_report_file (batches_dir name : str) : str :=
  path_join (case_batch_dir batches_dir name) (lit "cases.txt").

(** ** Sorting *)

Fixpoint insert_by {A} (le : A -> A -> bool) (x : A) (l : list A) : list A :=
  match l with [] => [x] | y :: r => if le x y then x :: l else y :: insert_by le x r end.
Definition sort_by {A} (le : A -> A -> bool) (l : list A) : list A := fold_right (insert_by le) [] l.

(** python's order of strings: by code points *)
Fixpoint str_leb (a b : str) : bool :=
  match a, b with
  | [], _ => true
  | _ :: _, [] => false
  | x :: a', y :: b' => N.ltb x y || (N.eqb x y && str_leb a' b')
  end.

(** ** The scheduler *)

(** What a worker leaves as report file of its case when its task is ready: nothing, a file
    without a record, or a record with a result (runs.py:230-234). *)
Inductive worker_report := NoFile | EmptyFile | Recorded (r : result).

(** a report given to the main thread: the result is an enum value, or (reports.py:167-170
    make_case) the string "FAIL" *)
Inductive report_result := Enum (r : result) | FailString.
Definition report := (str * report_result)%type.
Definition rep_name (r : report) : str := fst r.

Section Sched.
(** runs.py:153-161: the cases of the run, their dependencies and resources; runs.py:127-129 the
    durations of the last report, in ms, 0 if there is none (fractions are not modelled) *)
Variable todo : list str.
Variable deps : str -> list str.
Variable res : str -> list nat.
Variable dur : str -> nat.
(** what the workers leave behind *)
Variable leaves : str -> worker_report.

Definition nat_mem (x : nat) (l : list nat) : bool := existsb (Nat.eqb x) l.
Definition disjointb (a b : list nat) : bool := negb (existsb (fun x => nat_mem x b) a).
Definition minus_res (a b : list nat) : list nat := filter (fun x => negb (nat_mem x b)) a.
Definition minus (a b : list str) : list str := filter (fun x => negb (str_mem x b)) a.

(** runs.py:182-187 *)
Definition runnable (done : list str) (reserved : list nat) (name : str) : bool :=
  forallb (fun d => negb (str_mem d todo && negb (str_mem d done))) (deps name)
  && disjointb (res name) reserved.

(** runs.py:181-190: one pass over the candidates in the (arbitrary) order [ord] of the set *)
Fixpoint plan_pass (done : list str) (reserved : list nat) (ord : list str) : list str :=
  match ord with
  | [] => []
  | n :: rest =>
      if runnable done reserved n then n :: plan_pass done (reserved ++ res n) rest
      else plan_pass done reserved rest
  end.

(** runs.py:193: slowest first, then by name *)
Definition plan_le (a b : str) : bool :=
  Nat.ltb (dur b) (dur a) || (Nat.eqb (dur a) (dur b) && str_leb a b).

(** runs.py:178-195 plan *)
Definition plan (done : list str) (reserved : list nat) (ord : list str) : list str :=
  sort_by plan_le (plan_pass done reserved ord).

(** The scheduler thread, runs.py:201-238: at the loop condition; starting planned jobs; polling;
    about to publish the reports it read; ended; killed by an exception. *)
Inductive phase := AtLoop | Starting (l : list str) | Polling | Publishing (rs : list report) | Ended | Dead.

(** The main thread, runs.py:335-385: at the loop condition; in next_report; reviewing a report;
    after the loop; after the remaining reports were recorded; killed by an exception. *)
Inductive main_phase := AtCheck | Waiting | Reviewing (r : report) | Leaving | Finished | Crashed.

Record state := {
  thread : phase;
  main : main_phase;
  done : list str;
  scheduled : list str;        (* keys of the thread's dict *)
  ready : list str;            (* scheduled tasks whose worker has returned *)
  reserved : list nat;
  queue : list report;         (* self.reports *)
  left_ : nat;
  abort : bool;
  recorded : list report       (* passed to record_case, in this order *)
}.

(** runs.py:126, 166-176 *)
Definition initial : state := {|
  thread := AtLoop; main := AtCheck; done := []; scheduled := []; ready := []; reserved := [];
  queue := []; left_ := length todo; abort := false; recorded := [] |}.

(** runs.py:226-234: the reports of the tasks [ts]; None = exception (cases[0] of an empty list) *)
Fixpoint reports_of (ts : list str) : option (list report) :=
  match ts with
  | [] => Some []
  | i :: rest =>
      match leaves i with
      | EmptyFile => None
      | NoFile => option_map (cons (i, FailString)) (reports_of rest)
      | Recorded r => option_map (cons (i, Enum r)) (reports_of rest)
      end
  end.

(** the reports up to the first one with a string *)
Fixpoint before_string (rs : list report) : list report :=
  match rs with (n, Enum r) :: rest => (n, Enum r) :: before_string rest | _ => [] end.

(** What an observer sees *)
Inductive label :=
| LPlan                        (* the scheduler plans *)
| LStart (n : str)             (* job handed to the pool *)
| LFinish (n : str)            (* its worker is done *)
| LCollect (ts : list str)     (* scheduler noticed that these are ready *)
| LPublish (rs : list report)  (* reports put in the queue *)
| LStop                        (* the scheduler thread ends *)
| LCheck                       (* main thread: has_next *)
| LTake (r : report)           (* main thread: next_report returned *)
| LRecord (r : report) (stop : bool)  (* main thread: reviewed and recorded; stop = abort *)
| LRest (rs : list report).    (* main thread: the remaining reports are recorded *)

(** [Permutation] without the library: same elements, no repetition *)
Definition same_set (a b : list str) : Prop := NoDup a /\ forall x, In x a <-> In x b.

Inductive step : state -> label -> state -> Prop :=
(* runs.py:204-205 *)
| st_plan s ord :
    thread s = AtLoop -> length (done s) < length todo -> abort s = false ->
    same_set ord (minus (minus todo (done s)) (scheduled s)) ->
    step s LPlan
      {| thread := Starting (plan (done s) (reserved s) ord); main := main s; done := done s;
         scheduled := scheduled s; ready := ready s; reserved := reserved s; queue := queue s;
         left_ := left_ s; abort := abort s; recorded := recorded s |}
(* runs.py:204: the loop ends *)
| st_stop s :
    thread s = AtLoop -> (length todo <= length (done s) \/ abort s = true) ->
    step s LStop
      {| thread := Ended; main := main s; done := done s; scheduled := scheduled s; ready := ready s;
         reserved := reserved s; queue := queue s; left_ := left_ s; abort := abort s; recorded := recorded s |}
(* runs.py:208-212 *)
| st_start s n l :
    thread s = Starting (n :: l) -> ~ In n (done s) -> ~ In n (scheduled s) ->
    step s (LStart n)
      {| thread := match l with [] => Polling | _ => Starting l end; main := main s; done := done s;
         scheduled := scheduled s ++ [n]; ready := ready s; reserved := reserved s ++ res n; queue := queue s;
         left_ := left_ s; abort := abort s; recorded := recorded s |}
(* runs.py:209: already there *)
| st_start_skip s n l :
    thread s = Starting (n :: l) -> In n (done s) \/ In n (scheduled s) ->
    step s LPlan
      {| thread := match l with [] => Polling | _ => Starting l end; main := main s; done := done s;
         scheduled := scheduled s; ready := ready s; reserved := reserved s; queue := queue s;
         left_ := left_ s; abort := abort s; recorded := recorded s |}
(* nothing planned *)
| st_start_none s :
    thread s = Starting [] ->
    step s LPlan
      {| thread := Polling; main := main s; done := done s;
         scheduled := scheduled s; ready := ready s; reserved := reserved s; queue := queue s;
         left_ := left_ s; abort := abort s; recorded := recorded s |}
(* a worker returns *)
| st_finish s n :
    In n (scheduled s) -> ~ In n (ready s) ->
    step s (LFinish n)
      {| thread := thread s; main := main s; done := done s; scheduled := scheduled s; ready := ready s ++ [n];
         reserved := reserved s; queue := queue s; left_ := left_ s; abort := abort s; recorded := recorded s |}
(* runs.py:217-234: polling ends with the ready tasks [ts], or by abort *)
| st_collect s ts rs :
    thread s = Polling -> NoDup ts -> (forall n, In n ts -> In n (scheduled s) /\ In n (ready s)) ->
    (ts <> [] \/ abort s = true) -> reports_of ts = Some rs ->
    step s (LCollect ts)
      {| thread := Publishing rs; main := main s; done := done s ++ ts; scheduled := minus (scheduled s) ts;
         ready := minus (ready s) ts; reserved := fold_left (fun r i => minus_res r (res i)) ts (reserved s);
         queue := queue s; left_ := left_ s; abort := abort s; recorded := recorded s |}
(* runs.py:232 raises IndexError: the thread dies; what it had changed before stays *)
| st_collect_dies s ts :
    thread s = Polling -> NoDup ts -> (forall n, In n ts -> In n (scheduled s) /\ In n (ready s)) ->
    reports_of ts = None ->
    step s (LCollect ts)
      {| thread := Dead; main := main s; done := done s ++ ts; scheduled := minus (scheduled s) ts;
         ready := minus (ready s) ts; reserved := fold_left (fun r i => minus_res r (res i)) ts (reserved s);
         queue := queue s; left_ := left_ s; abort := abort s; recorded := recorded s |}
(* runs.py:236-238, under the lock *)
| st_publish s rs :
    thread s = Publishing rs ->
    step s (LPublish rs)
      {| thread := AtLoop; main := main s; done := done s; scheduled := scheduled s; ready := ready s;
         reserved := reserved s; queue := queue s ++ rs; left_ := left_ s - length rs; abort := abort s;
         recorded := recorded s |}
(* runs.py:246-248 has_next, under the lock, 335 *)
| st_check s :
    main s = AtCheck ->
    step s LCheck
      {| thread := thread s;
         main := if (Nat.ltb 0 (left_ s) || negb (Nat.eqb (length (queue s)) 0)) && negb (abort s)
                 then Waiting else Leaving;
         done := done s; scheduled := scheduled s; ready := ready s; reserved := reserved s; queue := queue s;
         left_ := left_ s; abort := abort s; recorded := recorded s |}
(* runs.py:254-262 next_report, under the lock *)
| st_take s r q :
    main s = Waiting -> queue s = r :: q ->
    step s (LTake r)
      {| thread := thread s; main := Reviewing r; done := done s; scheduled := scheduled s; ready := ready s;
         reserved := reserved s; queue := q; left_ := left_ s; abort := abort s; recorded := recorded s |}
(* runs.py:338-357: the review gives [r'] (the result may change), and may ask to abort *)
| st_record s n x y stop :
    main s = Reviewing (n, Enum x) ->
    step s (LRecord (n, Enum y) stop)
      {| thread := thread s; main := AtCheck; done := done s; scheduled := scheduled s; ready := ready s;
         reserved := reserved s; queue := queue s; left_ := left_ s; abort := abort s || stop;
         recorded := recorded s ++ [(n, Enum y)] |}
(* runs.py:354 with a string: 'str' object has no attribute 'name'. (The finally block then still
   records the reports waiting in the queue: SchedCrashModel.) *)
| st_record_crash s n stop :
    main s = Reviewing (n, FailString) ->
    step s (LRecord (n, FailString) stop)
      {| thread := thread s; main := Crashed; done := done s; scheduled := scheduled s; ready := ready s;
         reserved := reserved s; queue := queue s; left_ := left_ s; abort := abort s || stop;
         recorded := recorded s |}
(* runs.py:371-385 (then 276: the thread is told to stop, and joined). The loop goes over the list
   that the thread extends, so what is handed over while it runs is recorded too; this is its end. *)
| st_rest s :
    main s = Leaving ->
    step s (LRest (queue s))
      {| thread := thread s; main := if Nat.eqb (length (before_string (queue s))) (length (queue s))
                                     then Finished else Crashed;
         done := done s; scheduled := scheduled s; ready := ready s;
         reserved := reserved s; queue := queue s; left_ := left_ s; abort := true;
         recorded := recorded s ++ before_string (queue s) |}.

(** executions *)
Inductive run : list label -> state -> Prop :=
| run_nil : run [] initial
| run_step tr s l s' : run tr s -> step s l s' -> run (tr ++ [l]) s'.

End Sched.

(** ** The review in a parallel run *)

(** runs.py:142-148: the configuration of the workers *)
Definition worker_config (c : config) : config := {|
  always_interactive := false; interactive := false; update := update c; accept := accept c;
  cont := false; fail_fast := fail_fast c; point_error_pos := point_error_pos c |}.

(** testcaserun.py:203-220 in the worker, which puts the reviewed result into its report file
    (testrun.py:145-190 run_async), then runs.py:336-346 in the main process *)
Definition parallel_review (exp_dir out_dir name : str) (res : result) (c : config)
  (answers : list str) (f : fs) : io (result * request * list str) :=
  io_bind (case_review exp_dir out_dir name res (worker_config c) [] f) (fun x f1 =>
    case_review exp_dir out_dir name (fst (fst x)) c answers f1).
