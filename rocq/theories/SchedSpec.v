(** Specification vocabulary for parallel runs: properties of the observed events. *)
From Verif Require Export SchedModel.

Definition label_eqb_start (n : str) (l : label) : bool :=
  match l with LStart m => str_eqb n m | _ => false end.

(** how often [n] was started, recorded *)
Definition starts (tr : list label) (n : str) : nat := length (filter (label_eqb_start n) tr).

(** case [n] is in execution *)
Definition running (tr : list label) (n : str) : Prop := In (LStart n) tr /\ ~ In (LFinish n) tr.

(** the cases whose end was noticed, in the order it was *)
Definition collected (tr : list label) : list str :=
  flat_map (fun l => match l with LCollect ts => ts | _ => [] end) tr.

(** the records written by the main thread, in order *)
Definition written (tr : list label) : list report :=
  flat_map (fun l => match l with LRecord (n, Enum r) _ => [(n, Enum r)] | LRest rs => before_string rs | _ => [] end) tr.

(** the reports handed over by the scheduler thread, and those the main thread has taken *)
Definition published (tr : list label) : list report :=
  flat_map (fun l => match l with LPublish rs => rs | _ => [] end) tr.
Definition delivered (tr : list label) : list report :=
  flat_map (fun l => match l with LTake r => [r] | LRest rs => rs | _ => [] end) tr.

(** the result a worker's report file stands for *)
Definition says (w : worker_report) (x : report_result) : Prop :=
  match w with Recorded r => x = Enum r | NoFile => x = FailString | EmptyFile => False end.

(** the user (or fail-fast) has aborted the run *)
Definition aborted (tr : list label) : Prop := exists r, In (LRecord r true) tr.

(** runs.py:351-352, 417: exit code 0 *)
Definition exit_zero (tr : list label) : Prop := forall r stop, In (LRecord r stop) tr -> snd r = Enum OK.

Section Spec.
Variable todo : list str.
Variable deps : str -> list str.

(** dependencies within the run *)
Inductive depends : str -> str -> Prop :=
| dep_one n d : In n todo -> In d todo -> In d (deps n) -> depends n d
| dep_trans n e d : depends n e -> depends e d -> depends n d.

Definition acyclic_deps : Prop := forall n, ~ depends n n.

(** ** Values *)

(** What tests return: [behave n vs] is the value of test [n] when its dependencies have the
    values [vs] (None: there is none). *)
Context {V : Type}.
Variable behave : str -> list (option V) -> option V.

Definition store := str -> option V.
Definition put (s : store) (n : str) (v : option V) : store := fun m => if str_eqb m n then v else s m.

(** sequential run of the cases [l] *)
Fixpoint seq_values (l : list str) (s : store) : store :=
  match l with
  | [] => s
  | n :: rest => seq_values rest (put s n (behave n (map s (deps n))))
  end.

(** a parallel run: a test reads its dependencies' values after it was started and stores its
    own before it has finished *)
Inductive par_values : list label -> store -> (str -> list (option V)) -> store -> Prop :=
| pv_nil s0 rd : par_values [] s0 rd s0
| pv_start n tr s0 rd s :
    par_values tr s0 rd s ->
    par_values (tr ++ [LStart n]) s0 (fun m => if str_eqb m n then map s (deps n) else rd m) s
| pv_read n tr s0 rd s :      (* it may read later, or again *)
    par_values tr s0 rd s -> running tr n ->
    par_values tr s0 (fun m => if str_eqb m n then map s (deps n) else rd m) s
| pv_finish n tr s0 rd s :
    par_values tr s0 rd s -> par_values (tr ++ [LFinish n]) s0 rd (put s n (behave n (rd n)))
| pv_other l tr s0 rd s :
    par_values tr s0 rd s -> (forall n, l <> LStart n) -> (forall n, l <> LFinish n) ->
    par_values (tr ++ [l]) s0 rd s.

(** every dependency within the list comes before its dependent *)
Definition sorted (l : list str) : Prop :=
  forall a n b d, l = a ++ n :: b -> In d (deps n) -> In d l -> In d a.
End Spec.
