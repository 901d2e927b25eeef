(** Parallel runs. *)
From Verif Require Import PyStrFacts SchedSpec SchedProofs SchedAccount SchedResults SchedValues ReviewSpec ReviewProofs FsFacts.
From Coq Require Import Lia Permutation Sorted.

(** In all theorems [run todo deps res dur leaves tr s]: an execution of scheduler thread, workers
    and main thread with the observed events [tr], in any interleaving, has reached [s]. *)

(** ** C34 *)
Theorem C34_exclusive_resources todo deps res dur leaves tr s a b x :
  run todo deps res dur leaves tr s ->
  running tr a -> running tr b -> a <> b -> In x (res a) -> ~ In x (res b).
Proof. exact (exclusive todo deps res dur leaves tr s a b x). Qed.
Print Assumptions C34_exclusive_resources.

(** ** C35 *)
Theorem C35_dependencies_first todo deps res dur leaves tr s before n after d :
  run todo deps res dur leaves tr s -> tr = before ++ LStart n :: after ->
  In d (deps n) -> In d todo -> In (LFinish d) before.
Proof. exact (deps_first todo deps res dur leaves tr s before n after d). Qed.
Print Assumptions C35_dependencies_first.

(** ** C36 *)
Theorem C36_started_at_most_once todo deps res dur leaves tr s n :
  run todo deps res dur leaves tr s -> starts tr n <= 1 /\ (In (LStart n) tr -> In n todo).
Proof. exact (started_once todo deps res dur leaves tr s n). Qed.
Print Assumptions C36_started_at_most_once.

(** at every moment, aborted or not: what has been handed over are the reports of the cases seen
    to end, in that order, what the main thread took is a prefix of it, what it wrote is a prefix
    of that, nothing twice, and each report is the one the worker left *)
Theorem C36_nothing_invented todo deps res dur leaves tr s :
  run todo deps res dur leaves tr s ->
  (exists later, collected tr = map rep_name (published tr) ++ later) /\
  (exists later, published tr = delivered tr ++ later) /\
  (exists later, collected tr = map rep_name (written tr) ++ later) /\
  NoDup (collected tr) /\ incl (collected tr) todo /\
  (forall n r, In (n, r) (delivered tr) -> says (leaves n) r).
Proof. exact (records_prefix todo deps res dur leaves tr s). Qed.
Print Assumptions C36_nothing_invented.

Theorem C36_exactly_once todo deps res dur leaves tr s : NoDup todo ->
  run todo deps res dur leaves tr s -> main s = Finished -> ~ aborted tr ->
  Permutation (collected tr) todo /\
  map rep_name (delivered tr) = collected tr /\
  map rep_name (written tr) = collected tr /\
  (forall n, In n todo -> starts tr n = 1 /\ In (LFinish n) tr).
Proof. intros ND. exact (complete todo deps res dur leaves ND tr s). Qed.
Print Assumptions C36_exactly_once.

(** ** C37 *)
Theorem C37_progress todo deps res dur leaves tr s : NoDup todo ->
  acyclic_deps todo deps -> (forall n, In n todo -> leaves n <> EmptyFile) ->
  run todo deps res dur leaves tr s ->
  (exists n, running tr n) \/
  (exists l s', step todo deps res dur leaves s l s' /\ forall n, l <> LFinish n) \/
  ((main s = Finished \/ main s = Crashed) /\ thread s = Ended).
Proof. intros ND. exact (progress todo deps res dur leaves ND tr s). Qed.
Print Assumptions C37_progress.

Theorem C37_terminates todo deps res dur leaves tr s :
  run todo deps res dur leaves tr s -> length tr <= 16 * length todo + 8.
Proof. intros R. pose proof (terminates todo deps res dur leaves tr s R). lia. Qed.
Print Assumptions C37_terminates.

(** an execution that cannot go on is over, with all threads ended *)
Theorem C37_ends todo deps res dur leaves tr s : NoDup todo ->
  acyclic_deps todo deps -> (forall n, In n todo -> exists r, leaves n = Recorded r) ->
  run todo deps res dur leaves tr s ->
  (forall l s', ~ step todo deps res dur leaves s l s') ->
  main s = Finished /\ thread s = Ended.
Proof.
  intros ND Ac AR R St.
  assert (LE : forall n, In n todo -> leaves n <> EmptyFile).
  { intros n Hn. destruct (AR n Hn) as [r E]. congruence. }
  destruct (progress todo deps res dur leaves ND tr s Ac LE R) as [[n H]|[(l & s' & H & _)|[[H|H] T]]].
  - exfalso. pose proof (inv_run _ _ _ _ _ _ _ R) as I.
    apply (St (LFinish n) _ (st_finish _ _ _ _ _ s n (running_scheduled _ _ _ _ _ _ I H)
      (fun X => proj2 H (proj2 (i_finish _ _ _ _ _ I n) (or_intror X))))).
  - now destruct (St l s').
  - auto.
  - destruct (no_crash _ _ _ _ _ _ _ AR R). contradiction.
Qed.
Print Assumptions C37_ends.

(** ** Examples *)

Definition ta : str := lit "t/a".
Definition tb : str := lit "t/b".
Definition tc : str := lit "t/c".
Definition ex_deps (n : str) : list str := if str_eqb n tc then [ta; tb] else [].
Definition ex_res (n : str) : list nat := if str_eqb n tc then [] else [7].
Definition all_ok (n : str) : worker_report := Recorded OK.


Fixpoint nodupb (l : list str) : bool :=
  match l with [] => true | x :: r => negb (str_mem x r) && nodupb r end.
Lemma nodupb_ok l : nodupb l = true -> NoDup l.
Proof.
  induction l as [|x l IH]; [constructor|]. cbn [nodupb]. rewrite andb_true_iff, negb_true_iff. intros [A B].
  constructor; [|now apply IH]. intros H. apply str_mem_In in H. congruence.
Qed.
Lemma inb_ok x l : str_mem x l = true -> In x l.
Proof. apply str_mem_In. Qed.
Lemma ninb_ok x l : str_mem x l = false -> ~ In x l.
Proof. intros H X. apply str_mem_In in X. congruence. Qed.
Lemma allb_ok (a b c : list str) : forallb (fun x => str_mem x b && str_mem x c) a = true ->
  forall n, In n a -> In n b /\ In n c.
Proof.
  rewrite forallb_forall. intros H n Hn. specialize (H n Hn). apply andb_true_iff in H. rewrite !str_mem_In in H. exact H.
Qed.
Lemma setb_ok (a b : list str) : nodupb a && forallb (fun x => str_mem x b) a && forallb (fun x => str_mem x a) b = true ->
  same_set a b.
Proof.
  rewrite !andb_true_iff, !forallb_forall. intros [[A B] C]. split; [now apply nodupb_ok|].
  intros x. split; intros H; apply str_mem_In; auto.
Qed.

Lemma run_to todo deps res dur leaves tr s l s0 s1 : run todo deps res dur leaves tr s ->
  step todo deps res dur leaves s l s0 -> s0 = s1 -> run todo deps res dur leaves (tr ++ [l]) s1.
Proof. intros R S <-. now apply run_step with s. Qed.
Ltac steps n := lazymatch n with O => apply run_nil | S ?m => eapply run_to; [steps m| |] end.

Ltac plan_with o := apply (st_plan _ _ _ _ _ _ o); [reflexivity|vm_compute; lia|reflexivity|apply setb_ok; vm_compute; reflexivity].
Ltac start n l := apply (st_start _ _ _ _ _ _ n l); [reflexivity|apply ninb_ok; reflexivity|apply ninb_ok; reflexivity].
Ltac finish n := apply (st_finish _ _ _ _ _ _ n); [apply inb_ok; reflexivity|apply ninb_ok; reflexivity].
Ltac collect ts := eapply (st_collect _ _ _ _ _ _ ts); [reflexivity|apply nodupb_ok; reflexivity|apply allb_ok; reflexivity|left; discriminate|vm_compute; reflexivity].
Ltac publish := eapply st_publish; reflexivity.
Ltac check := apply st_check; reflexivity.
Ltac take := eapply st_take; reflexivity.
Ltac record y b := eapply (st_record _ _ _ _ _ _ _ _ y b); reflexivity.
Ltac rest := apply st_rest; reflexivity.
Ltac stop := apply st_stop; [reflexivity|first [right; reflexivity|left; vm_compute; lia]].

(** [a] and [b] share a resource, [c] depends on both *)
Example sched_ex : exists tr s, run [ta; tb; tc] ex_deps ex_res (fun _ => 0) all_ok tr s /\
  main s = Finished /\ thread s = Ended /\ collected tr = [tb; ta; tc] /\ NoDup [ta; tb; tc].
Proof.
  eexists. eexists. split.
  - steps 27.
    1: { plan_with [tb; ta; tc]. } 1: { vm_compute; reflexivity. }
    1: { start tb (@nil str). } 1: { vm_compute; reflexivity. }
    1: { check. } 1: { vm_compute; reflexivity. }
    1: { finish tb. } 1: { vm_compute; reflexivity. }
    1: { collect [tb]. } 1: { vm_compute; reflexivity. }
    1: { publish. } 1: { vm_compute; reflexivity. }
    1: { take. } 1: { vm_compute; reflexivity. }
    1: { plan_with [ta; tc]. } 1: { vm_compute; reflexivity. }
    1: { start ta (@nil str). } 1: { vm_compute; reflexivity. }
    1: { record OK false. } 1: { vm_compute; reflexivity. }
    1: { check. } 1: { vm_compute; reflexivity. }
    1: { finish ta. } 1: { vm_compute; reflexivity. }
    1: { collect [ta]. } 1: { vm_compute; reflexivity. }
    1: { publish. } 1: { vm_compute; reflexivity. }
    1: { take. } 1: { vm_compute; reflexivity. }
    1: { record OK false. } 1: { vm_compute; reflexivity. }
    1: { check. } 1: { vm_compute; reflexivity. }
    1: { plan_with [tc]. } 1: { vm_compute; reflexivity. }
    1: { start tc (@nil str). } 1: { vm_compute; reflexivity. }
    1: { finish tc. } 1: { vm_compute; reflexivity. }
    1: { collect [tc]. } 1: { vm_compute; reflexivity. }
    1: { publish. } 1: { vm_compute; reflexivity. }
    1: { take. } 1: { vm_compute; reflexivity. }
    1: { record OK false. } 1: { vm_compute; reflexivity. }
    1: { check. } 1: { vm_compute; reflexivity. }
    1: { stop. } 1: { vm_compute; reflexivity. }
    1: { rest. } 1: { vm_compute; reflexivity. }
    all: fail.
  - split; [reflexivity|]. split; [reflexivity|]. split; [reflexivity|]. apply nodupb_ok; reflexivity.
Qed.

Example sched_ex_acyclic : acyclic_deps [ta; tb; tc] ex_deps.
Proof.
  apply (sorted_acyclic [ta; tb; tc] ex_deps (ltac:(apply nodupb_ok; reflexivity)) [ta; tb; tc]); [reflexivity|].
  intros a n b d E Hd _. unfold ex_deps in Hd. destruct (str_eqb n tc) eqn:T; [|destruct Hd].
  apply str_eqb_eq in T. subst n.
  destruct a as [|x1 [|x2 [|x3 a]]]; [discriminate| |injection E as <- <- _; exact Hd|].
  - injection E as _ E _. discriminate.
  - injection E as _ _ _ E. destruct a; discriminate.
Qed.

(** two cases of a shared resource wait for each other, others run side by side *)
Example sched_ex_parallel : exists tr s, run [ta; tb] (fun _ => []) (fun n => if str_eqb n ta then [1] else [2]) (fun _ => 0) all_ok tr s /\
  running tr ta /\ running tr tb.
Proof.
  eexists. eexists. split.
  - steps 3.
    1: { plan_with [tb; ta]. } 1: { vm_compute; reflexivity. }
    1: { start ta [tb]. } 1: { vm_compute; reflexivity. }
    1: { start tb (@nil str). } 1: { vm_compute; reflexivity. }
  - split; (split; [cbn; auto|]); cbn; intuition discriminate.
Qed.

(** ** C38 *)

(** Without report file the main thread dies; with an empty one the scheduler thread dies and the
    main thread waits for ever. *)
Theorem C38_crashed_worker_refuted :
  (exists leaves tr s, leaves ta = NoFile /\ leaves tb = Recorded OK /\
     run [ta; tb] (fun _ => []) (fun _ => []) (fun _ => 0) leaves tr s /\
     main s = Crashed /\ written tr = []) /\
  (exists leaves tr s, leaves ta = EmptyFile /\
     run [ta] (fun _ => []) (fun _ => []) (fun _ => 0) leaves tr s /\
     main s = Waiting /\ thread s = Dead /\ ~ aborted tr /\ written tr = [] /\
     forall l s', ~ step [ta] (fun _ => []) (fun _ => []) (fun _ => 0) leaves s l s').
Proof.
  split.
  - exists (fun n => if str_eqb n ta then NoFile else Recorded OK). eexists. eexists.
    split; [reflexivity|]. split; [reflexivity|]. split.
    + steps 9.
      1: { plan_with [tb; ta]. } 1: { vm_compute; reflexivity. }
      1: { start ta [tb]. } 1: { vm_compute; reflexivity. }
      1: { start tb (@nil str). } 1: { vm_compute; reflexivity. }
      1: { check. } 1: { vm_compute; reflexivity. }
      1: { finish ta. } 1: { vm_compute; reflexivity. }
      1: { collect [ta]. } 1: { vm_compute; reflexivity. }
      1: { publish. } 1: { vm_compute; reflexivity. }
      1: { take. } 1: { vm_compute; reflexivity. }
      1: { eapply (st_record_crash _ _ _ _ _ _ _ false); reflexivity. } 1: { vm_compute; reflexivity. }
    + split; reflexivity.
  - exists (fun _ => EmptyFile). eexists. eexists.
    split; [reflexivity|]. split.
    + steps 5.
      1: { plan_with [ta]. } 1: { vm_compute; reflexivity. }
      1: { start ta (@nil str). } 1: { vm_compute; reflexivity. }
      1: { check. } 1: { vm_compute; reflexivity. }
      1: { finish ta. } 1: { vm_compute; reflexivity. }
      1: { apply (st_collect_dies _ _ _ _ _ _ [ta]); [reflexivity|apply nodupb_ok; reflexivity|apply allb_ok; reflexivity|reflexivity]. }
      1: { vm_compute; reflexivity. }
    + split; [reflexivity|]. split; [reflexivity|]. split; [|split; [reflexivity|]].
      * intros [r H]. cbn in H. intuition discriminate.
      * intros l s' H. inversion H; subst; cbn in *; try discriminate; contradiction.
Qed.
Print Assumptions C38_crashed_worker_refuted.

(** If every worker leaves a record, whatever its result, neither thread dies, the run goes on and
    the result is delivered. (Missing: cases whose worker leaves no record.) *)
Theorem C38_recorded_results_partial todo deps res dur leaves tr s : NoDup todo ->
  (forall n, In n todo -> exists r, leaves n = Recorded r) ->
  run todo deps res dur leaves tr s ->
  (thread s <> Dead /\ main s <> Crashed) /\
  (main s = Finished -> ~ aborted tr ->
   forall n r, In n todo -> leaves n = Recorded r -> In (n, Enum r) (delivered tr)).
Proof.
  intros ND AR R. split; [exact (no_crash _ _ _ _ _ _ _ AR R)|]. intros M NA n r Hn L.
  destruct (complete _ _ _ _ _ ND _ _ R M NA) as (P & E & _ & _).
  apply (Permutation_in _ (Permutation_sym P)) in Hn. rewrite <- E in Hn. apply in_map_iff in Hn.
  destruct Hn as ([m x] & E1 & Hx). cbn in E1. subst m.
  destruct (records_prefix _ _ _ _ _ _ _ R) as (_ & _ & _ & _ & _ & S). specialize (S n x Hx).
  rewrite L in S. cbn in S. now subst x.
Qed.
Print Assumptions C38_recorded_results_partial.

(** A missing record makes the case FAIL as long as the main thread has not seen it: the other
    thread never dies of it. *)
Theorem C38_no_file_scheduler_survives_partial todo deps res dur leaves tr s :
  (forall n, In n todo -> leaves n <> EmptyFile) ->
  run todo deps res dur leaves tr s -> thread s <> Dead.
Proof. exact (scheduler_survives todo deps res dur leaves tr s). Qed.
Print Assumptions C38_no_file_scheduler_survives_partial.

(** ** C39 *)
Theorem C39_batch_dirs_refuted : exists b n m, n <> m /\ case_batch_dir b n = case_batch_dir b m /\
  case_report_file b n = case_report_file b m.
Proof.
  exists (lit "books/.out/.batches"), (lit "a/b"), (lit "a.b").
  split; [discriminate|split; vm_compute; reflexivity].
Qed.
Print Assumptions C39_batch_dirs_refuted.

(** exactly: they collide iff they differ only in '/' and '.' *)
Theorem C39_batch_dirs_exact_partial b n m :
  case_batch_dir b n = case_batch_dir b m <->
  map (fun c => if N.eqb c SLASH then DOT else c) n = map (fun c => if N.eqb c SLASH then DOT else c) m.
Proof. exact (batch_dir_eq b n m). Qed.
Print Assumptions C39_batch_dirs_exact_partial.

Theorem C39_batch_dirs_partial b n m : ~ In DOT n -> ~ In DOT m ->
  case_batch_dir b n = case_batch_dir b m -> n = m.
Proof. intros Hn Hm E. apply batch_dir_eq in E. exact (slash_dot_inj n m Hn Hm E). Qed.
Print Assumptions C39_batch_dirs_partial.

Example C39_ex : ~ In DOT (lit "test/sub/case_1") /\
  case_batch_dir (lit "books/.out/.batches") (lit "test/sub/case_1") = lit "books/.out/.batches/test.sub.case_1".
Proof. split; [cbn; intuition discriminate|vm_compute; reflexivity]. Qed.

(** ** C40 *)

(** [behave n vs]: what test [n] does (stored value and result) when its dependencies have the
    values [vs]. In the parallel run it may read them at any time while it is running. *)
Theorem C40_same_results {V : Type} (behave : str -> list (option V) -> option V)
    todo deps res dur leaves order tr s s0 rd st :
  NoDup todo -> Permutation order todo -> sorted deps order ->
  run todo deps res dur leaves tr s -> main s = Finished -> ~ aborted tr ->
  par_values deps behave tr s0 rd st ->
  forall n, st n = seq_values deps behave order s0 n.
Proof. intros ND. exact (par_values_seq todo deps res dur leaves ND behave order tr s s0 rd st). Qed.
Print Assumptions C40_same_results.

(** ... and at any moment of any run, also of an aborted one, for the cases that have finished *)
Theorem C40_same_results_so_far {V : Type} (behave : str -> list (option V) -> option V)
    todo deps res dur leaves order tr s s0 rd st :
  NoDup todo -> Permutation order todo -> sorted deps order ->
  run todo deps res dur leaves tr s ->
  par_values deps behave tr s0 rd st ->
  forall n, In (LFinish n) tr -> st n = seq_values deps behave order s0 n.
Proof. intros ND. exact (par_values_so_far todo deps res dur leaves ND behave order tr s s0 rd st). Qed.
Print Assumptions C40_same_results_so_far.

(** two sequential orders agree as well *)
Theorem C40_order_irrelevant {V : Type} (behave : str -> list (option V) -> option V) todo deps o1 o2 s0 :
  NoDup todo -> Permutation o1 todo -> Permutation o2 todo -> sorted deps o1 -> sorted deps o2 ->
  forall n, seq_values deps behave o1 s0 n = seq_values deps behave o2 s0 n.
Proof.
  intros ND P1 P2 S1 S2.
  exact (solves_unique todo deps behave o1 s0 _ _ P1 S1 (seq_solves todo deps (fun _ => []) (fun _ => 0) all_ok ND behave o1 s0 P1 S1) (seq_solves todo deps (fun _ => []) (fun _ => 0) all_ok ND behave o2 s0 P2 S2)).
Qed.
Print Assumptions C40_order_irrelevant.

Example C40_ex :
  let behave (n : str) (vs : list (option nat)) := Some (fold_right (fun v a => match v with Some x => x + a | None => a end) (length n) vs) in
  sorted ex_deps [ta; tb; tc] /\
  seq_values ex_deps behave [ta; tb; tc] (fun _ => None) tc = Some 9.
Proof.
  split; [|vm_compute; reflexivity].
  intros a n b d E Hd _. unfold ex_deps in Hd. destruct (str_eqb n tc) eqn:T; [|destruct Hd].
  apply str_eqb_eq in T. subst n.
  destruct a as [|x1 [|x2 [|x3 a]]]; [discriminate| |injection E as <- <- _; exact Hd|].
  - injection E as _ E _. discriminate.
  - injection E as _ _ _ E. destruct a; discriminate.
Qed.

(** ** C41 *)

(** With -u -p a passing case whose output exists makes the main process raise, and the files of
    the freshly accepted snapshot directory are deleted: *)
Theorem C41_update_always_raises exp o n f c cfg answers :
  plain_dir exp -> plain o -> plain n -> ~ path_prefix o n -> ~ path_prefix n o ->
  let out := exp ++ SLASH :: o in
  lookup (out ++ SLASH :: n ++ lit ".md") f = Some c ->
  lookup (exp ++ SLASH :: n) f = None -> lookup (out ++ SLASH :: n) f = None ->
  is_dir (exp ++ SLASH :: n ++ lit ".md") f = false ->
  update cfg = true -> always_interactive cfg = false ->
  (exists f1, case_review exp out n OK cfg answers f = Ret (OK, NONE, answers) f1 /\ accepted exp out n f f1) /\
  exists f2, parallel_review exp out n OK cfg answers f = Raise f2 /\
    forall r, lookup (exp ++ SLASH :: n ++ SLASH :: r) f2 = None.
Proof. exact (parallel_update_raises exp o n f c cfg answers). Qed.
Print Assumptions C41_update_always_raises.

Definition update_config : config := {|
  always_interactive := false; interactive := false; update := true; accept := false;
  cont := false; fail_fast := false; point_error_pos := false |}.

Theorem C41_update_refuted : exists exp out n cfg f f1 f2,
  update cfg = true /\
  case_review exp out n OK cfg [] f = Ret (OK, NONE, []) f1 /\
  lookup (lit "books/t/data.csv") f1 = Some (lit "new") /\
  parallel_review exp out n OK cfg [] f = Raise f2 /\
  lookup (lit "books/t/data.csv") f2 = None.
Proof.
  exists (lit "books"), (lit "books/.out"), (lit "t"), update_config,
    [(lit "books/t.md", lit "x"); (lit "books/t/data.csv", lit "old");
     (lit "books/.out/t.md", lit "x"); (lit "books/.out/t/data.csv", lit "new")].
  eexists. eexists. split; [reflexivity|]. split; [vm_compute; reflexivity|]. split; [vm_compute; reflexivity|].
  split; [vm_compute; reflexivity|vm_compute; reflexivity].
Qed.
Print Assumptions C41_update_refuted.

(** Without -u the parallel review is the sequential one, also with -a; if -a is combined with
    interaction the worker accepts before the user is asked, so that is left out. *)
Theorem C41_without_update_partial exp out n res cfg answers f :
  update cfg = false ->
  (accept cfg = false \/ (always_interactive cfg = false /\ interactive cfg = false)) ->
  parallel_review exp out n res cfg answers f = case_review exp out n res cfg answers f.
Proof. exact (parallel_review_same exp out n res cfg answers f). Qed.
Print Assumptions C41_without_update_partial.

Example C41_ex : exists f', parallel_review (lit "books") (lit "books/.out") (lit "t") DIFF
    {| always_interactive := false; interactive := false; update := false; accept := true;
       cont := false; fail_fast := false; point_error_pos := false |} []
    [(lit "books/t.md", lit "x"); (lit "books/.out/t.md", lit "y")] = Ret (OK, NONE, []) f' /\
  lookup (lit "books/t.md") f' = Some (lit "y").
Proof. eexists. split; vm_compute; reflexivity. Qed.

(** ** C62: what an aborted run records *)
Theorem C62_abort_records_refuted : exists todo tr s, 
  run todo (fun _ => []) (fun _ => []) (fun _ => 0) all_ok tr s /\
  main s = Finished /\ thread s = Ended /\ In tb (collected tr) /\ In tb (map rep_name (published tr)) /\
  ~ In tb (map rep_name (written tr)).
Proof.
  exists [ta; tb]. eexists. eexists. split.
  - steps 17.
    1: { plan_with [tb; ta]. } 1: { vm_compute; reflexivity. }
    1: { start ta [tb]. } 1: { vm_compute; reflexivity. }
    1: { start tb (@nil str). } 1: { vm_compute; reflexivity. }
    1: { finish ta. } 1: { vm_compute; reflexivity. }
    1: { collect [ta]. } 1: { vm_compute; reflexivity. }
    1: { publish. } 1: { vm_compute; reflexivity. }
    1: { plan_with (@nil str). } 1: { vm_compute; reflexivity. }
    1: { apply st_start_none; reflexivity. } 1: { vm_compute; reflexivity. }
    1: { finish tb. } 1: { vm_compute; reflexivity. }
    1: { collect [tb]. } 1: { vm_compute; reflexivity. }
    1: { check. } 1: { vm_compute; reflexivity. }
    1: { take. } 1: { vm_compute; reflexivity. }
    1: { record OK true. } 1: { vm_compute; reflexivity. }
    1: { check. } 1: { vm_compute; reflexivity. }
    1: { rest. } 1: { vm_compute; reflexivity. }
    1: { publish. } 1: { vm_compute; reflexivity. }
    1: { stop. } 1: { vm_compute; reflexivity. }
  - split; [reflexivity|]. split; [reflexivity|]. vm_compute. split; [auto|]. split; [auto|]. intuition discriminate.
Qed.
Print Assumptions C62_abort_records_refuted.

(** everything handed over before the final pass is taken; (missing: what the scheduler thread
    hands over afterwards) *)
Theorem C62_abort_records_partial todo deps res dur leaves tr s tr1 rs tr2 :
  run todo deps res dur leaves tr s -> tr = tr1 ++ LRest rs :: tr2 ->
  published tr1 = delivered (tr1 ++ [LRest rs]).
Proof. exact (rest_all todo deps res dur leaves tr s tr1 rs tr2). Qed.
Print Assumptions C62_abort_records_partial.

(** ** C63: the exit code of a parallel run *)
Theorem C63_exit_code_refuted : exists todo leaves tr s,
  run todo (fun _ => []) (fun _ => []) (fun _ => 0) leaves tr s /\
  main s = Finished /\ exit_zero tr /\ In (tb, Enum FAIL) (written tr).
Proof.
  exists [ta; tb], (fun n => if str_eqb n tb then Recorded FAIL else Recorded OK). eexists. eexists. split.
  - steps 12.
    1: { plan_with [tb; ta]. } 1: { vm_compute; reflexivity. }
    1: { start ta [tb]. } 1: { vm_compute; reflexivity. }
    1: { start tb (@nil str). } 1: { vm_compute; reflexivity. }
    1: { finish ta. } 1: { vm_compute; reflexivity. }
    1: { finish tb. } 1: { vm_compute; reflexivity. }
    1: { collect [ta; tb]. } 1: { vm_compute; reflexivity. }
    1: { publish. } 1: { vm_compute; reflexivity. }
    1: { check. } 1: { vm_compute; reflexivity. }
    1: { take. } 1: { vm_compute; reflexivity. }
    1: { record OK true. } 1: { vm_compute; reflexivity. }
    1: { check. } 1: { vm_compute; reflexivity. }
    1: { rest. } 1: { vm_compute; reflexivity. }
  - split; [reflexivity|]. split; [|vm_compute; auto].
    intros r stop H. cbn in H. repeat (destruct H as [H|H]; [try discriminate H|]); [|destruct H]. now injection H as <- <-.
Qed.
Print Assumptions C63_exit_code_refuted.

Theorem C63_exit_code_partial todo deps res dur leaves tr s :
  run todo deps res dur leaves tr s -> ~ aborted tr -> main s <> Crashed ->
  (exit_zero tr <-> forall r, In r (written tr) -> snd r = Enum OK).
Proof. exact (exit_iff todo deps res dur leaves tr s). Qed.
Print Assumptions C63_exit_code_partial.

(** ** C64: planning *)

(** slowest first, by the durations of the last run, then by name *)
Theorem C64_slowest_first todo deps res dur done reserved candidates :
  StronglySorted (fun a b => dur b < dur a \/ (dur a = dur b /\ str_leb a b = true))
    (plan todo deps res dur done reserved candidates).
Proof. exact (plan_sorted todo deps res dur done reserved candidates). Qed.
Print Assumptions C64_slowest_first.

(** no candidate is left out without reason *)
Theorem C64_no_idle todo deps res dur done reserved candidates n :
  In n candidates -> ~ In n (plan todo deps res dur done reserved candidates) ->
  (exists d, In d (deps n) /\ In d todo /\ ~ In d done) \/
  (exists x, In x (res n) /\
     (In x reserved \/ exists a, In a (plan todo deps res dur done reserved candidates) /\ In x (res a))).
Proof. exact (plan_max todo deps res dur done reserved candidates n). Qed.
Print Assumptions C64_no_idle.

Example C64_ex : plan [ta; tb; tc] (fun _ => []) (fun n => if str_eqb n ta then [1] else if str_eqb n tb then [1] else [])
    (fun n => if str_eqb n tc then 20 else 10) [] [] [tb; ta; tc] = [tc; tb].
Proof. vm_compute. reflexivity. Qed.
