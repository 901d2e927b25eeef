(** Parallel runs that are stopped, exactly: which results are in the report (C62) and when the
    exit status agrees with them (C63). *)
From Verif Require Import PyStrFacts SchedSpec SchedProofs SchedAccount SchedResults SchedValues SchedProps.
From Coq Require Import Lia.
Local Open Scope list_scope.

Section Exact.
Variable todo : list str.
Variable deps : str -> list str.
Variable res : str -> list nat.
Variable dur : str -> nat.
Variable leaves : str -> worker_report.
Notation run := (run todo deps res dur leaves).

Lemma after_rest tr s rs : run tr s -> In (LRest rs) tr -> main s = Finished \/ main s = Crashed.
Proof.
  intros R. induction R as [|tr s l s' Hr IH Hs]; intros H; [destruct H|].
  apply in_app_iff in H. destruct H as [H|[H|[]]].
  - specialize (IH H). inversion Hs; subst; cbn [main]; trivial; destruct IH; congruence.
  - subst l. inversion Hs; subst; cbn [main]. destruct (Nat.eqb _ _); auto.
Qed.

Lemma written_names tr s tr1 rs tr2 : run tr s -> main s = Finished -> tr = tr1 ++ LRest rs :: tr2 ->
  map rep_name (written tr) = map rep_name (published tr1).
Proof.
  intros R. revert tr2. induction R as [|tr s l s' Hr IH Hs]; intros tr2 M E; [destruct tr1; discriminate|].
  destruct tr2 as [|l2 tr2 _] using rev_ind.
  - assert (R' : run (tr ++ [l]) s') by exact (run_step _ _ _ _ _ _ _ _ _ Hr Hs).
    pose proof (flow_run _ _ _ _ _ _ _ R') as F.
    rewrite (rest_all _ _ _ _ _ _ _ _ _ _ R' E), <- E. rewrite (f_names _ _ _ F); [|congruence].
    unfold hand. rewrite M. cbn. now rewrite app_nil_r.
  - rewrite app_comm_cons, app_assoc in E. apply app_inj_tail in E. destruct E as [E <-].
    assert (IN : In (LRest rs) tr) by (rewrite E; apply in_or_app; right; now left).
    pose proof (after_rest _ _ _ Hr IN) as A. rewrite written_snoc.
    inversion Hs; subst l s'; cbn [main] in M; try (cbn; rewrite app_nil_r; apply (IH tr2 M E)); destruct A; congruence.
Qed.

Lemma rest_strings tr s rs : run tr s -> main s <> Crashed -> In (LRest rs) tr -> before_string rs = rs.
Proof.
  intros R. induction R as [|tr s l s' Hr IH Hs]; intros M H; [destruct H|].
  apply in_app_iff in H. destruct H as [H|[H|[]]].
  - apply IH; [|assumption]. inversion Hs; subst; cbn [main] in M; try assumption; congruence.
  - subst l. inversion Hs; subst; cbn [main] in M.
    destruct (Nat.eqb_spec (length (before_string (queue s))) (length (queue s))) as [E|E]; [|congruence].
    now apply before_string_all.
Qed.

Lemma exit_dec tr : exit_zero tr \/ ~ exit_zero tr.
Proof.
  unfold exit_zero. induction tr as [|l tr IH]; [left; intros r st []|].
  assert (D : (forall r st, l = LRecord r st -> snd r = Enum OK) \/ exists r st, l = LRecord r st /\ snd r <> Enum OK).
  { destruct l as [| | | | | | | |[n [[]|]] st|]; try (left; intros ? ? E; try discriminate E; injection E as <- <-; reflexivity);
      right; eexists; eexists; (split; [reflexivity|discriminate]). }
  destruct D as [D|(r & st & -> & D)].
  - destruct IH as [IH|IH]; [left|right].
    + intros r st [E|H]; [now apply (D r st)|now apply (IH r st)].
    + intros X. apply IH. intros r st H. apply (X r st). now right.
  - right. intros X. apply D, (X r st). now left.
Qed.

Lemma exit_exact tr s : run tr s -> main s <> Crashed ->
  ((exit_zero tr <-> forall r, In r (written tr) -> snd r = Enum OK) <->
   (~ exit_zero tr \/ forall rs r, In (LRest rs) tr -> In r rs -> snd r = Enum OK)).
Proof.
  intros R M.
  assert (W : (forall r, In r (written tr) -> snd r = Enum OK) -> exit_zero tr).
  { intros A [n [y|]] st H.
    - apply (A (n, Enum y)). apply in_flat_map. eexists. split; [exact H|]. now left.
    - exfalso. apply M. clear A M. revert H. induction R as [|tr s l s' Hr IH Hs]; intros H; [destruct H|].
      apply in_app_iff in H. destruct H as [H|[H|[]]].
      + specialize (IH H). inversion Hs; subst; cbn [main]; try assumption; congruence.
      + subst l. inversion Hs; subst. reflexivity. }
  split.
  - intros [E _]. destruct (exit_dec tr) as [Z|Z]; [right|now left].
    intros rs r H I. apply (E Z). apply in_flat_map. exists (LRest rs). split; [assumption|].
    now rewrite (rest_strings _ _ _ R M H).
  - intros [N|A]; (split; [|exact W]); [intros Z; contradiction|].
    intros E r H. apply in_flat_map in H. destruct H as (l & Hl & H).
    destruct l as [| | | | | | | |[m [y|]] st|rs]; try (now destruct H).
    + destruct H as [<-|[]]. exact (E _ _ Hl).
    + rewrite (rest_strings _ _ _ R M Hl) in H. exact (A _ _ Hl H).
Qed.
End Exact.

(** ** C62: the report of a run that went on to its last pass holds, in this order, exactly what
    the scheduler thread had handed over when the pass was made; all that it hands over later is
    lost. *)
Theorem C62_abort_records_exact todo deps res dur leaves tr s tr1 rs tr2 :
  run todo deps res dur leaves tr s -> main s = Finished -> tr = tr1 ++ LRest rs :: tr2 ->
  map rep_name (written tr) = map rep_name (published tr1).
Proof. exact (written_names todo deps res dur leaves tr s tr1 rs tr2). Qed.
Print Assumptions C62_abort_records_exact.

(** ** C63: the exit status agrees with the report of the run unless everything that was reviewed is
    OK and something that was only added in the last pass is not. *)
Theorem C63_exit_code_exact todo deps res dur leaves tr s :
  run todo deps res dur leaves tr s -> main s <> Crashed ->
  ((exit_zero tr <-> forall r, In r (written tr) -> snd r = Enum OK) <->
   (~ exit_zero tr \/ forall rs r, In (LRest rs) tr -> In r rs -> snd r = Enum OK)).
Proof. exact (exit_exact todo deps res dur leaves tr s). Qed.
Print Assumptions C63_exit_code_exact.

(** stopped after the first of two tests: one report, and the second test's is lost; the status is
    0 and agrees with the report *)
Example C62_C63_exact_example : exists tr s,
  run [ta; tb] (fun _ => []) (fun _ => []) (fun _ => 0) all_ok tr s /\
  main s = Finished /\ aborted tr /\ (exists tr1 tr2, tr = tr1 ++ LRest [] :: tr2 /\ map rep_name (published tr1) = [ta]) /\
  map rep_name (published tr) = [ta; tb] /\ map rep_name (written tr) = [ta] /\ exit_zero tr.
Proof.
  eexists. eexists. split.
  - steps 17.
    1: { plan_with [tb; ta]. } 1: { vm_compute; reflexivity. }
    1: { start ta [tb]. } 1: { vm_compute; reflexivity. }
    1: { start tb (@nil str). } 1: { vm_compute; reflexivity. }
    1: { finish ta. } 1: { vm_compute; reflexivity. }
    1: { collect [ta]. } 1: { vm_compute; reflexivity. }
    1: { publish. } 1: { vm_compute; reflexivity. }
    1: { plan_with (@nil str). } 1: { vm_compute; reflexivity. }
    1: { apply st_start_none; reflexivity. } 1: { vm_compute; reflexivity. }
    1: { finish tb. } 1: { vm_compute; reflexivity. }
    1: { collect [tb]. } 1: { vm_compute; reflexivity. }
    1: { check. } 1: { vm_compute; reflexivity. }
    1: { take. } 1: { vm_compute; reflexivity. }
    1: { record OK true. } 1: { vm_compute; reflexivity. }
    1: { check. } 1: { vm_compute; reflexivity. }
    1: { rest. } 1: { vm_compute; reflexivity. }
    1: { publish. } 1: { vm_compute; reflexivity. }
    1: { stop. } 1: { vm_compute; reflexivity. }
  - split; [reflexivity|]. split; [eexists; vm_compute; do 12 right; left; reflexivity|].
    split; [|split; [reflexivity|split; [reflexivity|]]].
    + eexists [_; _; _; _; _; _; _; _; _; _; _; _; _; _]. eexists. split; [reflexivity|reflexivity].
    + intros r st H. vm_compute in H. repeat (destruct H as [H|H]; [try discriminate H|]); [|destruct H]. now injection H as <- <-.
Qed.
