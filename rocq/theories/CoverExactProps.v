(** C139: exactly when --cov raises before any test runs. *)
From Verif Require Import PyStrFacts FsFacts CoverProps.
From Coq Require Import ZArith.

Lemma remove_old_stops l : forall f i, In i l -> starts_with (lit ".coverage.") i = true -> is_file i f = false ->
  exists g, remove_old l f = Raise g /\ forall p, lookup p g = lookup p f \/ (In p l /\ starts_with (lit ".coverage.") p = true).
Proof.
  induction l as [|j l IH]; intros f i I S F; [destruct I|]. cbn [remove_old]. destruct (starts_with (lit ".coverage.") j) eqn:SJ.
  - unfold os_remove. destruct (is_file j f) eqn:FJ; cbn [io_bind]; [|exists f; split; [reflexivity|intros p; now left]].
    destruct I as [->|I]; [congruence|].
    destruct (IH (remove_file j f) i I S) as (g & R & L).
    { unfold is_file in *. rewrite lookup_remove. destruct (str_eqb j i); [reflexivity|exact F]. }
    exists g. split; [exact R|]. intros p. destruct (L p) as [E|[E1 E2]]; [|right; split; [now right|exact E2]]. rewrite lookup_remove in E.
    destruct (str_eqb_spec j p) as [EQ|_]; [right; split; [left; exact EQ|rewrite <- EQ; exact SJ]|now left].
  - destruct I as [->|I]; [congruence|]. destruct (IH f i I S F) as (g & R & L). exists g. split; [exact R|]. intros p. destruct (L p) as [E|[E1 E2]]; [now left|right; split; [now right|exact E2]].
Qed.

(** With --cov, whatever the library and the tests do, an exception is raised before they start, exactly if a directory has the name of old data.
    Of the files, at most old data is gone then. *)
Theorem C139_no_run_exact : forall listdir f,
  (forall f, lists f (listdir f)) -> (forall p, is_dir p f = true -> lookup p f = None) ->
  ((exists g, forall cov_start cov_end cov_report run, run_covered listdir cov_start cov_end cov_report run true f = Raise g) <->
   exists i, old_data i /\ is_dir i f = true) /\
  forall g, (forall cov_start cov_end cov_report run, run_covered listdir cov_start cov_end cov_report run true f = Raise g) -> forall p, ~ old_data p -> lookup p g = lookup p f.
Proof.
  intros listdir f LI WF.
  assert (B : forall i, old_data i -> is_dir i f = true -> exists g, (forall cs ce cr run, run_covered listdir cs ce cr run true f = Raise g) /\ forall p, ~ old_data p -> lookup p g = lookup p f).
  { intros i OD D. destruct (is_dir (lit ".coverage") f) eqn:D0.
    - exists f. split; [|reflexivity]. intros cs ce cr run. cbn [run_covered]. unfold with_coverage, path_exists, os_remove, is_file. rewrite D0, (WF _ D0). reflexivity.
    - destruct OD as [->|[S NS]]; [congruence|].
      assert (S0 : exists f1, (if path_exists (lit ".coverage") f then os_remove (lit ".coverage") f else Ret tt f) = Ret tt f1 /\
        forall p, lookup p f1 = if str_eqb (lit ".coverage") p then None else lookup p f).
      { unfold path_exists. rewrite D0, orb_false_r. unfold os_remove, is_file. destruct (lookup (lit ".coverage") f) eqn:L.
        - eexists. split; [reflexivity|]. intros p. apply lookup_remove.
        - exists f. split; [reflexivity|]. intros p. destruct (str_eqb_spec (lit ".coverage") p) as [<-|_]; [exact L|reflexivity]. }
      destruct S0 as (f1 & E1 & L1).
      assert (D1 : is_dir i f1 = true).
      { apply is_dir_iff in D as (p & t & T & BE). apply is_dir_iff. exists p, t. split; [|exact BE]. rewrite L1. destruct (str_eqb_spec (lit ".coverage") p) as [<-|_]; [|exact T].
        apply below_iff in BE as [r BE]. exfalso. assert (X : In SLASH (lit ".coverage")) by (rewrite BE; apply in_or_app; right; now left). vm_compute in X. intuition discriminate. }
      assert (F1 : is_file i f1 = false) by (unfold is_file; rewrite L1, (WF i D); now destruct (str_eqb _ i)).
      destruct (LI f1) as [_ IN].
      assert (I1 : In i (listdir f1)).
      { apply IN. split; [intros ->; discriminate S|]. split; [exact NS|]. unfold path_exists. now rewrite D1, orb_true_r. }
      destruct (remove_old_stops (listdir f1) f1 i I1 S F1) as (g & R & L). exists g. split.
      + intros cs ce cr run. cbn [run_covered]. unfold with_coverage. rewrite E1. cbn [io_bind]. now rewrite R.
      + intros p N. destruct (L p) as [E|[J SP]].
        * rewrite E, L1. destruct (str_eqb_spec (lit ".coverage") p) as [<-|_]; [exfalso; apply N; now left|reflexivity].
        * exfalso. apply N. right. split; [exact SP|]. apply IN in J. tauto. }
  assert (A : forall g, (forall cs ce cr run, run_covered listdir cs ce cr run true f = Raise g) -> exists i, old_data i /\ is_dir i f = true).
  { intros g H. destruct (is_dir (lit ".coverage") f) eqn:D0; [exists (lit ".coverage"); split; [now left|exact D0]|].
    destruct (existsb (fun i => starts_with (lit ".coverage.") i && is_dir i f) (listdir f)) eqn:X.
    - apply existsb_exists in X as (i & I & X). apply andb_true_iff in X as [S D]. exists i. split; [|exact D]. right. split; [exact S|]. apply (proj2 (LI f)) in I. tauto.
    - exfalso. destruct (cleaned listdir LI (Ret tt) (Ret tt) (Ret tt) (Ret 0%Z) f) as (f2 & _ & _ & G); [|specialize (H (Ret tt) (Ret tt) (Ret tt) (Ret 0%Z)); cbn [run_covered] in H; rewrite G in H; discriminate H].
      intros i [->|[S NS]]; [exact D0|]. destruct (is_dir i f) eqn:D; [|reflexivity]. rewrite <- X. symmetry. apply existsb_exists. exists i.
      split; [|now rewrite S, D]. apply (proj2 (LI f)). split; [intros ->; discriminate S|]. split; [exact NS|]. unfold path_exists. now rewrite D, orb_true_r. }
  split; [split|].
  - intros [g H]. exact (A g H).
  - intros (i & OD & D). destruct (B i OD D) as (g & H & _). eauto.
  - intros g H p N. destruct (A g H) as (i & OD & D). destruct (B i OD D) as (g' & H' & L). specialize (H (Ret tt) (Ret tt) (Ret tt) (Ret 0%Z)). rewrite H' in H. injection H as <-. now apply L.
Qed.
Print Assumptions C139_no_run_exact.

(** .coverage is removed, then the directory .coverage.old stops the command *)
Example C139_exact_example :
  let f := [(lit ".coverage", lit "1"); (lit ".coverage.old/x", lit "data"); (lit "books/t.md", lit "text")] in
  old_data (lit ".coverage.old") /\ is_dir (lit ".coverage.old") f = true /\
  run_covered firsts demo_measure demo_xml demo_xml demo_run true f = Raise [(lit ".coverage.old/x", lit "data"); (lit "books/t.md", lit "text")].
Proof. cbn zeta. split; [right; split; [reflexivity|vm_compute; intuition discriminate]|]. split; vm_compute; reflexivity. Qed.
