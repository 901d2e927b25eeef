(** C38, exactly: what a run reports in which some workers leave no report. *)
From Verif Require Import PyStrFacts SchedSpec SchedCrashModel SchedProofs SchedAccount SchedResults SchedValues SchedProps SchedExactProps.
From Coq Require Import Lia.
Local Open Scope list_scope.

Definition has_result (r : report) : Prop := exists x, snd r = Enum x.

Section Crash.
Variable todo : list str.
Variable deps : str -> list str.
Variable res : str -> list nat.
Variable dur : str -> nat.
Variable leaves : str -> worker_report.
Notation run := (run todo deps res dur leaves).

Lemma before_string_spec q : Forall has_result (before_string q) /\
  exists b, q = before_string q ++ b /\ (b = [] \/ exists n b', b = (n, FailString) :: b').
Proof.
  induction q as [|[n [r|]] q [IH (b & E & Hb)]]; cbn [before_string].
  - split; [constructor|]. exists []. auto.
  - split; [constructor; [now exists r|exact IH]|]. exists b. cbn [app]. rewrite <- E. auto.
  - split; [constructor|]. exists ((n, FailString) :: q). split; [reflexivity|]. right. now exists n, q.
Qed.

Record crash_inv (tr : list label) (s : state) : Prop := {
  c_fine : main s <> Crashed -> exists d, delivered tr = d ++ hand s /\ Forall has_result d;
  c_loop : main s = Crashed -> (forall rs, ~ In (LRest rs) tr) ->
    exists a n, delivered tr = a ++ [(n, FailString)] /\ Forall has_result a /\
      map rep_name (written tr) = map rep_name a /\ published tr = delivered tr ++ queue s;
  c_pass : main s = Crashed -> forall tr1 rs tr2, tr = tr1 ++ LRest rs :: tr2 ->
    aborted tr /\ exists a n b, published tr1 = a ++ (n, FailString) :: b /\ Forall has_result a /\
      map rep_name (written tr) = map rep_name a
}.

Lemma crash_run tr s : run tr s -> crash_inv tr s.
Proof.
  intros R. induction R as [|tr s l s' Hr [IF IL IP] Hs].
  { constructor; cbn; try discriminate. intros _. exists []. split; [reflexivity|constructor]. }
  pose proof (flow_run _ _ _ _ _ _ _ Hr) as F. pose proof (acc_run _ _ _ _ _ _ _ Hr) as A.
  assert (KEEP : main s' = main s -> queue s' = queue s ++ published [l] -> delivered [l] = [] -> written [l] = [] -> (forall rs, l <> LRest rs) ->
    crash_inv (tr ++ [l]) s').
  { intros EM EQ ED EW NR. constructor; unfold hand; rewrite EM, ?delivered_snoc, ?written_snoc, ?published_snoc, ?ED, ?EW, ?app_nil_r; trivial.
    - intros M N. destruct (IL M) as (a & n & E1 & E2 & E3 & E4); [intros rs H; apply (N rs), in_or_app; now left|].
      exists a, n. repeat split; trivial. rewrite EQ, E4. now rewrite <- app_assoc.
    - intros M tr1 rs tr2 E. destruct tr2 as [|l2 tr2 _] using rev_ind.
      { apply app_inj_tail in E. destruct E as [_ E]. now destruct (NR rs). }
      rewrite app_comm_cons, app_assoc in E. apply app_inj_tail in E. destruct E as [E _].
      destruct (IP M tr1 rs tr2 E) as (Ab & H). split; [now apply aborted_snoc|exact H]. }
  inversion Hs; subst l s'; try (apply KEEP; cbn; rewrite ?app_nil_r; trivial; try discriminate; fail).
  - (* check *)
    assert (M : main s <> Crashed) by (rewrite H; discriminate).
    constructor; cbn [main]; rewrite ?delivered_snoc, ?written_snoc; cbn [delivered written flat_map]; rewrite ?app_nil_r.
    + intros _. destruct (IF M) as (d & E & D). exists d. split; [|assumption]. rewrite E. unfold hand. rewrite H. cbn [main].
      destruct ((_ || _) && _); reflexivity.
    + destruct ((_ || _) && _); discriminate.
    + destruct ((_ || _) && _); discriminate.
  - (* take *)
    assert (M : main s <> Crashed) by (rewrite H; discriminate).
    constructor; cbn [main]; rewrite ?delivered_snoc, ?written_snoc; cbn [delivered written flat_map app]; rewrite ?app_nil_r; try discriminate.
    intros _. destruct (IF M) as (d & E & D). exists d. split; [|assumption]. rewrite E. unfold hand. rewrite H. cbn [main]. now rewrite app_nil_r.
  - (* record *)
    assert (M : main s <> Crashed) by (rewrite H; discriminate).
    constructor; cbn [main]; rewrite ?delivered_snoc, ?written_snoc; cbn [delivered written flat_map app]; rewrite ?app_nil_r; try discriminate.
    intros _. destruct (IF M) as (d & E & D). exists (d ++ hand s). rewrite <- E. unfold hand at 1. cbn [main]. rewrite app_nil_r. split; [reflexivity|].
    rewrite E. apply Forall_app. split; [assumption|]. unfold hand. rewrite H. constructor; [now exists x|constructor].
  - (* crash in the loop *)
    assert (M : main s <> Crashed) by (rewrite H; discriminate).
    destruct (IF M) as (d & E & D). unfold hand in E. rewrite H in E.
    constructor; cbn [main queue]; rewrite ?delivered_snoc, ?written_snoc, ?published_snoc; cbn [delivered written published flat_map app]; rewrite ?app_nil_r.
    + intros X. now destruct X.
    + intros _ _. exists d, n. repeat split; trivial.
      * pose proof (f_names _ _ _ F M) as N. rewrite E, map_app in N. unfold hand in N. rewrite H in N. cbn in N. now apply app_inj_tail in N.
      * destruct (f_pub _ _ _ F) as (ex & P & Q). rewrite P. f_equal. apply Q. split; rewrite H; discriminate.
    + intros _ tr1 rs tr2 E'. exfalso. assert (IN : In (LRest rs) tr).
      { destruct tr2 as [|l2 tr2 _] using rev_ind; [apply app_inj_tail in E'; destruct E'; discriminate|].
        rewrite app_comm_cons, app_assoc in E'. apply app_inj_tail in E'. destruct E' as [E' _]. rewrite E'. apply in_or_app. right. now left. }
      destruct (after_rest _ _ _ _ _ _ _ _ Hr IN); congruence.
  - (* last pass *)
    assert (M : main s <> Crashed) by (rewrite H; discriminate).
    destruct (IF M) as (d & E & D). unfold hand in E. rewrite H, app_nil_r in E.
    constructor; cbn [main queue]; rewrite ?delivered_snoc, ?written_snoc, ?published_snoc; cbn [delivered written published flat_map app]; rewrite ?app_nil_r.
    + intros X. destruct (Nat.eqb_spec (length (before_string (queue s))) (length (queue s))) as [L|L]; [|congruence].
      apply before_string_all in L. exists (delivered tr ++ queue s). unfold hand. cbn [main]. rewrite app_nil_r. split; [reflexivity|].
      rewrite E. apply Forall_app. split; [assumption|]. rewrite <- L. apply before_string_spec.
    + intros _ N. exfalso. apply (N (queue s)). apply in_or_app. right. now left.
    + intros X tr1 rs tr2 E'. 
      destruct (Nat.eqb_spec (length (before_string (queue s))) (length (queue s))) as [L|L]; [discriminate|].
      assert (AB : aborted tr).
      { destruct (j_leaving _ _ _ A H) as [Y|[_ Y]]; [|rewrite Y in L; now destruct L].
        destruct (j_abort _ _ _ A Y) as [Z|[Z|Z]]; [assumption|congruence|congruence]. }
      split; [now apply aborted_snoc|].
      destruct tr2 as [|l2 tr2 _] using rev_ind.
      2: { exfalso. rewrite app_comm_cons, app_assoc in E'. apply app_inj_tail in E'. destruct E' as [E' _].
           assert (IN : In (LRest rs) tr) by (rewrite E'; apply in_or_app; right; now left).
           destruct (after_rest _ _ _ _ _ _ _ _ Hr IN); congruence. }
      apply app_inj_tail in E'. destruct E' as [E' _]. rewrite <- E'.
      destruct (before_string_spec (queue s)) as (B1 & b & B2 & B3).
      destruct B3 as [->|(n & b' & ->)]; [rewrite app_nil_r in B2; rewrite <- B2 in L; now destruct L|].
      exists (d ++ before_string (queue s)), n, b'. repeat split.
      * destruct (f_pub _ _ _ F) as (ex & P & Q). rewrite P, Q, E, B2 at 1; [now rewrite <- app_assoc|]. split; rewrite H; discriminate.
      * apply Forall_app. auto.
      * pose proof (f_names _ _ _ F M) as N. unfold hand in N. rewrite H in N. cbn in N. rewrite app_nil_r in N.
        rewrite !map_app, <- N, E. reflexivity.
Qed.

Lemma published_app a b : published (a ++ b) = published a ++ published b.
Proof. unfold published. apply flat_map_app. Qed.

Lemma string_of_no_file tr s tr1 n : run tr s -> (exists tr2, tr = tr1 ++ tr2) ->
  In (n, FailString) (published tr1) -> leaves n = NoFile.
Proof.
  intros R (tr2 & E) H. pose proof (f_right _ _ _ (flow_run _ _ _ _ _ _ _ R)) as FR. rewrite Forall_forall in FR.
  assert (X : right leaves (n, FailString)).
  { apply FR. apply in_or_app. left. rewrite E, published_app. apply in_or_app. now left. }
  unfold right in X. cbn [fst snd] in X. destruct (leaves n); cbn [says] in X; try discriminate X; try destruct X; reflexivity.
Qed.

Lemma reported tr s rep : report_of todo deps res dur leaves tr s rep ->
  exists tr1 tr2, tr = tr1 ++ tr2 /\ (tr2 = [] \/ exists rs tr3, tr2 = LRest rs :: tr3) /\
  ((Forall has_result (published tr1) /\ main s = Finished /\ map rep_name rep = map rep_name (published tr1)) \/
   (main s = Crashed /\ exists a n b, published tr1 = a ++ (n, FailString) :: b /\ Forall has_result a /\ leaves n = NoFile /\
     ((aborted tr /\ map rep_name rep = map rep_name a) \/
      (exists b1 b2, b = b1 ++ b2 /\ Forall has_result b1 /\ (b2 = [] \/ exists m b3, b2 = (m, FailString) :: b3) /\
        map rep_name rep = map rep_name a ++ map rep_name b1)))).
Proof.
  intros (R & [((rs & IN) & ->)|(M & N & ->)]).
  - destruct (in_split _ _ IN) as (tr1 & tr2 & E). exists tr1, (LRest rs :: tr2). split; [exact E|]. split; [right; now exists rs, tr2|].
    destruct (after_rest _ _ _ _ _ _ _ _ R IN) as [M|M].
    + left. split; [|split; [exact M|exact (written_names _ _ _ _ _ _ _ _ _ _ R M E)]].
      rewrite (rest_all _ _ _ _ _ _ _ _ _ _ R E).
      assert (NC : main s <> Crashed) by congruence.
      destruct (c_fine _ _ (crash_run _ _ R) NC) as (d & D & DF). unfold hand in D. rewrite M, app_nil_r in D.
      apply Forall_forall. intros r Hr. rewrite Forall_forall in DF. apply DF. rewrite <- D, E. unfold delivered in *.
      rewrite flat_map_app in Hr |- *. cbn [flat_map] in Hr |- *. rewrite app_nil_r in Hr.
      apply in_app_iff in Hr. apply in_or_app. destruct Hr as [Hr|Hr]; [now left|right; apply in_or_app; now left].
    + right. split; [exact M|]. destruct (c_pass _ _ (crash_run _ _ R) M tr1 rs tr2 E) as (Ab & a & n & b & P & A & W).
      exists a, n, b. repeat split; trivial; [|now left].
      apply (string_of_no_file tr s tr1); trivial; [now exists (LRest rs :: tr2)|]. rewrite P. apply in_or_app. right. now left.
  - exists tr, []. split; [now rewrite app_nil_r|]. split; [now left|]. right. split; [exact M|].
    destruct (c_loop _ _ (crash_run _ _ R) M N) as (a & n & D & A & W & P).
    exists a, n, (queue s). assert (P' : published tr = a ++ (n, FailString) :: queue s) by (rewrite P, D, <- app_assoc; reflexivity).
    repeat split; trivial.
    + apply (string_of_no_file tr s tr); trivial; [exists []; now rewrite app_nil_r|]. rewrite P'. apply in_or_app. right. now left.
    + right. destruct (before_string_spec (queue s)) as (B1 & b & B2 & B3). exists (before_string (queue s)), b.
      repeat split; trivial. unfold finally_adds. now rewrite map_app, W.
Qed.
End Crash.

(** In every run, with any workers that leave no report file: let [tr1] be the events up to the last
    pass over the waiting reports (or up to the end of the finally block). If all reports that were
    handed over until then have a result, all of them are in the report, in that order, and the run
    ends well. Otherwise the main thread fails; the report has those before the first case [n] without
    a file, and then, unless the run was stopped before [n] was looked at, those that follow up to the
    next case without a file. The case [n] itself and all after that are lost. *)
Theorem C38_report_exact todo deps res dur leaves tr s rep :
  report_of todo deps res dur leaves tr s rep ->
  exists tr1 tr2, tr = tr1 ++ tr2 /\ (tr2 = [] \/ exists rs tr3, tr2 = LRest rs :: tr3) /\
  ((Forall has_result (published tr1) /\ main s = Finished /\ map rep_name rep = map rep_name (published tr1)) \/
   (main s = Crashed /\ exists a n b, published tr1 = a ++ (n, FailString) :: b /\ Forall has_result a /\ leaves n = NoFile /\
     ((aborted tr /\ map rep_name rep = map rep_name a) \/
      (exists b1 b2, b = b1 ++ b2 /\ Forall has_result b1 /\ (b2 = [] \/ exists m b3, b2 = (m, FailString) :: b3) /\
        map rep_name rep = map rep_name a ++ map rep_name b1)))).
Proof. exact (reported todo deps res dur leaves tr s rep). Qed.
Print Assumptions C38_report_exact.

(** the first of two workers leaves no file, the result of the second is reported all the same *)
Example C38_report_example : exists leaves tr s,
  leaves ta = NoFile /\ report_of [ta; tb] (fun _ => []) (fun _ => []) (fun _ => 0) leaves tr s [(tb, Enum OK)] /\
  main s = Crashed /\ written tr = [].
Proof.
  exists (fun n => if str_eqb n ta then NoFile else Recorded OK). eexists. eexists. split; [reflexivity|]. split.
  - split.
    + steps 10.
      1: { plan_with [tb; ta]. } 1: { vm_compute; reflexivity. }
      1: { start ta [tb]. } 1: { vm_compute; reflexivity. }
      1: { start tb (@nil str). } 1: { vm_compute; reflexivity. }
      1: { check. } 1: { vm_compute; reflexivity. }
      1: { finish ta. } 1: { vm_compute; reflexivity. }
      1: { finish tb. } 1: { vm_compute; reflexivity. }
      1: { collect [ta; tb]. } 1: { vm_compute; reflexivity. }
      1: { publish. } 1: { vm_compute; reflexivity. }
      1: { take. } 1: { vm_compute; reflexivity. }
      1: { eapply (st_record_crash _ _ _ _ _ _ _ false); reflexivity. } 1: { vm_compute; reflexivity. }
    + right. split; [reflexivity|]. split; [|reflexivity].
      intros rs H. vm_compute in H. repeat (destruct H as [H|H]; [discriminate H|]). destruct H.
  - split; reflexivity.
Qed.
