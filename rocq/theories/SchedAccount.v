From Verif Require Import PyStrFacts SchedSpec SchedProofs.
From Coq Require Import Lia Permutation.

Section Sched.
Variable todo : list str.
Variable deps : str -> list str.
Variable res : str -> list nat.
Variable dur : str -> nat.
Variable leaves : str -> worker_report.
Hypothesis ND : NoDup todo.

Notation step := (step todo deps res dur leaves).
Notation run := (run todo deps res dur leaves).
Notation inv := (inv todo deps res).

Definition pending (s : state) : list report := match thread s with Publishing rs => rs | _ => [] end.
Definition hand (s : state) : list report := match main s with Reviewing r => [r] | _ => [] end.
Definition active (s : state) : Prop := main s <> Finished /\ main s <> Crashed.

Lemma reports_names ts rs : reports_of leaves ts = Some rs -> map rep_name rs = ts.
Proof.
  revert rs. induction ts as [|t ts IH]; cbn; intros rs E; [now injection E as <-|].
  destruct (leaves t); [|discriminate|]; destruct (reports_of leaves ts); try discriminate;
    injection E as <-; cbn; now rewrite (IH l eq_refl).
Qed.

Lemma written_snoc tr l : written (tr ++ [l]) = written tr ++ written [l].
Proof. unfold written. apply flat_map_app. Qed.
Lemma collected_snoc tr l : collected (tr ++ [l]) = collected tr ++ collected [l].
Proof. unfold collected. apply flat_map_app. Qed.

Record acc (tr : list label) (s : state) : Prop := {
  j_left : thread s <> Dead -> left_ s + length (done s) = length todo + length (pending s);
  j_dead : thread s = Dead -> 0 < left_ s;
  j_flow : active s -> exists extra,
    done s = map rep_name (recorded s ++ hand s ++ queue s ++ pending s) ++ extra /\
    (thread s <> Dead -> extra = []);
  j_prefix : exists extra, done s = map rep_name (recorded s) ++ extra;
  j_done : done s = collected tr;
  j_rec : recorded s = written tr;
  j_abort : abort s = true -> aborted tr \/ main s = Finished \/ main s = Crashed;
  j_busy_main : (main s = Waiting \/ exists r, main s = Reviewing r) -> abort s = false;
  j_wait : main s = Waiting -> 0 < left_ s \/ queue s <> [];
  j_leaving : main s = Leaving -> abort s = true \/ (left_ s = 0 /\ queue s = []);
  j_ended : thread s = Ended -> length todo <= length (done s) \/ abort s = true
}.

Lemma acc_initial : acc [] (initial todo).
Proof.
  constructor; cbn; try discriminate; try lia; trivial.
  - intros _. exists []. split; reflexivity.
  - exists []. reflexivity.
Qed.

(** *** how steps of the scheduler and of the workers affect the accounting *)
Ltac easy_acc A :=
  destruct A as [L DE F P D R AB BM W LV EN].

Lemma aborted_snoc tr l : aborted tr -> aborted (tr ++ [l]).
Proof. intros [r H]. exists r. apply in_app_iff. now left. Qed.

(** no change except the phase of the thread, without reports *)
Lemma acc_thread tr s l s' : acc tr s ->
  main s' = main s -> done s' = done s -> queue s' = queue s -> left_ s' = left_ s -> abort s' = abort s ->
  recorded s' = recorded s -> pending s' = pending s -> (thread s' = Dead <-> thread s = Dead) ->
  written [l] = [] -> collected [l] = [] ->
  (thread s' = Ended -> length todo <= length (done s) \/ abort s = true) ->
  acc (tr ++ [l]) s'.
Proof.
  intros A EM ED EQ EL EA ER EP ET EW EC EE. easy_acc A.
  constructor; unfold active, hand; rewrite ?EM, ?ED, ?EQ, ?EL, ?EA, ?ER, ?EP, ?ET, ?written_snoc, ?collected_snoc, ?EW, ?EC, ?app_nil_r; trivial.
  1: { intros Ac. destruct (F Ac) as (ex & E & Ex). exists ex. split; [exact E|]. intros X. apply Ex. now rewrite <- ET. }
  intros H. destruct (AB H) as [H'|H']; [left; now apply aborted_snoc|now right].
Qed.

Lemma written_tr_snoc_nil tr l : written [l] = [] -> written (tr ++ [l]) = written tr.
Proof. intros E. now rewrite written_snoc, E, app_nil_r. Qed.

Lemma acc_step tr s l s' : inv tr s -> acc tr s -> step s l s' -> acc (tr ++ [l]) s'.
Proof.
  intros I A St. inversion St; subst.
  - apply (acc_thread tr s); trivial; unfold pending; cbn [thread]; rewrite ?H; try reflexivity; try (split; discriminate); try discriminate.
  - apply (acc_thread tr s); trivial; unfold pending; cbn [thread]; rewrite ?H; try reflexivity; try (split; discriminate).
  - apply (acc_thread tr s); trivial; unfold pending; cbn [thread]; rewrite ?H; destruct l0; try reflexivity; try (split; discriminate); discriminate.
  - apply (acc_thread tr s); trivial; unfold pending; cbn [thread]; rewrite ?H; destruct l0; try reflexivity; try (split; discriminate); discriminate.
  - apply (acc_thread tr s); trivial; unfold pending; cbn [thread]; rewrite ?H; try reflexivity; try (split; discriminate); try discriminate.
  - apply (acc_thread tr s); trivial; unfold pending; cbn [thread]; try reflexivity. easy_acc A. exact EN.
  - (* collect *)
    pose proof (reports_names _ _ H3) as RN. easy_acc A.
    assert (PE : pending s = []) by (unfold pending; now rewrite H).
    assert (TD : thread s <> Dead) by (rewrite H; discriminate).
    constructor; cbn [thread main done queue left_ abort recorded hand]; try discriminate; trivial.
    + intros _. specialize (L TD). rewrite PE in L. cbn in L. unfold pending. cbn [thread].
      rewrite app_length, <- RN, map_length. unfold str, char in *. lia.
    + intros Ac. destruct (F Ac) as (ex & E & Ex). rewrite (Ex TD), app_nil_r, PE, app_nil_r in E.
      exists []. unfold pending. cbn [thread]. split; [|reflexivity].
      rewrite app_nil_r, E, !map_app, RN. unfold hand. cbn [main]. now rewrite <- !app_assoc.
    + destruct P as [ex E]. exists (ex ++ ts). now rewrite E, app_assoc.
    + rewrite collected_snoc, <- D. cbn. now rewrite app_nil_r.
    + rewrite written_tr_snoc_nil; [assumption|reflexivity].
    + intros X. destruct (AB X) as [Y|Y]; [left; now apply aborted_snoc|now right].
  - (* collect dies *)
    easy_acc A. assert (PE : pending s = []) by (unfold pending; now rewrite H).
    assert (TD : thread s <> Dead) by (rewrite H; discriminate).
    constructor; cbn [thread main done queue left_ abort recorded hand]; try discriminate; trivial.
    + intros X. now destruct X.
    + intros _. specialize (L TD). rewrite PE in L. cbn in L.
      assert (TS : ts <> []) by (intros ->; discriminate).
      assert (B : length (done s ++ ts) <= length todo).
      { destruct I as [A1 _ _ A4 A5 A6 _ _ _ _ _ _ _ _]. apply NoDup_incl_length.
        - apply NoDup_app_iff. repeat split; trivial. intros x Hd Hx. apply H1 in Hx. apply (A4 x); tauto.
        - intros m Hm. apply in_app_iff in Hm. destruct Hm as [Hm|Hm]; [auto|]. apply A6. now apply H1. }
      rewrite app_length in B. destruct ts; [congruence|]. cbn in B. unfold str, char in *. lia.
    + intros Ac. destruct (F Ac) as (ex & E & Ex). rewrite (Ex TD), app_nil_r, PE, app_nil_r in E.
      exists ts. unfold pending. cbn [thread]. split; [|intros X; now destruct X].
      rewrite app_nil_r, E. unfold hand. cbn [main]. reflexivity.
    + destruct P as [ex E]. exists (ex ++ ts). now rewrite E, app_assoc.
    + rewrite collected_snoc, <- D. cbn. now rewrite app_nil_r.
    + rewrite written_tr_snoc_nil; [assumption|reflexivity].
    + intros X. destruct (AB X) as [Y|Y]; [left; now apply aborted_snoc|now right].
  - (* publish *)
    easy_acc A. assert (PE : pending s = rs) by (unfold pending; now rewrite H).
    assert (TD : thread s <> Dead) by (rewrite H; discriminate).
    pose proof (L TD) as L1. rewrite PE in L1.
    assert (B : length (done s) <= length todo).
    { destruct I as [A1 _ _ _ A5 _ _ _ _ _ _ _ _ _]. now apply NoDup_incl_length. }
    constructor; cbn [thread main done queue left_ abort recorded hand]; try discriminate; trivial.
    + intros _. unfold pending. cbn [thread length]. unfold str, char in *. lia.
    + intros Ac. destruct (F Ac) as (ex & E & Ex). rewrite (Ex TD), app_nil_r, PE in E.
      exists []. unfold pending. cbn [thread]. split; [|reflexivity].
      rewrite !app_nil_r, E. unfold hand. cbn [main]. reflexivity.
    + rewrite collected_snoc. cbn. now rewrite app_nil_r.
    + rewrite written_tr_snoc_nil; [assumption|reflexivity].
    + intros X. destruct (AB X) as [Y|Y]; [left; now apply aborted_snoc|now right].
    + intros X. destruct (W X) as [Y|Y].
      * destruct rs as [|r rs]; [left; cbn; lia|right]. intros Z. apply app_eq_nil in Z. destruct Z as [_ Z]. discriminate.
      * right. intros Z. apply app_eq_nil in Z. tauto.
    + intros X. destruct (LV X) as [Y|[Y Z]]; [now left|right].
      assert (rs = []). { destruct rs; [reflexivity|]. cbn in L1. unfold str, char in *. lia. }
      subst rs. rewrite H0. split; [cbn; lia|]. rewrite Z. reflexivity.
  - (* check *)
    easy_acc A.
    constructor; cbn [thread main done queue left_ abort recorded hand]; trivial.
    + intros Ac. destruct F as (ex & E & Ex). { split; rewrite H; discriminate. }
      exists ex. split; [|assumption]. rewrite E. unfold hand, pending. rewrite H. cbn [main thread].
      destruct ((_ || _) && _); reflexivity.
    + rewrite collected_snoc. cbn. now rewrite app_nil_r.
    + rewrite written_tr_snoc_nil; [assumption|reflexivity].
    + intros X. destruct (AB X) as [Y|[Y|Y]]; [left; now apply aborted_snoc|congruence|congruence].
    + intros X. destruct (abort s); [|reflexivity]. rewrite andb_false_r in X. destruct X as [X|[r X]]; discriminate.
    + intros X. destruct (Nat.ltb 0 (left_ s)) eqn:E1; [left; now apply Nat.ltb_lt|right].
      destruct (queue s) as [|q0 q]; [discriminate X|intros Z; discriminate Z].
    + intros X. destruct (abort s); [now left|right]. cbn [negb] in X. rewrite andb_true_r in X.
      destruct (Nat.ltb 0 (left_ s)) eqn:E1; [discriminate X|]. apply Nat.ltb_ge in E1.
      destruct (queue s); [split; [lia|reflexivity]|discriminate X].
  - (* take *)
    easy_acc A.
    constructor; cbn [thread main done queue left_ abort recorded hand]; try discriminate; trivial.
    + intros Ac. destruct F as (ex & E & Ex). { split; rewrite H; discriminate. }
      exists ex. split; [|assumption]. rewrite E. unfold hand, pending. rewrite H, H0. cbn [main thread app]. reflexivity.
    + rewrite collected_snoc. cbn. now rewrite app_nil_r.
    + rewrite written_tr_snoc_nil; [assumption|reflexivity].
    + intros X. destruct (AB X) as [Y|[Y|Y]]; [left; now apply aborted_snoc|congruence|congruence].
    + intros _. apply BM. now left.
  - (* record *)
    easy_acc A.
    assert (F' : exists ex, done s = map rep_name ((recorded s ++ [(n, Enum y)]) ++ queue s ++ pending s) ++ ex /\ (thread s <> Dead -> ex = [])).
    { destruct F as (ex & E & Ex). { split; rewrite H; discriminate. }
      exists ex. split; [|assumption]. rewrite E. unfold hand. rewrite H. rewrite <- !app_assoc, !map_app. reflexivity. }
    constructor; cbn [thread main done queue left_ abort recorded hand]; try discriminate; trivial.
    + destruct F' as (ex & E & _). rewrite map_app, <- app_assoc in E. eexists. exact E.
    + rewrite collected_snoc. cbn. now rewrite app_nil_r.
    + rewrite written_snoc, R. reflexivity.
    + intros X. apply orb_true_iff in X. destruct X as [X| -> ].
      * destruct (AB X) as [Y|[Y|Y]]; [left; now apply aborted_snoc|congruence|congruence].
      * left. exists (n, Enum y). apply in_app_iff. right. now left.
    + intros [X|[r X]]; discriminate.
    + intros X. destruct (EN X) as [Y|Y]; [now left|right]. now rewrite Y.
  - (* crash *)
    easy_acc A.
    constructor; cbn [thread main done queue left_ abort recorded hand]; try discriminate; trivial.
    + intros [_ X]. now destruct X.
    + rewrite collected_snoc. cbn. now rewrite app_nil_r.
    + rewrite written_tr_snoc_nil; [assumption|reflexivity].
    + intros _. right. now right.
    + intros [X|[r X]]; discriminate.
    + intros X. destruct (EN X) as [Y|Y]; [now left|right]. now rewrite Y.
  - (* rest *)
    easy_acc A.
    assert (BS : forall q, exists q', q = before_string q ++ q').
    { induction q as [|[n [r|]] q [q' IH]]; cbn; [now exists []|exists q'; now rewrite <- IH|now exists ((n, FailString) :: q)]. }
    constructor; cbn [thread main done queue left_ abort recorded hand]; trivial.
    + intros [X Y]. cbn [main] in X, Y. destruct (Nat.eqb _ _); congruence.
    + destruct F as (ex & E & _). { split; rewrite H; discriminate. }
      destruct (BS (queue s)) as [q' Q]. unfold hand in E. rewrite H, Q in E. cbn [app] in E.
      rewrite <- app_assoc, (app_assoc (recorded s)), map_app, <- app_assoc in E. eexists. exact E.
    + rewrite collected_snoc. cbn. now rewrite app_nil_r.
    + rewrite written_snoc, R. cbn. now rewrite app_nil_r.
    + intros _. right. destruct (Nat.eqb _ _); tauto.
    + intros X. destruct (Nat.eqb _ _); destruct X as [X|[r X]]; discriminate.
    + destruct (Nat.eqb _ _); discriminate.
    + destruct (Nat.eqb _ _); discriminate.
    + intros _. now right.
Qed.

Lemma acc_run tr s : run tr s -> acc tr s.
Proof.
  induction 1 as [|tr s l s' Hr IH Hs]; [apply acc_initial|].
  exact (acc_step _ _ _ _ (inv_run _ _ _ _ _ _ _ Hr) IH Hs).
Qed.

End Sched.
