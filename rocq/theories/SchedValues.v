From Verif Require Import PyStrFacts FsFacts ReviewSpec ReviewProofs SchedSpec SchedProofs SchedAccount SchedResults.
From Coq Require Import Lia Permutation Sorted.

(** ** Names of batch directories *)

Definition slash_dot (c : char) : char := if N.eqb c SLASH then DOT else c.

Lemma batch_name_map n : batch_name n = map slash_dot n.
Proof.
  unfold batch_name. induction n as [|c n IH]; [reflexivity|].
  cbn [split_on map]. unfold slash_dot at 1. destruct (N.eqb c SLASH) eqn:E.
  - rewrite join_cons by apply split_on_nonempty. now rewrite IH.
  - pose proof (split_on_nonempty SLASH n) as NE. destruct (split_on SLASH n) as [|w ws]; [congruence|].
    destruct ws as [|w' ws].
    + cbn [join_with] in *. now rewrite IH.
    + rewrite join_cons in IH by discriminate. rewrite join_cons by discriminate. rewrite <- IH. reflexivity.
Qed.

Lemma batch_no_slash n : ~ In SLASH (batch_name n).
Proof.
  rewrite batch_name_map. intros H. apply in_map_iff in H. destruct H as (c & E & _). unfold slash_dot in E.
  destruct (N.eqb_spec c SLASH); [discriminate|congruence].
Qed.

Lemma batch_dir_eq b n m : case_batch_dir b n = case_batch_dir b m <-> map slash_dot n = map slash_dot m.
Proof.
  unfold case_batch_dir. rewrite <- !batch_name_map. split; [|now intros ->].
  assert (F : forall n, starts_with [SLASH] (batch_name n) = false).
  { intros x. pose proof (batch_no_slash x) as H. destruct (batch_name x) as [|c w]; [reflexivity|].
    cbn [starts_with]. destruct (N.eqb_spec SLASH c); [|reflexivity]. subst. destruct H. now left. }
  unfold path_join. rewrite !F. destruct b as [|c b]; [auto|].
  destruct (ends_with [SLASH] (c :: b)); intros E.
  - now apply app_inv_head in E.
  - apply app_inv_head in E. now injection E.
Qed.

Lemma slash_dot_inj n m : ~ In DOT n -> ~ In DOT m -> map slash_dot n = map slash_dot m -> n = m.
Proof.
  revert m. induction n as [|c n IH]; intros [|c' m] Hn Hm E; try discriminate; [reflexivity|].
  cbn in E. injection E as E1 E2. f_equal; [|apply IH; trivial; intros H; [apply Hn|apply Hm]; now right].
  unfold slash_dot in E1. destruct (N.eqb_spec c SLASH), (N.eqb_spec c' SLASH); subst; trivial.
  - destruct Hm. now left.
  - destruct Hn. now left.
Qed.

(** ** Values *)

Section Values.
Variable todo : list str.
Variable deps : str -> list str.
Variable res : str -> list nat.
Variable dur : str -> nat.
Variable leaves : str -> worker_report.
Hypothesis ND : NoDup todo.
Context {V : Type}.
Variable behave : str -> list (option V) -> option V.

Notation step := (step todo deps res dur leaves).
Notation run := (run todo deps res dur leaves).
Notation inv := (inv todo deps res).

(** the equations both runs satisfy *)
Definition solves (s0 s : @store V) : Prop :=
  forall n, s n = if str_mem n todo then behave n (map s (deps n)) else s0 n.

Lemma put_same s n (v : option V) : put s n v n = v.
Proof. unfold put. now rewrite str_eqb_refl. Qed.
Lemma put_other s n (v : option V) m : m <> n -> put s n v m = s m.
Proof. intros H. unfold put. apply str_eqb_neq in H. now rewrite H. Qed.

Lemma seq_frame l : forall s n, ~ In n l -> seq_values deps behave l s n = s n.
Proof.
  induction l as [|m l IH]; intros s n H; [reflexivity|]. cbn [seq_values].
  rewrite IH by (intros X; apply H; now right). apply put_other. intros ->. apply H. now left.
Qed.

Lemma seq_values_app l1 l2 s : seq_values deps behave (l1 ++ l2) s = seq_values deps behave l2 (seq_values deps behave l1 s).
Proof. revert s. induction l1 as [|m l1 IH]; intros s; [reflexivity|]. cbn [app seq_values]. apply IH. Qed.

Lemma seq_solves order s0 : Permutation order todo -> sorted deps order -> solves s0 (seq_values deps behave order s0).
Proof.
  intros P S n. assert (NO : NoDup order) by (apply (Permutation_NoDup (Permutation_sym P)); assumption).
  destruct (str_mem n todo) eqn:M.
  - apply str_mem_In in M. apply (Permutation_in _ (Permutation_sym P)) in M. apply in_split in M.
    destruct M as (a & b & ->). pose proof (NoDup_remove_2 _ _ _ NO) as NI.
    rewrite seq_values_app. cbn [seq_values]. rewrite seq_frame; [|intros H; apply NI, in_app_iff; tauto].
    rewrite put_same. f_equal. apply map_ext_in. intros d Hd.
    destruct (in_dec (list_eq_dec N.eq_dec) d (a ++ n :: b)) as [I|I].
    + assert (Da : In d a) by (exact (S a n b d eq_refl Hd I)).
      rewrite (seq_frame b), put_other; trivial.
      * intros ->. apply NI, in_app_iff. tauto.
      * intros Hb. apply in_split in Da. destruct Da as (a1 & a2 & ->).
        rewrite <- app_assoc in NO. cbn [app] in NO. apply NoDup_remove_2 in NO. apply NO.
        rewrite !in_app_iff. right. right. now right.
    + rewrite (seq_frame b), put_other; trivial.
      * intros ->. apply I, in_app_iff. right. now left.
      * intros X. apply I, in_app_iff. right. now right.
  - apply seq_frame. intros H. apply (Permutation_in _ P) in H. apply str_mem_In in H. congruence.
Qed.

Lemma solves_unique order s0 s s' : Permutation order todo -> sorted deps order -> solves s0 s -> solves s0 s' ->
  forall n, s n = s' n.
Proof.
  intros P S A B.
  assert (out : forall n, ~ In n todo -> s n = s' n).
  { intros n H. rewrite A, B. destruct (str_mem n todo) eqn:M; [|reflexivity]. apply str_mem_In in M. contradiction. }
  assert (pre : forall a b, order = a ++ b -> forall n, In n a -> s n = s' n).
  { induction a as [|x a IH] using rev_ind; intros b E n Hn; [destruct Hn|].
    rewrite <- app_assoc in E. apply in_app_iff in Hn. destruct Hn as [Hn|[<-|[]]]; [exact (IH _ E n Hn)|].
    rewrite A, B. destruct (str_mem x todo); [|reflexivity]. f_equal. apply map_ext_in. intros d Hd.
    destruct (in_dec (list_eq_dec N.eq_dec) d todo) as [I|I]; [|now apply out].
    apply (IH _ E). apply (S a x b d E Hd). now apply (Permutation_in _ (Permutation_sym P)). }
  intros n. destruct (in_dec (list_eq_dec N.eq_dec) n todo) as [I|I]; [|now apply out].
  apply (pre order []); [now rewrite app_nil_r|]. now apply (Permutation_in _ (Permutation_sym P)).
Qed.

(** *** what is known about the order of events *)
Lemma run_snoc_inv tr l s' : run (tr ++ [l]) s' -> exists s, run tr s /\ step s l s'.
Proof.
  intros R. inversion R as [E|tr1 s l1 s1 R1 S1 E].
  - destruct tr; discriminate.
  - apply app_inj_tail in E. destruct E as [-> ->]. now exists s.
Qed.

Lemma finish_once tr n s' : run (tr ++ [LFinish n]) s' -> In n todo /\ In (LStart n) tr /\ ~ In (LFinish n) tr.
Proof.
  intros R. destruct (run_snoc_inv _ _ _ R) as (s & Rs & St). pose proof (inv_run _ _ _ _ _ _ _ Rs) as I.
  inversion St; subst. repeat split.
  - now apply (i_sched_todo _ _ _ _ _ I).
  - apply (i_start _ _ _ _ _ I). now right.
  - intros X. apply (i_finish _ _ _ _ _ I) in X. destruct X; [now apply (i_apart _ _ _ _ _ I n)|contradiction].
Qed.

Lemma start_fresh tr n s' : run (tr ++ [LStart n]) s' -> ~ In (LStart n) tr /\ ~ In (LFinish n) tr /\
  forall d, In d (deps n) -> In d todo -> In (LFinish d) tr.
Proof.
  intros R. pose proof (inv_run _ _ _ _ _ _ _ R) as I'.
  destruct (run_snoc_inv _ _ _ R) as (s & Rs & St). pose proof (inv_run _ _ _ _ _ _ _ Rs) as I.
  inversion St; subst. repeat split.
  - intros X. apply (i_start _ _ _ _ _ I) in X. tauto.
  - intros X. apply (i_finish _ _ _ _ _ I) in X. destruct X as [X|X]; [tauto|]. apply (i_ready _ _ _ _ _ I) in X. tauto.
  - intros d. exact (i_deps _ _ _ _ _ I' tr n [] eq_refl d).
Qed.

Lemma run_deps tr s n d : run tr s -> In (LStart n) tr -> In d (deps n) -> In d todo -> In (LFinish d) tr.
Proof.
  intros R H Hd Ht. apply in_split in H. destruct H as (a & b & ->).
  apply in_app_iff. left. exact (i_deps _ _ _ _ _ (inv_run _ _ _ _ _ _ _ R) a n b eq_refl d Hd Ht).
Qed.

Lemma par_inv tr s0 rd st : par_values deps behave tr s0 rd st -> forall s, run tr s ->
  (forall n, ~ In (LFinish n) tr -> st n = s0 n) /\
  (forall n, In (LFinish n) tr -> st n = behave n (rd n)) /\
  (forall n, In (LStart n) tr -> rd n = map st (deps n)).
Proof.
  induction 1 as [s0 rd|n tr s0 rd st P IH|n tr s0 rd st P IH Rn|n tr s0 rd st P IH|l tr s0 rd st P IH N1 N2]; intros s R.
  - split; [reflexivity|split; intros n []].
  - destruct (run_snoc_inv _ _ _ R) as (s1 & R1 & _). destruct (IH _ R1) as (A & B & C).
    destruct (start_fresh _ _ _ R) as (F1 & F2 & F3).
    repeat split; intros m Hm.
    + apply A. intros X. apply Hm, in_app_iff. now left.
    + apply in_app_iff in Hm. destruct Hm as [Hm|[Hm|[]]]; [|discriminate]. rewrite (B m Hm).
      destruct (str_eqb m n) eqn:E; [|reflexivity]. apply str_eqb_eq in E. subst m. contradiction.
    + apply in_app_iff in Hm. destruct (str_eqb m n) eqn:E; [apply str_eqb_eq in E; now subst m|].
      apply str_eqb_neq in E. destruct Hm as [Hm|[Hm|[]]]; [now apply C|congruence].
  - destruct (IH _ R) as (A & B & C). destruct Rn as [R1 R2]. repeat split; intros m Hm; [now apply A| |].
    + rewrite (B m Hm). destruct (str_eqb m n) eqn:E; [|reflexivity]. apply str_eqb_eq in E. subst m. contradiction.
    + destruct (str_eqb m n) eqn:E; [apply str_eqb_eq in E; now subst m|]. now apply C.
  - destruct (run_snoc_inv _ _ _ R) as (s1 & R1 & _). destruct (IH _ R1) as (A & B & C).
    destruct (finish_once _ _ _ R) as (F0 & F1 & F2).
    repeat split; intros m Hm.
    + rewrite put_other; [apply A; intros X; apply Hm, in_app_iff; now left|].
      intros ->. apply Hm, in_app_iff. right. now left.
    + destruct (list_eq_dec N.eq_dec m n) as [->|D]; [apply put_same|]. rewrite put_other by assumption.
      apply B. apply in_app_iff in Hm. destruct Hm as [Hm|[Hm|[]]]; [assumption|congruence].
    + apply in_app_iff in Hm. destruct Hm as [Hm|[Hm|[]]]; [|discriminate]. rewrite (C m Hm).
      apply map_ext_in. intros d Hd. symmetry. apply put_other. intros ->.
      apply F2. exact (run_deps _ _ _ _ R1 Hm Hd F0).
  - destruct (run_snoc_inv _ _ _ R) as (s1 & R1 & _). destruct (IH _ R1) as (A & B & C).
    repeat split; intros m Hm.
    + apply A. intros X. apply Hm, in_app_iff. now left.
    + apply in_app_iff in Hm. destruct Hm as [Hm|[Hm|[]]]; [now apply B|]. now destruct (N2 m).
    + apply in_app_iff in Hm. destruct Hm as [Hm|[Hm|[]]]; [now apply C|]. now destruct (N1 m).
Qed.

(** every case already finished has the value of the sequential run *)
Lemma par_values_so_far order tr s s0 rd st : Permutation order todo -> sorted deps order -> run tr s ->
  par_values deps behave tr s0 rd st ->
  forall n, In (LFinish n) tr -> st n = seq_values deps behave order s0 n.
Proof.
  intros P S R PV. destruct (par_inv _ _ _ _ PV _ R) as (A & B & C). pose proof (inv_run _ _ _ _ _ _ _ R) as I.
  pose proof (seq_solves order s0 P S) as SQ.
  assert (pre : forall a b, order = a ++ b -> forall n, In n a -> In (LFinish n) tr -> st n = seq_values deps behave order s0 n).
  { induction a as [|x a IH] using rev_ind; intros b E n Hn Hf; [destruct Hn|].
    rewrite <- app_assoc in E. apply in_app_iff in Hn. destruct Hn as [Hn|[<-|[]]]; [exact (IH _ E n Hn Hf)|].
    assert (Hs : In (LStart x) tr).
    { apply (i_start _ _ _ _ _ I). apply (i_finish _ _ _ _ _ I) in Hf. destruct Hf as [H|H]; [now left|right].
      now apply (i_ready _ _ _ _ _ I). }
    rewrite (B x Hf), (C x Hs), (SQ x).
    assert (Hx : str_mem x todo = true).
    { apply str_mem_In. apply (Permutation_in _ P). rewrite E. apply in_app_iff. right. now left. }
    rewrite Hx. f_equal. apply map_ext_in. intros d Hd.
    destruct (in_dec (list_eq_dec N.eq_dec) d todo) as [T|T].
    - apply (IH _ E).
      + apply (S a x b d E Hd). now apply (Permutation_in _ (Permutation_sym P)).
      + exact (run_deps _ _ _ _ R Hs Hd T).
    - rewrite SQ. destruct (str_mem d todo) eqn:M; [apply str_mem_In in M; contradiction|]. apply A.
      intros X. apply T. apply (i_finish _ _ _ _ _ I) in X.
      destruct X as [X|X]; [now apply (i_done_todo _ _ _ _ _ I)|]. now apply (i_sched_todo _ _ _ _ _ I), (i_ready _ _ _ _ _ I). }
  intros n Hf. apply (pre order []); [now rewrite app_nil_r| |assumption].
  apply (Permutation_in _ (Permutation_sym P)). apply (i_finish _ _ _ _ _ I) in Hf.
  destruct Hf as [X|X]; [now apply (i_done_todo _ _ _ _ _ I)|]. now apply (i_sched_todo _ _ _ _ _ I), (i_ready _ _ _ _ _ I).
Qed.

Lemma par_values_seq order tr s s0 rd st : Permutation order todo -> sorted deps order -> run tr s ->
  main s = Finished -> ~ aborted tr ->
  par_values deps behave tr s0 rd st ->
  forall n, st n = seq_values deps behave order s0 n.
Proof.
  intros P S R M NA PV n. pose proof (par_values_so_far _ _ _ _ _ _ P S R PV) as SF.
  destruct (complete _ _ _ _ _ ND _ _ R M NA) as (_ & _ & _ & Fin).
  destruct (in_dec (list_eq_dec N.eq_dec) n todo) as [T|T]; [apply SF; now apply Fin|].
  rewrite (seq_frame order); [|intros X; apply T; now apply (Permutation_in _ P)].
  destruct (par_inv _ _ _ _ PV _ R) as (A & _ & _). apply A. intros X.
  pose proof (inv_run _ _ _ _ _ _ _ R) as I. apply T. apply (i_finish _ _ _ _ _ I) in X.
  destruct X as [X|X]; [now apply (i_done_todo _ _ _ _ _ I)|]. now apply (i_sched_todo _ _ _ _ _ I), (i_ready _ _ _ _ _ I).
Qed.

(** a list with dependencies first is acyclic *)
Lemma sorted_acyclic order : Permutation order todo -> sorted deps order -> acyclic_deps todo deps.
Proof.
  intros P S.
  assert (NO : NoDup order) by (apply (Permutation_NoDup (Permutation_sym P)); assumption).
  assert (B : forall n d, depends todo deps n d -> exists a b, order = a ++ n :: b /\ In d a).
  { induction 1 as [n d Hn Hd Hin|n e d _ IH1 _ IH2].
    - apply (Permutation_in _ (Permutation_sym P)) in Hn. apply in_split in Hn. destruct Hn as (a & b & E).
      exists a, b. split; [assumption|]. apply (S a n b d E Hin). now apply (Permutation_in _ (Permutation_sym P)).
    - destruct IH1 as (a & b & E & He). destruct IH2 as (a' & b' & E' & Hd).
      exists a, b. split; [assumption|]. apply in_split in He. destruct He as (a1 & a2 & ->).
      rewrite E in E'. rewrite E in NO. rewrite <- app_assoc in E', NO. cbn [app] in E', NO.
      assert (a1 = a') as ->; [|apply in_app_iff; now left].
      clear -E' NO. revert a' E'. induction a1 as [|x a1 IH]; intros [|y a'] E'; cbn in *.
      + reflexivity.
      + injection E' as <- E'. exfalso. inversion NO; subst. apply H1. rewrite E'. apply in_app_iff. right. now left.
      + injection E' as -> E'. exfalso. inversion NO; subst. apply H1. apply in_app_iff. right. now left.
      + injection E' as <- E'. f_equal. inversion NO; subst. now apply IH. }
  intros n H. destruct (B n n H) as (a & b & E & Ha). rewrite E in NO. apply NoDup_remove_2 in NO. apply NO.
  apply in_app_iff. now left.
Qed.

End Values.

(** ** The order of starting *)

Lemma str_leb_total a b : str_leb a b = true \/ str_leb b a = true.
Proof.
  revert b. induction a as [|x a IH]; intros [|y b]; cbn [str_leb]; auto.
  destruct (N.ltb_spec x y); [now left|]. destruct (N.ltb_spec y x); [now right|].
  assert (x = y) as -> by lia. rewrite N.eqb_refl. cbn. apply IH.
Qed.

Lemma str_leb_trans a b c : str_leb a b = true -> str_leb b c = true -> str_leb a c = true.
Proof.
  revert b c. induction a as [|x a IH]; intros [|y b] [|z c]; cbn [str_leb]; try discriminate; auto.
  rewrite !orb_true_iff, !andb_true_iff, !N.ltb_lt, !N.eqb_eq.
  intros [H|[-> H]] [H'|[-> H']]; [left; lia|now left|now left|right]. split; [reflexivity|]. now apply (IH b).
Qed.

Section Order.
Variable dur : str -> nat.

Lemma plan_le_iff a b : plan_le dur a b = true <-> dur b < dur a \/ (dur a = dur b /\ str_leb a b = true).
Proof. unfold plan_le. now rewrite orb_true_iff, andb_true_iff, Nat.ltb_lt, Nat.eqb_eq. Qed.

Lemma plan_le_total a b : plan_le dur a b = true \/ plan_le dur b a = true.
Proof.
  rewrite !plan_le_iff. destruct (Nat.lt_total (dur a) (dur b)) as [H|[H|H]]; [right; now left| |left; now left].
  destruct (str_leb_total a b); [left|right]; right; auto.
Qed.

Lemma plan_le_trans a b c : plan_le dur a b = true -> plan_le dur b c = true -> plan_le dur a c = true.
Proof.
  rewrite !plan_le_iff. intros [H|[E H]] [H'|[E' H']]; try (left; lia).
  right. split; [congruence|]. now apply (str_leb_trans a b c).
Qed.

Lemma insert_sorted x l : StronglySorted (fun a b => plan_le dur a b = true) l ->
  StronglySorted (fun a b => plan_le dur a b = true) (insert_by (plan_le dur) x l).
Proof.
  induction 1 as [|y l S IH F]; [repeat constructor|]. cbn [insert_by].
  destruct (plan_le dur x y) eqn:E.
  - constructor; [now constructor|]. constructor; [assumption|]. apply Forall_forall. intros z Hz.
    rewrite Forall_forall in F. now apply (plan_le_trans x y z), F.
  - assert (Y : plan_le dur y x = true) by (destruct (plan_le_total x y); congruence).
    constructor; [assumption|]. apply Forall_forall. intros z Hz.
    apply (Permutation_in _ (insert_perm _ x l)) in Hz. rewrite Forall_forall in F. destruct Hz as [<-|Hz]; auto.
Qed.

Lemma sort_sorted l : StronglySorted (fun a b => plan_le dur a b = true) (sort_by (plan_le dur) l).
Proof. induction l as [|x l IH]; [constructor|]. cbn. now apply insert_sorted. Qed.
End Order.

Section Plan.
Variable todo : list str.
Variable deps : str -> list str.
Variable res : str -> list nat.
Variable dur : str -> nat.

Lemma plan_pass_max dn ord : forall rv n, In n ord -> ~ In n (plan_pass todo deps res dn rv ord) ->
  (exists d, In d (deps n) /\ In d todo /\ ~ In d dn) \/
  (exists x, In x (res n) /\ (In x rv \/ exists a, In a (plan_pass todo deps res dn rv ord) /\ In x (res a))).
Proof.
  induction ord as [|m ord IH]; intros rv n Hn Hp; [destruct Hn|]. cbn [plan_pass] in Hp |- *.
  destruct (runnable todo deps res dn rv m) eqn:R.
  - destruct Hn as [<-|Hn]; [destruct Hp; now left|].
    destruct (IH (rv ++ res m) n Hn) as [H|(x & Hx & [H|(a & Ha & Hax)])]; [intros X; apply Hp; now right|now left| |].
    + right. exists x. split; [assumption|]. apply in_app_iff in H. destruct H as [H|H]; [now left|right].
      exists m. split; [now left|assumption].
    + right. exists x. split; [assumption|]. right. exists a. split; [now right|assumption].
  - destruct Hn as [<-|Hn]; [|now apply IH].
    unfold runnable in R. apply andb_false_iff in R. destruct R as [R|R].
    + left. apply Bool.not_true_iff_false in R. rewrite forallb_forall in R.
      destruct (existsb (fun d => str_mem d todo && negb (str_mem d dn)) (deps m)) eqn:E.
      * apply existsb_exists in E. destruct E as (d & Hd & E). apply andb_true_iff in E. destruct E as [E1 E2].
        exists d. apply str_mem_In in E1. apply negb_true_iff in E2. repeat split; trivial.
        intros X. apply str_mem_In in X. congruence.
      * destruct R. intros d Hd. apply negb_true_iff. apply Bool.not_true_iff_false. intros X.
        apply Bool.not_true_iff_false in E. apply E. apply existsb_exists. now exists d.
    + right. apply Bool.not_true_iff_false in R. rewrite disjointb_iff in R.
      destruct (existsb (fun x => nat_mem x rv) (res m)) eqn:E.
      * apply existsb_exists in E. destruct E as (x & Hx & E). exists x. split; [assumption|]. left. now apply nat_mem_In.
      * destruct R. intros x Hx X. apply Bool.not_true_iff_false in E. apply E. apply existsb_exists.
        exists x. split; [assumption|]. now apply nat_mem_In.
Qed.

Lemma plan_max dn rv ord n : In n ord -> ~ In n (plan todo deps res dur dn rv ord) ->
  (exists d, In d (deps n) /\ In d todo /\ ~ In d dn) \/
  (exists x, In x (res n) /\ (In x rv \/ exists a, In a (plan todo deps res dur dn rv ord) /\ In x (res a))).
Proof.
  unfold plan. intros H1 H2. rewrite sort_In in H2.
  destruct (plan_pass_max dn ord rv n H1 H2) as [H|(x & Hx & [H|(a & Ha & Hax)])]; [now left|right; exists x; auto|].
  right. exists x. split; [assumption|]. right. exists a. split; [now apply sort_In|assumption].
Qed.

Lemma plan_sorted dn rv ord : StronglySorted
  (fun a b => dur b < dur a \/ (dur a = dur b /\ str_leb a b = true)) (plan todo deps res dur dn rv ord).
Proof.
  unfold plan. pose proof (sort_sorted dur (plan_pass todo deps res dn rv ord)) as S.
  induction S as [|x l S IH F]; constructor; [assumption|]. revert F. apply Forall_impl. intros y. apply plan_le_iff.
Qed.
End Plan.

(** ** Exit code *)

Section Exit.
Variable todo : list str.
Variable deps : str -> list str.
Variable res : str -> list nat.
Variable dur : str -> nat.
Variable leaves : str -> worker_report.
Notation run := (run todo deps res dur leaves).

Lemma rest_empty tr s rs : run tr s -> ~ aborted tr -> In (LRest rs) tr -> rs = [].
Proof.
  intros R. revert rs. induction R as [|tr s l s' Hr IH Hs]; intros rs NA H; [destruct H|].
  assert (NA' : ~ aborted tr) by (intros X; apply NA; now apply aborted_snoc).
  apply in_app_iff in H. destruct H as [H|[H|[]]]; [now apply (IH rs NA')|]. subst l.
  inversion Hs; subst. pose proof (acc_run _ _ _ _ _ _ _ Hr) as A.
  match goal with H : main s = Leaving |- _ => rename H into M end.
  destruct (j_leaving _ _ _ A M) as [X|[_ X]]; [|assumption].
  destruct (j_abort _ _ _ A X) as [Y|[Y|Y]]; [contradiction|congruence|congruence].
Qed.

Lemma exit_iff tr s : run tr s -> ~ aborted tr -> main s <> Crashed ->
  (exit_zero tr <-> forall r, In r (written tr) -> snd r = Enum OK).
Proof.
  intros R NA NC. unfold exit_zero, written. split.
  - intros E r H. apply in_flat_map in H. destruct H as (l & Hl & H).
    destruct l as [| | | | | | | |[m [y|]] st|rs]; try (now destruct H).
    + destruct H as [<-|[]]. exact (E _ _ Hl).
    + rewrite (rest_empty _ _ _ R NA Hl) in H. destruct H.
  - intros E [m [y|]] st H.
    + apply (E (m, Enum y)). apply in_flat_map. eexists. split; [exact H|]. now left.
    + exfalso. apply NC. clear E NA NC. revert H. induction R as [|tr s l s' Hr IH Hs]; intros H; [destruct H|].
      apply in_app_iff in H. destruct H as [H|[H|[]]].
      * specialize (IH H). inversion Hs; subst; cbn [main]; try assumption; congruence.
      * subst l. inversion Hs; subst. reflexivity.
Qed.

Lemma rest_all tr s tr1 rs tr2 : run tr s -> tr = tr1 ++ LRest rs :: tr2 -> published tr1 = delivered (tr1 ++ [LRest rs]).
Proof.
  intros R. revert tr2. induction R as [|tr s l s' Hr IH Hs]; intros tr2 E; [destruct tr1; discriminate|].
  destruct tr2 as [|l2 tr2 _] using rev_ind.
  - apply app_inj_tail in E. destruct E as [-> ->]. inversion Hs; subst.
    pose proof (flow_run _ _ _ _ _ _ _ Hr) as F. destruct (f_pub _ _ _ F) as (ex & E & Q).
    rewrite E, delivered_snoc. cbn. rewrite app_nil_r. f_equal. apply Q.
    match goal with H : main s = Leaving |- _ => split; rewrite H; discriminate end.
  - rewrite app_comm_cons, app_assoc in E. apply app_inj_tail in E. destruct E as [E _]. now apply (IH tr2).
Qed.
End Exit.

(** ** Review *)

Lemma scheduler_survives todo deps res dur leaves tr s : (forall n, In n todo -> leaves n <> EmptyFile) ->
  run todo deps res dur leaves tr s -> thread s <> Dead.
Proof.
  intros LE R.
  assert (ALL : forall ts, incl ts todo -> exists rs, reports_of leaves ts = Some rs).
  { induction ts as [|t ts IH]; intros X; [now exists []|].
    destruct (IH (fun x H => X x (or_intror H))) as [rs E]. pose proof (LE t (X t (or_introl eq_refl))) as L.
    cbn. destruct (leaves t); [|congruence|]; rewrite E; now eexists. }
  induction R as [|tr s l s' Hr IH Hs]; [discriminate|].
  pose proof (inv_run _ _ _ _ _ _ _ Hr) as I.
  inversion Hs; subst; cbn [thread]; try discriminate; try assumption; try (destruct l0; discriminate).
  destruct (ALL ts) as [rs E]; [|congruence]. intros x Hx. apply (i_sched_todo _ _ _ _ _ I). now apply H1.
Qed.

Lemma parallel_review_same exp out n res cfg answers f :
  update cfg = false ->
  (accept cfg = false \/ (always_interactive cfg = false /\ interactive cfg = false)) ->
  parallel_review exp out n res cfg answers f = case_review exp out n res cfg answers f.
Proof.
  intros U H. unfold parallel_review. unfold case_review at 1. cbn [worker_config always_interactive interactive update accept].
  rewrite U, !andb_false_r. cbn [orb negb]. destruct H as [A|[A B]].
  - rewrite A, andb_false_r. reflexivity.
  - unfold case_review. rewrite U, A, B, !andb_false_r. cbn [orb negb io_bind].
    destruct res; cbn [andb io_bind fst]; rewrite ?andb_false_r; try reflexivity.
    destruct (accept cfg); [|reflexivity]. destruct (freeze_case exp out n f); reflexivity.
Qed.

Lemma parallel_update_raises exp o n f c cfg answers :
  plain_dir exp -> plain o -> plain n -> ~ path_prefix o n -> ~ path_prefix n o ->
  let out := exp ++ SLASH :: o in
  lookup (out ++ SLASH :: n ++ lit ".md") f = Some c ->
  lookup (exp ++ SLASH :: n) f = None -> lookup (out ++ SLASH :: n) f = None ->
  is_dir (exp ++ SLASH :: n ++ lit ".md") f = false ->
  update cfg = true -> always_interactive cfg = false ->
  (exists f1, case_review exp out n OK cfg answers f = Ret (OK, NONE, answers) f1 /\ accepted exp out n f f1) /\
  exists f2, parallel_review exp out n OK cfg answers f = Raise f2 /\
    forall r, lookup (exp ++ SLASH :: n ++ SLASH :: r) f2 = None.
Proof.
  intros P1 P2 P3 P4 P5 out L1 L2 L3 D U AI.
  destruct (freeze_accepts exp o n P1 P2 P3 P4 P5 f L2 D L3 c L1) as (f1 & F & A). fold out in F, A.
  assert (CR : case_review exp out n OK cfg answers f = Ret (OK, NONE, answers) f1).
  { unfold case_review. rewrite U, AI. cbn [orb negb is_ok andb]. rewrite F. reflexivity. }
  assert (CW : case_review exp out n OK (worker_config cfg) [] f = Ret (OK, NONE, []) f1).
  { unfold case_review. cbn [worker_config always_interactive interactive update accept]. rewrite U.
    cbn [orb negb is_ok andb]. rewrite F. reflexivity. }
  split; [now exists f1|].
  assert (EN : lookup (exp ++ SLASH :: n) f1 = None).
  { rewrite (acc_rest _ _ _ _ _ A); [assumption| |].
    - intros [E|[r E]]; apply app_inv_head in E; injection E as E; symmetry in E; apply (f_equal (@length char)) in E;
        rewrite app_length in E; cbn in E; unfold char in *; lia.
    - unfold out. intros [E|[r E]]; rewrite <- app_assoc in E; apply app_inv_head in E; injection E as E;
        apply (f_equal (@length char)) in E; rewrite ?app_length in E; cbn [length] in E; rewrite ?app_length in E; cbn [length] in E;
        unfold str, char in *; lia. }
  destruct (plain_join exp n P1 P3) as [J1 J2].
  destruct (plain_join out n (plain_O exp o n P1 P2 P4 P5) P3) as [J3 J4].
  assert (M : lookup (out ++ SLASH :: n ++ lit ".md") f1 = None) by (apply (acc_moved _ _ _ _ _ A); now left).
  unfold parallel_review. rewrite CW. cbn [io_bind fst].
  unfold case_review. rewrite U, AI. cbn [orb negb is_ok andb].
  unfold freeze_case. rewrite J1, J2, J3, J4.
  assert (Hstep : exists g, (if path_exists (exp ++ SLASH :: n) f1 then rmtree (exp ++ SLASH :: n) f1 else Ret tt f1)
            = Ret tt g /\ forall p, lookup p g = if below (exp ++ SLASH :: n) p then None else lookup p f1).
  { unfold path_exists, is_file. rewrite EN. cbn [orb]. unfold rmtree.
    destruct (is_dir (exp ++ SLASH :: n) f1) eqn:Hd.
    - eexists. split; [reflexivity|]. intros p. rewrite (lookup_filter p (fun x => negb (below (exp ++ SLASH :: n) x))).
      now destruct (below _ p).
    - exists f1. split; [reflexivity|]. intros p. destruct (below _ p) eqn:Hb; [|reflexivity]. now apply (is_dir_false _ _ _ Hd). }
  destruct Hstep as (g & -> & Hg). cbn [io_bind].
  unfold rename_file. rewrite Hg, M. exists g. split; [destruct (below _ _); reflexivity|].
  intros r. rewrite Hg. replace (exp ++ SLASH :: n ++ SLASH :: r) with ((exp ++ SLASH :: n) ++ SLASH :: r) by now rewrite <- app_assoc.
  now rewrite below_slash.
Qed.
