From Verif Require Import PyStrFacts SchedSpec.
From Coq Require Import Lia Permutation.

(** ** Sets as lists *)

Lemma nat_mem_In x l : nat_mem x l = true <-> In x l.
Proof.
  unfold nat_mem. rewrite existsb_exists. split.
  - intros (y & H & E). apply Nat.eqb_eq in E. now subst.
  - intros H. exists x. split; [assumption|apply Nat.eqb_refl].
Qed.

Lemma disjointb_iff a b : disjointb a b = true <-> forall x, In x a -> ~ In x b.
Proof.
  unfold disjointb. rewrite negb_true_iff. split.
  - intros H x Hx Hb. assert (E : existsb (fun x => nat_mem x b) a = true).
    { apply existsb_exists. exists x. split; [assumption|now apply nat_mem_In]. }
    congruence.
  - intros H. destruct (existsb (fun x => nat_mem x b) a) eqn:E; [|reflexivity].
    apply existsb_exists in E. destruct E as (x & Hx & M). apply nat_mem_In in M. exfalso. exact (H x Hx M).
Qed.

Lemma minus_In a b x : In x (minus a b) <-> In x a /\ ~ In x b.
Proof. unfold minus. rewrite filter_In, negb_true_iff, str_mem_not_In. reflexivity. Qed.

Lemma minus_NoDup a b : NoDup a -> NoDup (minus a b).
Proof. apply NoDup_filter. Qed.

Lemma minus_res_In a b x : In x (minus_res a b) <-> In x a /\ ~ In x b.
Proof.
  unfold minus_res. rewrite filter_In, negb_true_iff, <- (nat_mem_In x b). destruct (nat_mem x b); intuition congruence.
Qed.

Lemma NoDup_app_iff (a b : list str) : NoDup (a ++ b) <-> NoDup a /\ NoDup b /\ forall x, In x a -> ~ In x b.
Proof.
  induction a as [|y a IH]; cbn.
  - split; [intros H; repeat split; trivial; [constructor|intros x []]|tauto].
  - split.
    + intros H. inversion H as [|? ? NI ND]; subst. apply IH in ND. destruct ND as (A & B & C).
      rewrite in_app_iff in NI. repeat split; trivial; [constructor; tauto|].
      intros x [<-|Hx]; [tauto|auto].
    + intros (A & B & C). inversion A as [|? ? NI ND]; subst. constructor.
      * rewrite in_app_iff. intros [X|X]; [contradiction|]. exact (C y (or_introl eq_refl) X).
      * apply IH. repeat split; trivial. intros x Hx. apply C. now right.
Qed.

Lemma fold_minus_res (res : str -> list nat) ts : forall l x,
  In x (fold_left (fun r i => minus_res r (res i)) ts l) <-> In x l /\ forall i, In i ts -> ~ In x (res i).
Proof.
  induction ts as [|t ts IH]; cbn [fold_left]; intros l x.
  - split; [intros H; split; [assumption|intros i []]|tauto].
  - rewrite IH, minus_res_In. split.
    + intros [[A B] C]. split; [assumption|]. intros i [<-|Hi]; auto.
    + intros [A B]. split; [split; [assumption|apply B; now left]|]. intros i Hi. apply B. now right.
Qed.

(** ** Sorting *)
Lemma insert_perm {A} le (x : A) l : Permutation (insert_by le x l) (x :: l).
Proof.
  induction l as [|y l IH]; cbn; [reflexivity|]. destruct (le x y); [reflexivity|].
  rewrite IH. apply perm_swap.
Qed.
Lemma sort_perm {A} le (l : list A) : Permutation (sort_by le l) l.
Proof.
  unfold sort_by. induction l as [|x l IH]; cbn; [reflexivity|]. rewrite insert_perm. now constructor.
Qed.
Lemma sort_In {A} le (l : list A) x : In x (sort_by le l) <-> In x l.
Proof. split; apply Permutation_in; [|symmetry]; apply sort_perm. Qed.

Section Sched.
Variable todo : list str.
Variable deps : str -> list str.
Variable res : str -> list nat.
Variable dur : str -> nat.
Variable leaves : str -> worker_report.
Hypothesis ND : NoDup todo.

Notation step := (step todo deps res dur leaves).
Notation run := (run todo deps res dur leaves).
Notation plan := (plan todo deps res dur).
Notation plan_pass := (plan_pass todo deps res).
Notation runnable := (runnable todo deps res).

Lemma runnable_iff dn rv n : runnable dn rv n = true <->
  (forall d, In d (deps n) -> In d todo -> In d dn) /\ (forall x, In x (res n) -> ~ In x rv).
Proof.
  unfold SchedModel.runnable. rewrite andb_true_iff, disjointb_iff, forallb_forall. split; intros [A B]; (split; [|assumption]).
  - intros d Hd Ht. specialize (A d Hd). apply negb_true_iff in A. apply str_mem_In in Ht. rewrite Ht in A.
    cbn in A. apply negb_false_iff in A. now apply str_mem_In.
  - intros d Hd. apply negb_true_iff. destruct (str_mem d todo) eqn:T; [|reflexivity]. cbn.
    apply negb_false_iff. apply str_mem_In. apply A; [assumption|]. now apply str_mem_In.
Qed.

(** what the planning pass picks *)
Lemma plan_pass_spec dn ord : forall rv, NoDup ord ->
  let l := plan_pass dn rv ord in
  NoDup l /\ incl l ord /\
  (forall n, In n l -> (forall d, In d (deps n) -> In d todo -> In d dn) /\ (forall x, In x (res n) -> ~ In x rv)) /\
  (forall a b x, In a l -> In b l -> a <> b -> In x (res a) -> ~ In x (res b)).
Proof.
  induction ord as [|n ord IH]; cbn [SchedModel.plan_pass]; intros rv NDo.
  - split; [constructor|]. split; [intros x []|]. split; [intros n []|]. intros a b x [].
  - inversion NDo as [|? ? NI NDo']; subst. destruct (runnable dn rv n) eqn:R.
    + destruct (IH (rv ++ res n) NDo') as (A & B & C & D). apply runnable_iff in R. repeat split.
      * constructor; [|assumption]. intros X. apply NI. now apply B.
      * intros x [<-|Hx]; [now left|right; now apply B].
      * destruct H as [<-|H]; [apply R|apply (C _ H)].
      * destruct H as [<-|H]; [apply R|]. intros x Hx Hr. apply (proj2 (C _ H) x Hx). apply in_app_iff. now left.
      * intros a b x [<-|Ha] [<-|Hb] N Hx Hy.
        -- now apply N.
        -- apply (proj2 (C _ Hb) x Hy). apply in_app_iff. now right.
        -- apply (proj2 (C _ Ha) x Hx). apply in_app_iff. now right.
        -- exact (D a b x Ha Hb N Hx Hy).
    + destruct (IH rv NDo') as (A & B & C & D). repeat split; trivial.
      * intros x Hx. right. now apply B.
      * apply (C _ H).
      * apply (C _ H).
Qed.

(** if something is runnable, something is picked *)
Lemma plan_pass_nonempty dn ord rv n : In n ord -> runnable dn rv n = true -> plan_pass dn rv ord <> [].
Proof.
  induction ord as [|m ord IH]; cbn [SchedModel.plan_pass]; intros H R; [destruct H|].
  destruct (runnable dn rv m) eqn:M; [discriminate|]. destruct H as [->|H]; [congruence|auto].
Qed.

(** ** The scheduling invariant *)

Definition startable (s : state) (l : list str) : Prop :=
  NoDup l /\
  (forall n, In n l -> In n todo /\ ~ In n (done s) /\ ~ In n (scheduled s) /\
     (forall d, In d (deps n) -> In d todo -> In d (done s)) /\
     (forall x a, In x (res n) -> In a (scheduled s) -> ~ In x (res a))) /\
  (forall a b x, In a l -> In b l -> a <> b -> In x (res a) -> ~ In x (res b)).

Record inv (tr : list label) (s : state) : Prop := {
  i_done_nd : NoDup (done s);
  i_sched_nd : NoDup (scheduled s);
  i_ready_nd : NoDup (ready s);
  i_apart : forall n, In n (scheduled s) -> ~ In n (done s);
  i_done_todo : incl (done s) todo;
  i_sched_todo : incl (scheduled s) todo;
  i_ready : incl (ready s) (scheduled s);
  i_start : forall n, In (LStart n) tr <-> In n (done s) \/ In n (scheduled s);
  i_finish : forall n, In (LFinish n) tr <-> In n (done s) \/ In n (ready s);
  i_once : forall n, starts tr n <= 1;
  i_excl : forall a b x, In a (scheduled s) -> In b (scheduled s) -> a <> b -> In x (res a) -> ~ In x (res b);
  i_res : forall x, In x (reserved s) <-> exists a, In a (scheduled s) /\ In x (res a);
  i_deps : forall tr1 n tr2, tr = tr1 ++ LStart n :: tr2 ->
    forall d, In d (deps n) -> In d todo -> In (LFinish d) tr1;
  i_starting : forall l, thread s = Starting l -> startable s l
}.

Lemma in_snoc {A} (l : list A) x y : In y (l ++ [x]) <-> In y l \/ y = x.
Proof. rewrite in_app_iff. cbn. intuition congruence. Qed.

Lemma starts_snoc tr l n : starts (tr ++ [l]) n = starts tr n + (if label_eqb_start n l then 1 else 0).
Proof.
  unfold starts. rewrite filter_app, app_length. cbn. destruct (label_eqb_start n l); reflexivity.
Qed.

Lemma starts_0 tr n : ~ In (LStart n) tr -> starts tr n = 0.
Proof.
  unfold starts. induction tr as [|l tr IH]; cbn; [reflexivity|]. intros H.
  destruct (label_eqb_start n l) eqn:E.
  - exfalso. apply H. left. destruct l; cbn in E; try discriminate. apply str_eqb_eq in E. now subst.
  - apply IH. tauto.
Qed.

Lemma deps_snoc (P : list label -> str -> Prop) tr l :
  (forall tr1 n tr2, tr = tr1 ++ LStart n :: tr2 -> P tr1 n) ->
  (forall n, l = LStart n -> P tr n) ->
  forall tr1 n tr2, tr ++ [l] = tr1 ++ LStart n :: tr2 -> P tr1 n.
Proof.
  intros A B tr1 n tr2 E. destruct tr2 as [|y tr2] using rev_ind.
  - apply app_inj_tail in E. destruct E as [<- ->]. auto.
  - clear IHtr2. change (tr1 ++ LStart n :: tr2 ++ [y]) with (tr1 ++ (LStart n :: tr2) ++ [y]) in E.
    rewrite app_assoc in E. apply app_inj_tail in E. destruct E as [E _]. exact (A _ _ _ E).
Qed.

Lemma inv_initial : inv [] (initial todo).
Proof.
  constructor; cbn [initial done scheduled ready reserved thread]; try (now constructor).
  - intros n [].
  - intros n [].
  - intros n [].
  - intros n [].
  - intros n. cbn. tauto.
  - intros n. cbn. tauto.
  - intros a b x [].
  - intros x. cbn. split; [intros []|intros (a & [] & _)].
  - intros tr1 n tr2 E. destruct tr1; discriminate.
Qed.

(** a step that changes nothing the invariant is about, except the thread's phase *)
Lemma inv_same tr s s' l : inv tr s ->
  done s' = done s -> scheduled s' = scheduled s -> ready s' = ready s -> reserved s' = reserved s ->
  (forall n, l <> LStart n) -> (forall n, l <> LFinish n) ->
  (forall k, thread s' = Starting k -> startable s k) ->
  inv (tr ++ [l]) s'.
Proof.
  intros [A1 A2 A3 A4 A5 A6 A7 A8 A9 A10 A11 A12 A13 A14] E1 E2 E3 E4 N1 N2 T.
  constructor; rewrite ?E1, ?E2, ?E3, ?E4; trivial.
  - intros n. rewrite in_snoc, <- A8. split; [intros [X|X]; [assumption|symmetry in X; destruct (N1 n X)]|tauto].
  - intros n. rewrite in_snoc, <- A9. split; [intros [X|X]; [assumption|symmetry in X; destruct (N2 n X)]|tauto].
  - intros n. rewrite starts_snoc. destruct (label_eqb_start n l) eqn:E; [|rewrite Nat.add_0_r; auto].
    exfalso. destruct l; cbn in E; try discriminate. exact (N1 n0 eq_refl).
  - apply (deps_snoc (fun tr1 n => forall d, In d (deps n) -> In d todo -> In (LFinish d) tr1)); [assumption|].
    intros n ->. destruct (N1 n eq_refl).
  - intros k Hk. specialize (T k Hk). unfold startable in *. rewrite E1, E2. exact T.
Qed.

Lemma minus_snoc_NoDup (l : list str) n : NoDup l -> ~ In n l -> NoDup (l ++ [n]).
Proof. intros A B. apply NoDup_app_iff. repeat split; trivial; [repeat constructor; intros []|]. intros x Hx [<-|[]]. contradiction. Qed.

Lemma inv_collect tr s ts s' : inv tr s -> NoDup ts ->
  (forall n, In n ts -> In n (scheduled s) /\ In n (ready s)) ->
  done s' = done s ++ ts -> scheduled s' = minus (scheduled s) ts -> ready s' = minus (ready s) ts ->
  reserved s' = fold_left (fun r i => minus_res r (res i)) ts (reserved s) ->
  (forall l, thread s' <> Starting l) ->
  inv (tr ++ [LCollect ts]) s'.
Proof.
  intros [A1 A2 A3 A4 A5 A6 A7 A8 A9 A10 A11 A12 A13 A14] H0 H1 E1 E2 E3 E4 NT.
  constructor; rewrite ?E1, ?E2, ?E3, ?E4; trivial.
  - apply NoDup_app_iff. repeat split; trivial. intros x Hd Hx. apply H1 in Hx. apply (A4 x); tauto.
  - now apply minus_NoDup.
  - now apply minus_NoDup.
  - intros m. rewrite minus_In, in_app_iff. intros [X Y] [Z|Z]; [exact (A4 m X Z)|contradiction].
  - intros m Hm. apply in_app_iff in Hm. destruct Hm as [Hm|Hm]; [auto|]. apply A6. now apply H1.
  - intros m Hm. apply minus_In in Hm. apply A6. tauto.
  - intros m. rewrite !minus_In. intros [X Y]. split; [auto|assumption].
  - intros m. rewrite in_snoc, A8, in_app_iff, minus_In. split.
    + intros [[X|X]|X]; [tauto| |discriminate]. destruct (in_dec str_dec m ts); tauto.
    + intros [[X|X]|X]; [tauto|apply H1 in X; tauto|tauto].
  - intros m. rewrite in_snoc, A9, in_app_iff, minus_In. split.
    + intros [[X|X]|X]; [tauto| |discriminate]. destruct (in_dec str_dec m ts); tauto.
    + intros [[X|X]|X]; [tauto|apply H1 in X; tauto|tauto].
  - intros m. rewrite starts_snoc. cbn. rewrite Nat.add_0_r. auto.
  - intros a b x. rewrite !minus_In. intros [X _] [Y _]. now apply A11.
  - intros x. rewrite fold_minus_res, A12. split.
    + intros [(a & Ha & Hx) Nx]. exists a. split; [|assumption]. apply minus_In. split; [assumption|].
        intros Ht. exact (Nx a Ht Hx).
    + intros (a & Ha & Hx). apply minus_In in Ha. destruct Ha as [Ha Nt]. split; [now exists a|].
        intros i Hi Hxi. destruct (H1 i Hi) as [Hs _].
        destruct (str_dec a i) as [->|Nai]; [contradiction|exact (A11 a i x Ha Hs Nai Hx Hxi)].
  - apply (deps_snoc (fun tr1 n => forall d, In d (deps n) -> In d todo -> In (LFinish d) tr1)); [assumption|discriminate].
  - intros l E. destruct (NT l E).
Qed.

Lemma inv_step tr s l s' : inv tr s -> step s l s' -> inv (tr ++ [l]) s'.
Proof.
  intros I St. pose proof I as I0. destruct I0 as [A1 A2 A3 A4 A5 A6 A7 A8 A9 A10 A11 A12 A13 A14].
  inversion St; subst.
  - (* plan *)
    apply (inv_same tr s); try reflexivity; try discriminate; [assumption|]. cbn [thread]. intros k [= <-].
    destruct H2 as [NO SO].
    destruct (plan_pass_spec (done s) ord (reserved s) NO) as (P1 & P2 & P3 & P4).
    unfold SchedModel.plan. split; [|split].
    + apply (Permutation_NoDup (Permutation_sym (sort_perm _ _)) P1).
    + intros n Hn. rewrite sort_In in Hn. pose proof (P2 n Hn) as Ho. apply SO in Ho. rewrite !minus_In in Ho.
      destruct (P3 n Hn) as [D R]. repeat split; try tauto.
      intros x a Hx Ha Hxa. apply (R x Hx). apply A12. now exists a.
    + intros a b x. rewrite !sort_In. apply P4.
  - (* stop *)
    apply (inv_same tr s); try reflexivity; try discriminate. assumption.
  - (* start *)
    destruct (A14 _ H) as (S1 & S2 & S3). inversion S1 as [|? ? SNI SND]; subst.
    destruct (S2 n (or_introl eq_refl)) as (N1 & N2 & N3 & N4 & N5).
    constructor; cbn [done scheduled ready reserved thread]; trivial.
    + now apply minus_snoc_NoDup.
    + intros m Hm. rewrite in_snoc in Hm. destruct Hm as [Hm| -> ]; [auto|assumption].
    + intros m Hm. rewrite in_snoc in Hm. destruct Hm as [Hm| -> ]; [auto|assumption].
    + intros m Hm. rewrite in_snoc. left. auto.
    + intros m. rewrite !in_snoc, A8. split; [intros [X|X]; [tauto|]|intros [X|[X| -> ]]; tauto].
      injection X as ->. tauto.
    + intros m. rewrite in_snoc, A9. split; [intros [X|X]; [tauto|discriminate]|tauto].
    + intros m. rewrite starts_snoc. cbn. destruct (str_eqb m n) eqn:E; [|rewrite Nat.add_0_r; auto].
      apply str_eqb_eq in E. subst m. rewrite starts_0; [lia|]. rewrite A8. tauto.
    + intros a b x Ha Hb Nab Hx Hy. rewrite in_snoc in Ha, Hb.
      destruct Ha as [Ha| -> ], Hb as [Hb| -> ].
      * exact (A11 a b x Ha Hb Nab Hx Hy).
      * exact (N5 x a Hy Ha Hx).
      * exact (N5 x b Hx Hb Hy).
      * now apply Nab.
    + intros x. rewrite in_app_iff, A12. split.
      * intros [(a & Ha & Hx)|Hx]; [exists a; rewrite in_snoc; tauto|exists n; rewrite in_snoc; tauto].
      * intros (a & Ha & Hx). rewrite in_snoc in Ha. destruct Ha as [Ha| -> ]; [left; now exists a|now right].
    + apply (deps_snoc (fun tr1 n => forall d, In d (deps n) -> In d todo -> In (LFinish d) tr1)); [assumption|].
      intros m [= <-] d Hd Ht. apply A9. left. auto.
    + intros k Hk. assert (K : k = l0). { destruct l0; [discriminate|]. now injection Hk. } subst k.
      split; [assumption|]. split; [|intros a b x Ha Hb; apply S3; now right].
      intros m Hm. destruct (S2 m (or_intror Hm)) as (M1 & M2 & M3 & M4 & M5). repeat split; trivial.
      * cbn [scheduled]. rewrite in_snoc. intros [X|X]; [contradiction|]. subst m. contradiction.
      * cbn [scheduled]. intros x a Hx Ha Hy. rewrite in_snoc in Ha. destruct Ha as [Ha| -> ]; [exact (M5 x a Hx Ha Hy)|].
        assert (Nmn : m <> n) by (intros ->; contradiction).
        exact (S3 m n x (or_intror Hm) (or_introl eq_refl) Nmn Hx Hy).
  - (* start skip: impossible *)
    exfalso. destruct (A14 _ H) as (_ & S2 & _). destruct (S2 n (or_introl eq_refl)) as (_ & N2 & N3 & _). tauto.
  - (* start none *)
    apply (inv_same tr s); try reflexivity; try discriminate. assumption.
  - (* finish *)
    constructor; cbn [done scheduled ready reserved thread]; trivial.
    + now apply minus_snoc_NoDup.
    + intros m Hm. rewrite in_snoc in Hm. destruct Hm as [Hm| -> ]; [auto|assumption].
    + intros m. rewrite in_snoc, A8. split; [intros [X|X]; [tauto|discriminate]|tauto].
    + intros m. rewrite !in_snoc, A9. split; [intros [X|X]; [tauto|]|intros [X|[X| -> ]]; tauto].
      injection X as ->. tauto.
    + intros m. rewrite starts_snoc. cbn. rewrite Nat.add_0_r. auto.
    + apply (deps_snoc (fun tr1 n => forall d, In d (deps n) -> In d todo -> In (LFinish d) tr1)); [assumption|discriminate].
  - (* collect *)
    apply (inv_collect tr s ts); trivial; discriminate.
  - apply (inv_collect tr s ts); trivial; discriminate.
  - (* publish *)
    apply (inv_same tr s); try reflexivity; try discriminate. assumption.
  - (* check *)
    apply (inv_same tr s); try reflexivity; try discriminate; assumption.
  - apply (inv_same tr s); try reflexivity; try discriminate; assumption.
  - apply (inv_same tr s); try reflexivity; try discriminate; assumption.
  - apply (inv_same tr s); try reflexivity; try discriminate; assumption.
  - apply (inv_same tr s); try reflexivity; try discriminate; assumption.
Qed.

Lemma inv_run tr s : run tr s -> inv tr s.
Proof. induction 1; [apply inv_initial|eapply inv_step; eassumption]. Qed.

End Sched.
