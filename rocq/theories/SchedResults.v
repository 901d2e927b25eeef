From Verif Require Import PyStrFacts SchedSpec SchedProofs SchedAccount.
From Coq Require Import Lia Permutation.

Section Sched.
Variable todo : list str.
Variable deps : str -> list str.
Variable res : str -> list nat.
Variable dur : str -> nat.
Variable leaves : str -> worker_report.
Hypothesis ND : NoDup todo.

Notation step := (step todo deps res dur leaves).
Notation run := (run todo deps res dur leaves).
Notation inv := (inv todo deps res).
Notation acc := (acc todo).

(** ** Exclusive resources, dependencies *)

Lemma running_scheduled tr s n : inv tr s -> running tr n -> In n (scheduled s).
Proof.
  intros I [A B]. apply (i_start _ _ _ _ _ I) in A. destruct A as [A|A]; [|assumption].
  destruct B. apply (i_finish _ _ _ _ _ I). now left.
Qed.

Lemma exclusive tr s a b x : run tr s -> running tr a -> running tr b -> a <> b -> In x (res a) -> ~ In x (res b).
Proof.
  intros R A B. pose proof (inv_run _ _ _ _ _ _ _ R) as I.
  exact (i_excl _ _ _ _ _ I a b x (running_scheduled _ _ _ I A) (running_scheduled _ _ _ I B)).
Qed.

Lemma deps_first tr s tr1 n tr2 d : run tr s -> tr = tr1 ++ LStart n :: tr2 -> In d (deps n) -> In d todo -> In (LFinish d) tr1.
Proof. intros R E. pose proof (inv_run _ _ _ _ _ _ _ R) as I. exact (i_deps _ _ _ _ _ I tr1 n tr2 E d). Qed.

Lemma started_once tr s n : run tr s -> starts tr n <= 1 /\ (In (LStart n) tr -> In n todo).
Proof.
  intros R. pose proof (inv_run _ _ _ _ _ _ _ R) as I. split; [apply (i_once _ _ _ _ _ I)|].
  intros H. apply (i_start _ _ _ _ _ I) in H. destruct H; [now apply (i_done_todo _ _ _ _ _ I)|now apply (i_sched_todo _ _ _ _ _ I)].
Qed.

(** ** The flow of reports *)

Lemma published_snoc tr l : published (tr ++ [l]) = published tr ++ published [l].
Proof. unfold published. apply flat_map_app. Qed.
Lemma delivered_snoc tr l : delivered (tr ++ [l]) = delivered tr ++ delivered [l].
Proof. unfold delivered. apply flat_map_app. Qed.

Definition right (r : report) : Prop := says (leaves (fst r)) (snd r).

Lemma reports_right ts rs : reports_of leaves ts = Some rs -> Forall right rs.
Proof.
  revert rs. induction ts as [|t ts IH]; cbn; intros rs E; [injection E as <-; constructor|].
  unfold right in *.
  destruct (leaves t) eqn:L; [|discriminate|]; destruct (reports_of leaves ts); try discriminate;
    injection E as <-; constructor; cbn; auto; now rewrite L.
Qed.

Record flow (tr : list label) (s : state) : Prop := {
  f_pub : exists ex, published tr = delivered tr ++ ex /\ (active s -> ex = queue s);
  f_right : Forall right (published tr ++ pending s);
  f_names : main s <> Crashed -> map rep_name (delivered tr) = map rep_name (written tr) ++ map rep_name (hand s);
  f_coll : thread s <> Dead -> map rep_name (published tr ++ pending s) = collected tr;
  f_sub : exists ex, collected tr = map rep_name (published tr) ++ ex
}.

Lemma flow_same tr s l s' : flow tr s ->
  pending s' = pending s -> queue s' = queue s -> main s' = main s -> (thread s' = Dead <-> thread s = Dead) ->
  published [l] = [] -> delivered [l] = [] -> written [l] = [] -> collected [l] = [] -> flow (tr ++ [l]) s'.
Proof.
  intros [A B C D E] EP EQ EM ET P1 D1 W1 C1.
  constructor; unfold active, hand; rewrite ?published_snoc, ?delivered_snoc, ?written_snoc, ?collected_snoc, ?P1, ?D1, ?W1, ?C1, ?app_nil_r, ?EP, ?EQ, ?EM; trivial.
  intros H. apply D. now rewrite <- ET.
Qed.

Lemma before_string_all q : length (before_string q) = length q -> before_string q = q.
Proof.
  induction q as [|[n [r|]] q IH]; cbn; intros E; [reflexivity| |discriminate].
  injection E as E. now rewrite IH.
Qed.

Lemma flow_step tr s l s' : inv tr s -> acc tr s -> flow tr s -> step s l s' -> flow (tr ++ [l]) s'.
Proof.
  intros I A F St. inversion St; subst.
  - apply (flow_same tr s); trivial; unfold pending; cbn [thread]; rewrite ?H; try reflexivity; split; discriminate.
  - apply (flow_same tr s); trivial; unfold pending; cbn [thread]; rewrite ?H; try reflexivity; split; discriminate.
  - apply (flow_same tr s); trivial; unfold pending; cbn [thread]; rewrite ?H; destruct l0; try reflexivity; split; discriminate.
  - apply (flow_same tr s); trivial; unfold pending; cbn [thread]; rewrite ?H; destruct l0; try reflexivity; split; discriminate.
  - apply (flow_same tr s); trivial; unfold pending; cbn [thread]; rewrite ?H; try reflexivity; split; discriminate.
  - apply (flow_same tr s); trivial; reflexivity.
  - (* collect *)
    destruct F as [Fp Fr Fn Fc Fs]. assert (PE : pending s = []) by (unfold pending; now rewrite H).
    rewrite PE, app_nil_r in *.
    constructor; rewrite ?published_snoc, ?delivered_snoc, ?written_snoc, ?collected_snoc; unfold pending; cbn [thread published delivered written collected flat_map]; rewrite ?app_nil_r; trivial.
    + apply Forall_app. split; [assumption|]. exact (reports_right _ _ H3).
    + intros _. rewrite map_app, Fc, (reports_names _ _ _ H3); [reflexivity|]. rewrite H. discriminate.
    + destruct Fs as [ex E]. exists (ex ++ ts). now rewrite E, app_assoc.
  - (* dies *)
    destruct F as [Fp Fr Fn Fc Fs]. assert (PE : pending s = []) by (unfold pending; now rewrite H).
    rewrite PE, app_nil_r in *.
    constructor; rewrite ?published_snoc, ?delivered_snoc, ?written_snoc, ?collected_snoc; unfold pending; cbn [thread published delivered written collected flat_map]; rewrite ?app_nil_r; trivial.
    + intros X. now destruct X.
    + destruct Fs as [ex E]. exists (ex ++ ts). now rewrite E, app_assoc.
  - (* publish *)
    destruct F as [Fp Fr Fn Fc Fs]. assert (PE : pending s = rs) by (unfold pending; now rewrite H).
    rewrite PE in *.
    constructor; rewrite ?published_snoc, ?delivered_snoc, ?written_snoc, ?collected_snoc; unfold pending; cbn [thread published delivered written collected flat_map]; rewrite ?app_nil_r; trivial.
    + destruct Fp as (ex & E & Q). exists (ex ++ rs). split; [now rewrite E, app_assoc|]. intros Ac. cbn [queue]. f_equal. apply Q. exact Ac.
    + intros _. apply Fc. rewrite H. discriminate.
    + exists []. rewrite app_nil_r. symmetry. apply Fc. rewrite H. discriminate.
  - (* check *)
    destruct F as [Fp Fr Fn Fc Fs].
    constructor; rewrite ?published_snoc, ?delivered_snoc, ?written_snoc, ?collected_snoc; unfold pending; cbn [thread published delivered written collected flat_map]; rewrite ?app_nil_r; trivial.
    + destruct Fp as (ex & E & Q). exists ex. split; [assumption|]. intros _. apply Q. split; rewrite H; discriminate.
    + intros _. rewrite Fn; [|rewrite H; discriminate]. unfold hand. rewrite H. cbn [main].
      destruct ((_ || _) && _); reflexivity.
  - (* take *)
    destruct F as [Fp Fr Fn Fc Fs].
    constructor; rewrite ?published_snoc, ?delivered_snoc, ?written_snoc, ?collected_snoc; unfold pending; cbn [thread published delivered written collected flat_map]; rewrite ?app_nil_r; trivial.
    + destruct Fp as (ex & E & Q). assert (Ac : active s) by (split; rewrite H; discriminate).
      rewrite (Q Ac), H0 in E. exists q. split; [rewrite E, <- app_assoc; reflexivity|]. intros _. reflexivity.
    + intros _. rewrite map_app, Fn; [|rewrite H; discriminate]. unfold hand. rewrite H. cbn [main]. now rewrite app_nil_r.
  - (* record *)
    destruct F as [Fp Fr Fn Fc Fs].
    constructor; rewrite ?published_snoc, ?delivered_snoc, ?written_snoc, ?collected_snoc; unfold pending; cbn [thread published delivered written collected flat_map]; rewrite ?app_nil_r; trivial.
    + destruct Fp as (ex & E & Q). exists ex. split; [assumption|]. intros _. apply Q. split; rewrite H; discriminate.
    + intros _. rewrite Fn; [|rewrite H; discriminate]. unfold hand. rewrite H. cbn [main]. rewrite map_app. cbn. reflexivity.
  - (* crash *)
    destruct F as [Fp Fr Fn Fc Fs].
    constructor; rewrite ?published_snoc, ?delivered_snoc, ?written_snoc, ?collected_snoc; unfold pending; cbn [thread published delivered written collected flat_map]; rewrite ?app_nil_r; trivial.
    + destruct Fp as (ex & E & Q). exists ex. split; [assumption|]. intros [_ X]. now destruct X.
    + cbn [main]. intros X. now destruct X.
  - (* rest *)
    destruct F as [Fp Fr Fn Fc Fs].
    constructor; rewrite ?published_snoc, ?delivered_snoc, ?written_snoc, ?collected_snoc; unfold pending; cbn [thread published delivered written collected flat_map]; rewrite ?app_nil_r; trivial.
    + destruct Fp as (ex & E & Q). assert (Ac : active s) by (split; rewrite H; discriminate).
      rewrite (Q Ac) in E. exists []. rewrite app_nil_r. split; [assumption|].
      intros [X Y]. cbn [main] in X, Y. destruct (Nat.eqb _ _); congruence.
    + cbn [main]. intros X. destruct (Nat.eqb _ _) eqn:L; [|congruence]. apply Nat.eqb_eq in L.
      rewrite !map_app, Fn; [|rewrite H; discriminate]. unfold hand. rewrite H. cbn [main map].
      rewrite !app_nil_r. now rewrite (before_string_all _ L).
Qed.

Lemma flow_run tr s : run tr s -> flow tr s.
Proof.
  induction 1 as [|tr s l s' Hr IH Hs].
  - constructor; cbn; try (intros; reflexivity); try constructor.
    + exists []. split; reflexivity.
    + exists []. reflexivity.
  - exact (flow_step _ _ _ _ (inv_run _ _ _ _ _ _ _ Hr) (acc_run _ _ _ _ _ _ _ Hr) IH Hs).
Qed.

(** at every moment: the records are those of the first collected cases, none twice *)
Lemma records_prefix tr s : run tr s ->
  (exists ex, collected tr = map rep_name (published tr) ++ ex) /\
  (exists ex, published tr = delivered tr ++ ex) /\
  (exists ex, collected tr = map rep_name (written tr) ++ ex) /\
  NoDup (collected tr) /\ incl (collected tr) todo /\
  (forall n r, In (n, r) (delivered tr) -> says (leaves n) r).
Proof.
  intros R. pose proof (inv_run _ _ _ _ _ _ _ R) as I. pose proof (acc_run _ _ _ _ _ _ _ R) as A.
  pose proof (flow_run _ _ R) as F. repeat split.
  - apply (f_sub _ _ F).
  - destruct (f_pub _ _ F) as (ex & E & _). now exists ex.
  - rewrite <- (j_done _ _ _ A), <- (j_rec _ _ _ A). apply (j_prefix _ _ _ A).
  - rewrite <- (j_done _ _ _ A). apply (i_done_nd _ _ _ _ _ I).
  - rewrite <- (j_done _ _ _ A). apply (i_done_todo _ _ _ _ _ I).
  - intros n r H. destruct (f_pub _ _ F) as (ex & E & _). pose proof (f_right _ _ F) as FR.
    rewrite Forall_forall in FR. apply (FR (n, r)). apply in_app_iff. left. rewrite E. apply in_app_iff. now left.
Qed.

(** ** The end of the run *)

Definition ended_well (tr : list label) (s : state) : Prop :=
  main s = Finished -> ~ aborted tr ->
  map rep_name (recorded s) = done s /\ length todo = length (done s).

Lemma full_nothing tr s : inv tr s -> length todo = length (done s) -> scheduled s = [].
Proof.
  intros I E. destruct (scheduled s) as [|n l] eqn:S; [reflexivity|].
  assert (incl todo (done s)).
  { apply NoDup_length_incl; [apply (i_done_nd _ _ _ _ _ I)|unfold str, char in *; lia|apply (i_done_todo _ _ _ _ _ I)]. }
  exfalso. apply (i_apart _ _ _ _ _ I n); [rewrite S; now left|]. apply H. apply (i_sched_todo _ _ _ _ _ I). rewrite S. now left.
Qed.

Lemma ended_step tr s l s' : inv tr s -> acc tr s -> ended_well tr s -> step s l s' -> ended_well (tr ++ [l]) s'.
Proof.
  intros I A E St.
  assert (NA : ~ aborted (tr ++ [l]) -> ~ aborted tr) by (intros X Y; apply X; now apply aborted_snoc).
  unfold ended_well in *. inversion St; subst; cbn [main done recorded]; try (intros X Y; now apply E; auto); try discriminate.
  - intros X Y. destruct (E X (NA Y)) as [E1 E2]. assert (ts = []) as ->.
    { destruct ts as [|t ts]; [reflexivity|]. destruct (H1 t (or_introl eq_refl)) as [S _].
      rewrite (full_nothing _ _ I E2) in S. destruct S. }
    rewrite app_nil_r. auto.
  - intros X Y. destruct (E X (NA Y)) as [E1 E2]. assert (ts = []) as ->.
    { destruct ts as [|t ts]; [reflexivity|]. destruct (H1 t (or_introl eq_refl)) as [S _].
      rewrite (full_nothing _ _ I E2) in S. destruct S. }
    rewrite app_nil_r. auto.
  - destruct (_ && _); discriminate.
  - intros _ Y. destruct A as [L DE F P D R AB BM W LV EN].
    destruct (LV H) as [Z|[Z Q]].
    { destruct (AB Z) as [Z1|[Z1|Z1]]; [now apply NA in Y|congruence|congruence]. }
    destruct F as (ex & EF & Ex). { split; rewrite H; discriminate. }
    assert (TD : thread s <> Dead) by (intros X; apply DE in X; lia).
    rewrite (Ex TD), app_nil_r in EF. specialize (L TD). rewrite Z in L.
    assert (B : length (done s) <= length todo).
    { apply NoDup_incl_length; [apply (i_done_nd _ _ _ _ _ I)|apply (i_done_todo _ _ _ _ _ I)]. }
    assert (pending s = []) as PN. { destruct (pending s); [reflexivity|]. cbn in L. unfold str, char in *. lia. }
    rewrite PN, Q in EF. rewrite PN in L. unfold hand in EF. rewrite H in EF. cbn [app] in EF. rewrite app_nil_r in EF.
    rewrite Q. cbn [before_string]. rewrite app_nil_r. split; [now symmetry|]. cbn in L. unfold str, char in *. lia.
Qed.

Lemma ended_run tr s : run tr s -> ended_well tr s.
Proof.
  induction 1 as [|tr s l s' Hr IH Hs]; [intros X; discriminate|].
  exact (ended_step _ _ _ _ (inv_run _ _ _ _ _ _ _ Hr) (acc_run _ _ _ _ _ _ _ Hr) IH Hs).
Qed.

Lemma complete tr s : run tr s -> main s = Finished -> ~ aborted tr ->
  Permutation (collected tr) todo /\
  map rep_name (delivered tr) = collected tr /\
  map rep_name (written tr) = collected tr /\
  (forall n, In n todo -> starts tr n = 1 /\ In (LFinish n) tr).
Proof.
  intros R M NA. pose proof (inv_run _ _ _ _ _ _ _ R) as I. pose proof (acc_run _ _ _ _ _ _ _ R) as A.
  pose proof (flow_run _ _ R) as F. destruct (ended_run _ _ R M NA) as [E1 E2].
  rewrite <- (j_done _ _ _ A).
  assert (IN : incl todo (done s)).
  { apply NoDup_length_incl; [apply (i_done_nd _ _ _ _ _ I)|unfold str, char in *; lia|apply (i_done_todo _ _ _ _ _ I)]. }
  split.
  { apply NoDup_Permutation; [apply (i_done_nd _ _ _ _ _ I)|assumption|]. intros n. split; [apply (i_done_todo _ _ _ _ _ I)|apply IN]. }
  pose proof (j_rec _ _ _ A) as JR. rewrite <- JR, E1. split; [|split; [reflexivity|]].
  - rewrite (f_names _ _ F); [|rewrite M; discriminate]. unfold hand. rewrite M. cbn [map]. rewrite app_nil_r, <- JR. exact E1.
  - intros n Hn. apply IN in Hn. split.
    + assert (H : In (LStart n) tr) by (apply (i_start _ _ _ _ _ I); now left).
      pose proof (i_once _ _ _ _ _ I n) as O. unfold starts in *.
      assert (In (LStart n) (filter (label_eqb_start n) tr)).
      { apply filter_In. split; [assumption|]. cbn. apply str_eqb_refl. }
      destruct (filter (label_eqb_start n) tr); [destruct H0|]. cbn in *. lia.
    + apply (i_finish _ _ _ _ _ I). now left.
Qed.

(** ** Progress *)

Lemma minimal (L : list str) : acyclic_deps todo deps -> incl L todo -> forall k x vs,
  In x L -> NoDup vs -> incl vs L -> (forall v, In v vs -> depends todo deps v x) ->
  length L <= k + length vs ->
  exists m, In m L /\ forall d, In d (deps m) -> ~ In d L.
Proof.
  intros Ac IL. induction k as [|k IH]; intros x vs Hx NV IV DV Hk.
  - exfalso. assert (NoDup (x :: vs)) as N2.
    { constructor; [|assumption]. intros H. exact (Ac x (DV x H)). }
    assert (incl (x :: vs) L) as I2 by (intros y [<-|Hy]; auto).
    pose proof (NoDup_incl_length N2 I2). cbn in H. unfold str, char in *. lia.
  - destruct (existsb (fun d => str_mem d L) (deps x)) eqn:E.
    + apply existsb_exists in E. destruct E as (d & Hd & E). apply str_mem_In in E.
      assert (D1 : depends todo deps x d) by (apply dep_one; auto).
      apply (IH d (x :: vs) E).
      * constructor; [|assumption]. intros H. exact (Ac x (DV x H)).
      * intros y [<-|Hy]; auto.
      * intros v [<-|Hv]; [assumption|]. exact (dep_trans _ _ _ _ _ (DV v Hv) D1).
      * cbn. lia.
    + exists x. split; [assumption|]. intros d Hd Hl.
      assert (existsb (fun d => str_mem d L) (deps x) = true); [|congruence].
      apply existsb_exists. exists d. split; [assumption|]. now apply str_mem_In.
Qed.

Definition busy (s : state) : Prop := thread s = Polling \/ thread s = Starting [] -> scheduled s <> [].

Lemma plan_nonempty s tr ord : acyclic_deps todo deps -> inv tr s -> length (done s) < length todo -> scheduled s = [] ->
  same_set ord (minus (minus todo (done s)) (scheduled s)) ->
  plan todo deps res dur (done s) (reserved s) ord <> [].
Proof.
  intros Ac I Hl S SS.
  assert (HU : exists x, In x todo /\ ~ In x (done s)).
  { destruct (minus todo (done s)) as [|x l] eqn:E.
    - exfalso. assert (incl todo (done s)).
      { intros x Hx. destruct (in_dec (list_eq_dec N.eq_dec) x (done s)) as [Hd|Hd]; [assumption|].
        assert (In x (minus todo (done s))) by now apply minus_In. rewrite E in H. destruct H. }
      pose proof (NoDup_incl_length ND H). unfold str, char in *. lia.
    - exists x. apply minus_In. rewrite E. now left. }
  destruct HU as (x & Hx & Hd).
  assert (IU : incl (minus todo (done s)) todo) by (intros y Hy; now apply minus_In in Hy).
  destruct (minimal (minus todo (done s)) Ac IU (length (minus todo (done s))) x []) as (m & Hm & Hmin).
  { now apply minus_In. } { constructor. } { intros y []. } { intros v []. } { cbn; lia. }
  apply minus_In in Hm. destruct Hm as [Hm1 Hm2].
  assert (PP : plan_pass todo deps res (done s) (reserved s) ord <> []).
  { apply (plan_pass_nonempty todo deps res (done s) ord (reserved s) m).
    - apply SS. rewrite S. apply minus_In. split; [now apply minus_In|intros []].
    - apply runnable_iff. split.
      + intros d Hdm Ht. destruct (in_dec (list_eq_dec N.eq_dec) d (done s)) as [Y|Y]; [assumption|].
        destruct (Hmin d Hdm). now apply minus_In.
      + intros y _ Hy. apply (i_res _ _ _ _ _ I) in Hy. destruct Hy as (a & Ha & _). rewrite S in Ha. destruct Ha. }
  unfold plan. intros E. apply PP.
  pose proof (sort_perm (plan_le dur) (plan_pass todo deps res (done s) (reserved s) ord)) as P.
  rewrite E in P. now apply Permutation_nil in P.
Qed.

Lemma busy_step tr s l s' : acyclic_deps todo deps -> inv tr s -> busy s -> step s l s' -> busy s'.
Proof.
  intros Ac I B St. unfold busy in *. inversion St; subst; cbn [thread scheduled]; try (intros [X|X]; discriminate); try exact B.
  - intros [X|X]; [discriminate|]. injection X as X. intros S. exact (plan_nonempty s tr ord Ac I H0 S H2 X).
  - intros _ X. apply app_eq_nil in X. destruct X as [_ X]. discriminate X.
  - intros _ S. destruct (i_starting _ _ _ _ _ I _ H) as (_ & X & _).
    destruct (X n (or_introl eq_refl)) as (_ & Y & Z & _). tauto.
  - intros _. apply B. now right.
Qed.

Lemma busy_run tr s : acyclic_deps todo deps -> run tr s -> busy s.
Proof.
  intros Ac. induction 1 as [|tr s l s' Hr IH Hs]; [intros [X|X]; discriminate|].
  exact (busy_step _ _ _ _ Ac (inv_run _ _ _ _ _ _ _ Hr) IH Hs).
Qed.

Lemma all_recorded ts : (forall n, In n todo -> exists r, leaves n = Recorded r) -> incl ts todo ->
  exists rs, reports_of leaves ts = Some rs.
Proof.
  intros AR. induction ts as [|t ts IH]; intros I; [now exists []|].
  destruct (IH (fun x H => I x (or_intror H))) as [rs E]. destruct (AR t (I t (or_introl eq_refl))) as [r L].
  cbn. rewrite L, E. now eexists.
Qed.

(** a worker is not done, or another step is possible, or all is over *)
Lemma progress tr s : acyclic_deps todo deps -> (forall n, In n todo -> leaves n <> EmptyFile) -> run tr s ->
  (exists n, running tr n) \/
  (exists l s', step s l s' /\ forall n, l <> LFinish n) \/
  ((main s = Finished \/ main s = Crashed) /\ thread s = Ended).
Proof.
  intros Ac LE R. pose proof (inv_run _ _ _ _ _ _ _ R) as I. pose proof (acc_run _ _ _ _ _ _ _ R) as A.
  pose proof (busy_run _ _ Ac R) as B.
  assert (ALL : forall ts, incl ts todo -> exists rs, reports_of leaves ts = Some rs).
  { induction ts as [|t ts IH]; intros X; [now exists []|].
    destruct (IH (fun x H => X x (or_intror H))) as [rs E]. pose proof (LE t (X t (or_introl eq_refl))) as L.
    cbn. destruct (leaves t); [|congruence|]; rewrite E; now eexists. }
  assert (ND' : thread s <> Dead).
  { clear B. revert ALL. clear -R ND. intros ALL. induction R as [|tr s l s' Hr IH Hs]; [discriminate|].
    pose proof (inv_run _ _ _ _ _ _ _ Hr) as I.
    inversion Hs; subst; cbn [thread]; try discriminate; try assumption; try (destruct l0; discriminate).
    destruct (ALL ts) as [rs E]; [|congruence]. intros x Hx. apply (i_sched_todo _ _ _ _ _ I). now apply H1. }
  destruct (thread s) as [|[|n l]| |rs| |] eqn:T.
  - right. left. destruct (le_lt_dec (length todo) (length (done s))) as [Hl|Hl].
    + exists LStop. eexists. split; [apply st_stop; auto|discriminate].
    + destruct (abort s) eqn:Ab.
      * exists LStop. eexists. split; [apply st_stop; auto|discriminate].
      * exists LPlan. eexists. split; [apply (st_plan _ _ _ _ _ _ (minus (minus todo (done s)) (scheduled s))); auto|discriminate].
        split; [now apply minus_NoDup, minus_NoDup|reflexivity].
  - right. left. exists LPlan. eexists. split; [now apply st_start_none|discriminate].
  - right. left. destruct (i_starting _ _ _ _ _ I _ T) as (_ & X & _).
    destruct (X n (or_introl eq_refl)) as (_ & Y & Z & _).
    exists (LStart n). eexists. split; [now apply (st_start _ _ _ _ _ _ n l)|discriminate].
  - destruct (abort s) eqn:Ab.
    + right. left. exists (LCollect []). eexists.
      split; [apply (st_collect _ _ _ _ _ _ [] []); auto; [constructor|intros n []]|discriminate].
    + assert (BS : scheduled s <> []) by (apply B; now left).
      destruct (scheduled s) as [|n sc] eqn:S; [congruence|].
      destruct (in_dec (list_eq_dec N.eq_dec) n (ready s)) as [Hr|Hr].
      * right. left. destruct (ALL [n]) as [rs E].
        { intros x [<-|[]]. apply (i_sched_todo _ _ _ _ _ I). rewrite S. now left. }
        exists (LCollect [n]). eexists. split; [apply (st_collect _ _ _ _ _ _ [n] rs); auto|discriminate].
        -- repeat constructor. intros [].
        -- intros x [<-|[]]. rewrite S. split; [now left|assumption].
        -- left. discriminate.
      * left. exists n. split.
        -- apply (i_start _ _ _ _ _ I). right. rewrite S. now left.
        -- intros X. apply (i_finish _ _ _ _ _ I) in X. destruct X as [X|X]; [|contradiction].
           apply (i_apart _ _ _ _ _ I n); [rewrite S; now left|assumption].
  - right. left. exists (LPublish rs). eexists. split; [now apply st_publish|discriminate].
  - (* ended *)
    right. destruct (main s) as [| |[n [x|]]| | |] eqn:M.
    + left. exists LCheck. eexists. split; [now apply st_check|discriminate].
    + left. destruct (queue s) as [|r q] eqn:Q.
      * exfalso. destruct (j_wait _ _ _ A M) as [X|X]; [|congruence].
        assert (TD : thread s <> Dead) by (rewrite T; discriminate).
        pose proof (j_left _ _ _ A TD) as L. unfold pending in L. rewrite T in L. cbn in L.
        destruct (j_ended _ _ _ A T) as [Y|Y]; [unfold str, char in *; lia|].
        rewrite (j_busy_main _ _ _ A) in Y; [discriminate|now left].
      * exists (LTake r). eexists. split; [now apply st_take with (q := q)|discriminate].
    + left. exists (LRecord (n, Enum x) false). eexists. split; [now apply (st_record _ _ _ _ _ _ n x x false)|discriminate].
    + left. exists (LRecord (n, FailString) false). eexists. split; [now apply (st_record_crash _ _ _ _ _ _ n false)|discriminate].
    + left. exists (LRest (queue s)). eexists. split; [now apply st_rest|discriminate].
    + right. tauto.
    + right. tauto.
  - congruence.
Qed.

(** ** Termination *)

Definition main_weight (m : main_phase) : nat :=
  match m with AtCheck => 3 | Waiting => 2 | Reviewing _ => 1 | Leaving => 1 | Finished | Crashed => 0 end.
Definition thread_weight (ab : bool) (t : phase) : nat :=
  match t with
  | AtLoop => if ab then 1 else 5
  | Publishing _ => if ab then 2 else 6
  | Polling => 3 | Starting _ => 4 | Ended | Dead => 0
  end.
Definition weight (s : state) : nat :=
  let N := length todo in
  4 * (N - length (recorded s)) + main_weight (main s) + 10 * (N - length (done s)) +
  thread_weight (abort s) (thread s) + (N - length (done s) - length (scheduled s)) +
  (N - length (done s) - length (ready s)).

Lemma weight_abort a b t : thread_weight (a || b) t <= thread_weight a t.
Proof. destruct t, a, b; cbn; lia. Qed.

Lemma minus_length (a b : list str) : NoDup a -> NoDup b -> incl b a -> length (minus a b) + length b = length a.
Proof.
  intros Na Nb I. rewrite Nat.add_comm, <- app_length. apply Permutation_length. apply NoDup_Permutation; [|assumption|].
  - apply NoDup_app_iff. repeat split; trivial; [now apply minus_NoDup|]. intros x Hx Hy. apply minus_In in Hy. tauto.
  - intros x. rewrite in_app_iff, minus_In. split; [intros [H|H]; [auto|tauto]|].
    intros H. destruct (in_dec (list_eq_dec N.eq_dec) x b); tauto.
Qed.

Lemma sched_bound tr s : inv tr s -> length (done s) + length (scheduled s) <= length todo /\ length (ready s) <= length (scheduled s).
Proof.
  intros I. split.
  - rewrite <- app_length. apply NoDup_incl_length.
    + apply NoDup_app_iff. repeat split; [apply (i_done_nd _ _ _ _ _ I)|apply (i_sched_nd _ _ _ _ _ I)|].
      intros x Hx Hy. now apply (i_apart _ _ _ _ _ I x).
    + intros x Hx. apply in_app_iff in Hx. destruct Hx; [now apply (i_done_todo _ _ _ _ _ I)|now apply (i_sched_todo _ _ _ _ _ I)].
  - apply NoDup_incl_length; [apply (i_ready_nd _ _ _ _ _ I)|apply (i_ready _ _ _ _ _ I)].
Qed.

Lemma weight_step tr s l s' : run tr s -> step s l s' -> weight s' < weight s.
Proof.
  intros R St. assert (R' : run (tr ++ [l]) s') by now apply run_step with s.
  pose proof (inv_run _ _ _ _ _ _ _ R) as I. pose proof (inv_run _ _ _ _ _ _ _ R') as I'.
  pose proof (acc_run _ _ _ _ _ _ _ R) as A. pose proof (acc_run _ _ _ _ _ _ _ R') as A'.
  assert (RB : forall tr s, inv tr s -> acc tr s -> length (recorded s) <= length (done s)).
  { intros t x _ Ax. destruct (j_prefix _ _ _ Ax) as [ex E]. rewrite E, app_length, map_length. lia. }
  pose proof (RB _ _ I A) as B1. pose proof (RB _ _ I' A') as B2.
  destruct (sched_bound _ _ I) as [B3 B4]. destruct (sched_bound _ _ I') as [B5 B6]. clear RB.
  unfold str, char in *.
  inversion St; subst; unfold weight; cbn [recorded main done scheduled ready abort thread] in *; rewrite ?H in *; cbn [main_weight thread_weight].
  - rewrite H1. lia.
  - destruct (abort s); lia.
  - rewrite app_length in B5 |- *. cbn [length] in B5 |- *. unfold str, char in *; destruct l0; cbn [thread_weight]; lia.
  - exfalso. destruct (i_starting _ _ _ _ _ I _ H) as (_ & X & _).
    destruct (X n (or_introl eq_refl)) as (_ & Y & Z & _). tauto.
  - lia.
  - rewrite app_length in B6 |- *. cbn [length] in B6 |- *. unfold str, char in *; lia.
  - assert (M1 : length (minus (scheduled s) ts) + length ts = length (scheduled s)).
    { apply minus_length; trivial; [apply (i_sched_nd _ _ _ _ _ I)|intros x Hx; now apply H1]. }
    assert (M2 : length (minus (ready s) ts) + length ts = length (ready s)).
    { apply minus_length; trivial; [apply (i_ready_nd _ _ _ _ _ I)|intros x Hx; now apply H1]. }
    unfold str, char in *. rewrite app_length. destruct ts as [|t ts].
    + destruct H2 as [X|X]; [congruence|]. rewrite X. cbn [length] in *. lia.
    + cbn [length] in *. destruct (abort s); lia.
  - assert (M1 : length (minus (scheduled s) ts) + length ts = length (scheduled s)).
    { apply minus_length; trivial; [apply (i_sched_nd _ _ _ _ _ I)|intros x Hx; now apply H1]. }
    assert (M2 : length (minus (ready s) ts) + length ts = length (ready s)).
    { apply minus_length; trivial; [apply (i_ready_nd _ _ _ _ _ I)|intros x Hx; now apply H1]. }
    unfold str, char in *. rewrite app_length. lia.
  - destruct (abort s); lia.
  - destruct (_ && _); cbn [main_weight]; lia.
  - lia.
  - pose proof (weight_abort (abort s) stop (thread s)). rewrite app_length in B2 |- *. cbn [length] in *. unfold str, char in *; lia.
  - pose proof (weight_abort (abort s) stop (thread s)). unfold str, char in *; lia.
  - pose proof (weight_abort (abort s) true (thread s)) as WA. rewrite orb_true_r in WA. rewrite app_length in B2 |- *.
    destruct (Nat.eqb _ _); cbn [main_weight]; unfold str, char in *; lia.
Qed.

Lemma terminates tr s : run tr s -> length tr + weight s <= 16 * length todo + 8.
Proof.
  induction 1 as [|tr s l s' Hr IH Hs].
  - unfold weight. cbn. lia.
  - pose proof (weight_step _ _ _ _ Hr Hs). rewrite app_length. cbn [length]. lia.
Qed.

(** ** No crash when all workers record *)

Lemma no_crash tr s : (forall n, In n todo -> exists r, leaves n = Recorded r) -> run tr s ->
  thread s <> Dead /\ main s <> Crashed.
Proof.
  intros AR R.
  assert (Q : Forall (fun r => exists x, snd r = Enum x) (pending s ++ queue s ++ hand s) /\ thread s <> Dead /\ main s <> Crashed); [|apply Q].
  induction R as [|tr s l s' Hr IH Hs].
  - split; [constructor|split; discriminate].
  - pose proof (inv_run _ _ _ _ _ _ _ Hr) as I. destruct IH as (Q & D & C).
    rewrite !Forall_app in Q. destruct Q as (Q1 & Q2 & Q3). rewrite !Forall_app.
    unfold pending, hand in *.
    inversion Hs; subst; cbn [thread main queue]; try (destruct l0; repeat split; trivial; discriminate); try (repeat split; trivial; discriminate).
    + split; [|split; [discriminate|assumption]]. split; [|auto].
      assert (IT : incl ts todo) by (intros x Hx; apply (i_sched_todo _ _ _ _ _ I); now apply H1).
      clear -H3 IT AR. revert rs H3. induction ts as [|t ts IH]; cbn; intros rs E; [injection E as <-; constructor|].
      destruct (AR t (IT t (or_introl eq_refl))) as [r L]. rewrite L in E.
      destruct (reports_of leaves ts) as [rs'|] eqn:E2; [|discriminate]. injection E as <-.
      constructor; [now exists r|]. apply IH; [|reflexivity]. intros x Hx. apply IT. now right.
    + exfalso. destruct (all_recorded ts AR) as [rs E]; [|congruence].
      intros x Hx. apply (i_sched_todo _ _ _ _ _ I). now apply H1.
    + rewrite H in Q1. split; [|split; [discriminate|assumption]]. repeat split; [constructor|apply Forall_app; auto|assumption].
    + rewrite H in Q3. destruct (_ && _); repeat split; trivial; discriminate.
    + rewrite H0 in Q2. inversion Q2; subst. repeat split; trivial; [constructor; [assumption|constructor]|discriminate].
    + rewrite H in Q3. inversion Q3; subst. destruct H2 as [x E]. discriminate E.
    + destruct (Nat.eqb _ _) eqn:L; [repeat split; trivial; discriminate|].
      exfalso. apply Nat.eqb_neq in L. apply L. clear -Q2. induction (queue s) as [|[n [x|]] q IH]; [reflexivity| |].
      * inversion Q2; subst. cbn. f_equal. now apply IH.
      * inversion Q2; subst. destruct H1 as [x E]. discriminate E.
Qed.

End Sched.
