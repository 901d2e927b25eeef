(** C139: --cov. *)
From Verif Require Import PyStrFacts FsFacts.
From Verif Require Export CoverModel.
From Coq Require Import ZArith.

(** the data of an earlier measurement, and all that a measurement writes, in the working directory *)
Definition old_data (p : str) : Prop := p = lit ".coverage" \/ starts_with (lit ".coverage.") p = true /\ ~ In SLASH p.
Definition cov_file (p : str) : Prop := old_data p \/ p = lit "coverage.xml".
Definition agree (f g : fs) : Prop := forall p, ~ cov_file p -> lookup p f = lookup p g.
(** [l] is a listing of the working directory *)
Definition lists (f : fs) (l : list str) : Prop := NoDup l /\ forall i, In i l <-> i <> [] /\ ~ In SLASH i /\ path_exists i f = true.
(** the same end, but for the files of a measurement *)
Definition same_end (x y : io Z) : Prop :=
  match x, y with Ret a f, Ret b g => a = b /\ agree f g | Raise f, Raise g => agree f g | _, _ => False end.

Lemma remove_old_ok l : forall f, NoDup l -> (forall i, In i l -> starts_with (lit ".coverage.") i = true -> is_file i f = true) ->
  exists g, remove_old l f = Ret tt g /\ forall p, lookup p g = if str_mem p l && starts_with (lit ".coverage.") p then None else lookup p f.
Proof.
  induction l as [|i l IH]; intros f ND H; cbn [remove_old].
  - exists f. split; [reflexivity|]. intros p. reflexivity.
  - inversion ND as [|? ? NI ND']; subst. destruct (starts_with (lit ".coverage.") i) eqn:S1.
    + unfold os_remove. rewrite (H i (or_introl eq_refl) S1). cbn [io_bind]. destruct (IH (remove_file i f) ND') as (g & R & L).
      { intros j Hj S2. specialize (H j (or_intror Hj) S2). unfold is_file in *. rewrite lookup_remove. destruct (str_eqb_spec i j) as [->|_]; [contradiction|exact H]. }
      exists g. split; [exact R|]. intros p. rewrite L, lookup_remove. unfold str_mem. cbn [existsb]. destruct (str_eqb_spec p i) as [->|N].
      * rewrite str_eqb_refl, S1. cbn [orb andb]. now destruct (_ && _).
      * cbn [orb]. destruct (str_eqb_spec i p) as [->|_]; [easy|reflexivity].
    + destruct (IH f ND') as (g & R & L); [intros j Hj; apply H; now right|]. exists g. split; [exact R|]. intros p. rewrite L. unfold str_mem. cbn [existsb].
      destruct (str_eqb_spec p i) as [->|N]; [rewrite S1, !andb_false_r; reflexivity|reflexivity].
Qed.

Section Cover.
Variable listdir : fs -> list str.
Hypothesis LIST : forall f, lists f (listdir f).
Variables cov_start cov_end cov_report : fs -> io unit.
Variable run : fs -> io Z.
Notation go := (with_coverage listdir cov_start cov_end cov_report run).

(** the run starts without old data, and all other files are there *)
Lemma cleaned f : (forall i, old_data i -> is_dir i f = false) -> exists f2,
  (forall p, old_data p -> lookup p f2 = None) /\ (forall p, ~ old_data p -> lookup p f2 = lookup p f) /\
  go f = io_bind (cov_start f2) (fun _ f3 =>
    match run f3 with
    | Ret rv f4 => io_bind (cov_end f4) (fun _ f5 => io_bind (cov_report f5) (fun _ f6 => Ret rv f6))
    | Raise f4 => match cov_end f4 with Ret _ f5 => Raise f5 | Raise f5 => Raise f5 end
    end).
Proof.
  intros ND. unfold with_coverage. pose proof (ND (lit ".coverage") (or_introl eq_refl)) as D0.
  assert (S0 : exists f1, (if path_exists (lit ".coverage") f then os_remove (lit ".coverage") f else Ret tt f) = Ret tt f1 /\
    forall p, lookup p f1 = if str_eqb (lit ".coverage") p then None else lookup p f).
  { unfold path_exists. rewrite D0, orb_false_r. unfold os_remove, is_file. destruct (lookup (lit ".coverage") f) eqn:L.
    - eexists. split; [reflexivity|]. intros p. apply lookup_remove.
    - exists f. split; [reflexivity|]. intros p. destruct (str_eqb_spec (lit ".coverage") p) as [<-|_]; [exact L|reflexivity]. }
  destruct S0 as (f1 & -> & L1). cbn [io_bind]. destruct (LIST f1) as [NDL IN].
  assert (D1 : forall i, old_data i -> is_dir i f1 = false).
  { intros i Hi. destruct (is_dir i f1) eqn:D; [|reflexivity]. apply is_dir_iff in D as (p & t & T & B). rewrite L1 in T. destruct (str_eqb _ p); [discriminate|].
    rewrite <- (ND i Hi). symmetry. apply is_dir_iff. eauto. }
  destruct (remove_old_ok (listdir f1) f1 NDL) as (f2 & R & L2).
  { intros i Hi S1. apply IN in Hi as (_ & NS & X). unfold path_exists in X. rewrite D1 in X by (right; auto). now rewrite orb_false_r in X. }
  rewrite R. cbn [io_bind]. exists f2. split; [|split; [|reflexivity]].
  - intros p OD. rewrite L2. destruct OD as [->|[S1 NS]].
    + rewrite L1, str_eqb_refl. now destruct (_ && _).
    + rewrite S1, andb_true_r. destruct (str_mem p (listdir f1)) eqn:M; [reflexivity|]. destruct (lookup p f1) as [t|] eqn:L; [exfalso|reflexivity].
      assert (X : str_mem p (listdir f1) = true); [|congruence]. apply str_mem_In, IN. split; [intros ->; discriminate S1|]. split; [exact NS|]. unfold path_exists, is_file. now rewrite L.
  - intros p NO. rewrite L2. destruct (str_mem p (listdir f1) && starts_with (lit ".coverage.") p) eqn:X.
    + exfalso. apply andb_true_iff in X as [X S1]. apply str_mem_In, IN in X as (_ & NS & _). apply NO. right. auto.
    + rewrite L1. destruct (str_eqb_spec (lit ".coverage") p) as [Y|_]; [exfalso; apply NO; left; auto|reflexivity].
Qed.

Hypothesis START : forall f, exists g, cov_start f = Ret tt g /\ agree f g.
Hypothesis END : forall f, exists g, cov_end f = Ret tt g /\ agree f g.
Hypothesis REPORT : forall f, exists g, cov_report f = Ret tt g /\ agree f g.
Hypothesis RUN : forall f g, agree f g -> same_end (run f) (run g).

Lemma agree_trans f g h : agree f g -> agree g h -> agree f h.
Proof. intros A B p N. rewrite A, B; auto. Qed.

Lemma covered f : (forall i, old_data i -> is_dir i f = false) -> same_end (run f) (go f).
Proof.
  intros ND. destruct (cleaned f ND) as (f2 & C1 & C2 & ->). destruct (START f2) as (f3 & -> & A3). cbn [io_bind].
  assert (A : agree f f3).
  { apply (agree_trans f f2); [|exact A3]. intros p N. symmetry. apply C2. intros X. apply N. now left. }
  pose proof (RUN f f3 A) as S0. destruct (run f) as [a g|g], (run f3) as [a' g'|g']; cbn [same_end] in S0; try contradiction.
  - destruct S0 as [-> AG]. destruct (END g') as (f5 & -> & A5). cbn [io_bind]. destruct (REPORT f5) as (f6 & -> & A6). cbn [io_bind same_end]. split; [reflexivity|].
    apply (agree_trans g g'); [exact AG|]. now apply (agree_trans g' f5).
  - destruct (END g') as (f5 & -> & A5). cbn [same_end]. now apply (agree_trans g g').
Qed.
End Cover.

(** C139. If no directory has the name of old data, the run with --cov starts with all files of the working directory but the old
    data, and it ends like the run without --cov: with the same status, or with an exception as well, and with the same files but
    for those of the measurement. The library must raise no exception and write only its own files, and the run must not
    depend on these. *)
Theorem C139_coverage_partial :
  forall listdir cov_start cov_end cov_report run f,
  (forall f, lists f (listdir f)) -> (forall i, old_data i -> is_dir i f = false) ->
  (forall f, exists g, cov_start f = Ret tt g /\ agree f g) -> (forall f, exists g, cov_end f = Ret tt g /\ agree f g) ->
  (forall f, exists g, cov_report f = Ret tt g /\ agree f g) -> (forall f g, agree f g -> same_end (run f) (run g)) ->
  same_end (run_covered listdir cov_start cov_end cov_report run false f) (run_covered listdir cov_start cov_end cov_report run true f) /\
  exists f2 f3, (forall p, old_data p -> lookup p f2 = None) /\ (forall p, ~ old_data p -> lookup p f2 = lookup p f) /\ cov_start f2 = Ret tt f3 /\
    same_end (run f3) (run_covered listdir cov_start cov_end cov_report run true f).
Proof.
  intros listdir cov_start cov_end cov_report run f LI ND H1 H2 H3 H4. split; [now apply covered|].
  destruct (cleaned listdir LI cov_start cov_end cov_report run f ND) as (f2 & C1 & C2 & G). destruct (H1 f2) as (f3 & S1 & A3).
  exists f2, f3. split; [exact C1|]. split; [exact C2|]. split; [exact S1|]. cbn [run_covered]. rewrite G, S1. cbn [io_bind].
  destruct (run f3) as [a g|g].
  - destruct (H2 g) as (f5 & -> & A5). cbn [io_bind]. destruct (H3 f5) as (f6 & -> & A6). cbn [io_bind same_end]. split; [reflexivity|]. now apply (agree_trans g f5).
  - destruct (H2 g) as (f5 & -> & A5). exact A5.
Qed.
Print Assumptions C139_coverage_partial.

(** An exception of the library at the end replaces the status of the run, whatever it was. *)
Theorem C139_library_raises_partial :
  forall listdir cov_start cov_end cov_report run f,
  (forall f, lists f (listdir f)) -> (forall i, old_data i -> is_dir i f = false) ->
  (forall f, exists g, cov_end f = Raise g) ->
  exists g, run_covered listdir cov_start cov_end cov_report run true f = Raise g.
Proof.
  intros listdir cov_start cov_end cov_report run f LI ND H. destruct (cleaned listdir LI cov_start cov_end cov_report run f ND) as (f2 & _ & _ & G).
  cbn [run_covered]. rewrite G. destruct (cov_start f2) as [x f3|f3]; cbn [io_bind]; [|eauto].
  destruct (run f3) as [a f4|f4]; destruct (H f4) as (f5 & ->); cbn [io_bind]; eauto.
Qed.
Print Assumptions C139_library_raises_partial.

(** a listing: every first part of a path, once *)
Definition firsts (f : fs) : list str := nodup (list_eq_dec N.eq_dec) (filter (fun i => negb (str_eqb i [])) (map (fun e => fst (span (fun c => negb (N.eqb c SLASH)) (fst e))) f)).
(** a run that looks at one file and writes one *)
Definition demo_run (f : fs) : io Z := match lookup (lit "books/t.md") f with Some _ => Ret 0%Z (write_file (lit "books/.out/t.md") (lit "new") f) | None => Raise f end.
Definition demo_measure (f : fs) : io unit := Ret tt (write_file (lit ".coverage.host.7") (lit "data") f).
Definition demo_xml (f : fs) : io unit := Ret tt (write_file (lit "coverage.xml") (lit "<xml>") f).

Lemma firsts_list f : lists f (firsts f).
Proof.
  unfold firsts. split; [apply NoDup_nodup|]. intros i. rewrite nodup_In, filter_In, in_map_iff.
  set (P := fun c => negb (N.eqb c SLASH)). split.
  - intros ((e & Q & He) & NE). destruct e as [p t]. cbn [fst] in Q. change (fst (span P p) = i) in Q. destruct (span P p) as [a r] eqn:S1. cbn [fst] in Q. subst i.
    pose proof (span_app _ _ _ _ S1) as EQ. pose proof (span_forall _ _ _ _ S1) as FA. pose proof (span_head _ _ _ _ S1) as HN.
    split; [intros ->; discriminate NE|]. split.
    + intros X. rewrite Forall_forall in FA. specialize (FA _ X). unfold P in FA. cbn in FA. discriminate FA.
    + apply In_lookup in He as [c' L]. unfold path_exists, is_file. destruct r as [|x r].
      * rewrite app_nil_r in EQ. subst a. now rewrite L.
      * assert (x = SLASH) as ->.
        { cbn [head_not] in HN. unfold P in HN. destruct (N.eqb_spec x SLASH) as [->|_]; [reflexivity|discriminate HN]. }
        apply orb_true_iff. right. apply is_dir_iff. exists p, c'. split; [exact L|]. apply below_iff. eauto.
  - intros (NE & NS & X). split; [|destruct i; [easy|reflexivity]].
    assert (FA : Forall (fun c => P c = true) i).
    { apply Forall_forall. intros x Hx. unfold P. destruct (N.eqb_spec x SLASH) as [->|_]; [contradiction|reflexivity]. }
    unfold path_exists in X. apply orb_true_iff in X as [X|X].
    + unfold is_file in X. destruct (lookup i f) as [t|] eqn:L; [|discriminate]. apply lookup_In in L. exists (i, t). split; [|exact L]. cbn [fst].
      pose proof (span_unique P i [] FA I) as Y. rewrite app_nil_r in Y. change (fst (span P i) = i). now rewrite Y.
    + apply is_dir_iff in X as (p & t & L & B). apply below_iff in B as [r ->]. apply lookup_In in L. exists (i ++ SLASH :: r, t). split; [|exact L]. cbn [fst].
      change (fst (span P (i ++ SLASH :: r)) = i). rewrite (span_unique P i (SLASH :: r)); [reflexivity|exact FA|]. cbn [head_not]. reflexivity.
Qed.

Lemma write_agree p t f g : agree f g -> agree (write_file p t f) (write_file p t g).
Proof. intros A q N. rewrite !lookup_write. destruct (str_eqb p q); [reflexivity|now apply A]. Qed.
Lemma measure_agree p t f : cov_file p -> agree f (write_file p t f).
Proof. intros C q N. rewrite lookup_write. destruct (str_eqb_spec p q) as [<-|_]; [contradiction|reflexivity]. Qed.
Lemma demo_library f : (exists g, demo_measure f = Ret tt g /\ agree f g) /\ (exists g, demo_xml f = Ret tt g /\ agree f g).
Proof.
  split; (eexists; split; [reflexivity|]); apply measure_agree; [left; right; split; [reflexivity|]|now right].
  cbn. intuition discriminate.
Qed.
Lemma demo_run_blind f g : agree f g -> same_end (demo_run f) (demo_run g).
Proof.
  intros A. unfold demo_run. assert (N : ~ cov_file (lit "books/t.md")) by (intros [[X|[X _]]|X]; vm_compute in X; discriminate X). rewrite <- (A _ N).
  destruct (lookup (lit "books/t.md") f); cbn [same_end]; [|exact A]. split; [reflexivity|]. now apply write_agree.
Qed.

(** a directory with a name that starts with ".coverage.": no test runs *)
Theorem C139_coverage_refuted : exists listdir cov_start cov_end cov_report run f,
  (forall f, lists f (listdir f)) /\
  (forall f, exists g, cov_start f = Ret tt g /\ agree f g) /\ (forall f, exists g, cov_end f = Ret tt g /\ agree f g) /\
  (forall f, exists g, cov_report f = Ret tt g /\ agree f g) /\ (forall f g, agree f g -> same_end (run f) (run g)) /\
  (exists g, run_covered listdir cov_start cov_end cov_report run false f = Ret 0%Z g) /\
  run_covered listdir cov_start cov_end cov_report run true f = Raise f.
Proof.
  exists firsts, demo_measure, demo_xml, demo_xml, demo_run, [(lit ".coverage.old/x", lit "data"); (lit "books/t.md", lit "text")].
  split; [exact firsts_list|]. split; [intros f; apply demo_library|]. split; [intros f; apply demo_library|]. split; [intros f; apply demo_library|].
  split; [exact demo_run_blind|]. split; [eexists; vm_compute; reflexivity|vm_compute; reflexivity].
Qed.
Print Assumptions C139_coverage_refuted.

(** old data is removed, other files with similar names are not *)
Example C139_ex :
  let f := [(lit ".coverage", lit "1"); (lit ".coverage.host.1", lit "2"); (lit ".coveragerc", lit "3"); (lit "books/t.md", lit "text"); (lit "books/.coverage.x", lit "4")] in
  (forall i, old_data i -> is_dir i f = false) /\
  run_covered firsts demo_measure demo_xml demo_xml demo_run true f =
    Ret 0%Z [(lit "coverage.xml", lit "<xml>"); (lit "books/.out/t.md", lit "new"); (lit ".coverage.host.7", lit "data");
             (lit ".coveragerc", lit "3"); (lit "books/t.md", lit "text"); (lit "books/.coverage.x", lit "4")].
Proof.
  intros f. split; [|vm_compute; reflexivity]. intros i Hi. destruct (is_dir i f) eqn:D; [|reflexivity]. exfalso. unfold is_dir, f in D. cbn [existsb fst] in D.
  assert (NB : forall p, ~ In SLASH p -> below i p = false).
  { intros p N. destruct (below i p) eqn:B; [|reflexivity]. apply below_iff in B as [r ->]. elim N. apply in_or_app. right. now left. }
  rewrite (NB (lit ".coverage")), (NB (lit ".coverage.host.1")), (NB (lit ".coveragerc")) in D by (cbn; intuition discriminate). cbn [orb] in D.
  assert (I : starts_with (lit ".") i = true) by (destruct Hi as [->|[X _]]; [reflexivity|]; apply starts_with_iff in X as [r ->]; reflexivity).
  apply starts_with_iff in I as [r ->]. discriminate D.
Qed.
