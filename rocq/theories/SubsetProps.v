(** C148: what a test does does not depend on which other tests are selected with it. *)
From Verif Require Import PyStrFacts CaseRunProps RunCaseProps ReportsProofs RunnerProofs ParProps OrderProps PartsProps.

Lemma todo_filter {D} (old : list (case_rec D)) k keep s :
  snd (cases_to_done_and_todo old k (filter keep s)) = filter keep (snd (cases_to_done_and_todo old k s)).
Proof.
  induction s as [|i s IH]; [now destruct k|]. change (i :: s) with ([i] ++ s). rewrite filter_app, !todo_app, filter_app, IH. f_equal. cbn [filter]. destruct (keep i) eqn:K.
  - unfold cases_to_done_and_todo. destruct k; [|cbn [snd filter]; now rewrite K]. cbn [done_and_todo]. destruct (by_name i old) as [|r q]; [cbn [snd filter]; now rewrite K|].
    destruct (is_ok (rec_result r)); cbn [snd filter]; [reflexivity|now rewrite K].
  - unfold cases_to_done_and_todo. destruct k; [|cbn [snd filter]; now rewrite K]. cbn [done_and_todo]. destruct (by_name i old) as [|r q]; [cbn [snd filter]; now rewrite K|].
    destruct (is_ok (rec_result r)); cbn [snd filter]; [reflexivity|now rewrite K].
Qed.
Lemma kept_filter {D} (old : list (case_rec D)) keep t :
  filter (fun r => keep (rec_name r)) (kept old (filter keep t)) = filter (fun r => keep (rec_name r)) (kept old t).
Proof.
  unfold kept. induction old as [|r old IH]; [reflexivity|]. cbn [filter]. destruct (keep (rec_name r)) eqn:K.
  - assert (X : str_mem (rec_name r) (filter keep t) = str_mem (rec_name r) t).
    { apply Bool.eq_iff_eq_true. rewrite !str_mem_In, filter_In. tauto. }
    rewrite X. destruct (str_mem (rec_name r) t); cbn [negb filter]; [exact IH|]. rewrite K. now f_equal.
  - destruct (str_mem _ (filter keep t)), (str_mem _ t); cbn [negb filter]; rewrite ?K; exact IH.
Qed.
Lemma fold_ok l : forall rv, fold_left add_result l rv = OK <-> rv = OK /\ Forall (fun r => r = OK) l.
Proof.
  induction l as [|x l IH]; intros rv; cbn [fold_left]; [split; [intros ->; auto|tauto]|]. rewrite IH. split.
  - intros [A B]. destruct x, rv; try discriminate A; auto.
  - intros [-> B]. inversion B; subst. auto.
Qed.

Section Sub.
Variable cc : CharClass.
Variable refloat : str -> option str.
Variables (E o : str).
Hypothesis HE : plain_dir E.
Hypothesis Ho : plain o.
Hypothesis Hdot : starts_with [DOT] o = true.
Notation O := (E ++ SLASH :: o).
Variable c : config.
Hypothesis HB : batch c.
Hypothesis HF : fail_fast c = false.
Variable body : str -> fs -> body_run.
Variable names : list str.
Variable deps : str -> list str.
Hypothesis Hnames : separate names.
Variable keep : str -> bool.
Hypothesis Hdeps : forall n, In n names -> keep n = true -> forall d, In d (deps n) -> In d names /\ keep d = true.
Hypothesis Hbody : forall n, In n names -> reads_deps E O deps n (body n).
Context {D : Type} (show_dur : D -> str) (parse_dur : str -> option D) (sp : char -> bool).

(** the files of the tests that are kept *)
Definition theirs (p : str) : Prop := exists n, In n names /\ keep n = true /\ own E o n p.
Lemma theirs_own n p : In n names -> keep n = true -> own E o n p -> theirs p.
Proof. intros; exists n; auto. Qed.
Lemma case_theirs n : In n names -> keep n = true -> local theirs theirs (case_proc cc refloat E O c body n).
Proof.
  intros Hn K. change (case_proc cc refloat E O c body n) with (case_proc cc refloat E O (job_config c) body n).
  apply (case_local cc refloat E o HE Ho c body names deps Hnames Hbody); [exact Hn| |].
  - intros p OW. split; now apply (theirs_own n).
  - intros d Hd. destruct (Hdeps n Hn K d Hd) as [A B]. apply (theirs_own d); [exact A|exact B|apply bin_own].
Qed.
Lemma report_theirs t f : agree theirs (write_file (O ++ SLASH :: lit "cases.txt") t f) f.
Proof.
  intros q (n & Hn & _ & OW). rewrite lookup_write. destruct (str_eqb_spec (O ++ SLASH :: lit "cases.txt") q) as [<-|_]; [|reflexivity].
  exfalso. revert OW. apply (special_not_own refloat E o Hdot); [now apply (a_name names Hnames)|now left].
Qed.
Lemma ready_theirs n f g : In n names -> keep n = true -> agree theirs f g -> ready E O n f -> ready E O n g.
Proof. intros Hn K A. apply (ready_local E o n f g). intros p OW. apply A. now apply (theirs_own n). Qed.

Lemma case_sub n a f g b r q rest h : In n names -> keep n = true -> agree theirs f g -> ready E O n g ->
  run_case cc refloat E O c body n a f = Some (Ret (r, q, rest) h) ->
  exists h', run_case cc refloat E O c body n b g = Some (Ret (r, NONE, b) h') /\ agree theirs h h'.
Proof.
  intros Hn K A RG R1. apply (solo_case cc refloat E O c body n a f r q rest h HB) in R1.
  destruct (local_solo _ _ _ (case_theirs n Hn K)) as [_ S]. destruct (S f g A) as [S1 S2]. rewrite R1 in S1, S2. cbn [fst snd] in S1, S2.
  destruct (run_case_exact E o HE Ho Hdot cc refloat c body HB n b g (a_name names Hnames n Hn) RG) as (g1 & ST & X).
  destruct (run_body _ _ _ _ _) as [s|] eqn:RB in X.
  - cbv zeta in X. destruct X as (h' & RC & _). pose proof RC as RC'. apply (solo_case cc refloat E O c body n b g _ _ _ h' HB) in RC'. rewrite RC' in S1, S2. cbn [fst snd] in S1, S2.
    exists h'. rewrite RC. injection S1 as ->. split; [reflexivity|exact S2].
  - exfalso. unfold case_proc in S1. rewrite solo_bind, solo_start, ST in S1. cbn [solo_io] in S1. rewrite solo_bind, solo_reading, RB in S1. discriminate S1.
Qed.

Lemma todo_sub durA durB todo : incl todo names -> NoDup todo -> forall rvA failsA recsA aA f rvA' recsA' restA f' rvB failsB recsB aB g,
  (forall n, In n todo -> ready E O n f) -> agree theirs f g ->
  run_todo cc refloat E O O c body show_dur durA todo rvA failsA recsA aA f = Some (Ret (rvA', recsA', restA) f') ->
  exists (res : list (str * result)) g', map fst res = todo /\
    recsA' = recsA ++ map (fun x => (fst x, snd x, durA (fst x))) res /\ rvA' = fold_left add_result (map snd res) rvA /\ agree theirs f' g' /\
    let res' := filter (fun x => keep (fst x)) res in
    run_todo cc refloat E O O c body show_dur durB (filter keep todo) rvB failsB recsB aB g
      = Some (Ret (fold_left add_result (map snd res') rvB, recsB ++ map (fun x => (fst x, snd x, durB (fst x))) res', aB) g').
Proof.
  induction todo as [|n todo IH]; intros IN ND rvA failsA recsA aA f rvA' recsA' restA f' rvB failsB recsB aB g RD A HA; cbn [run_todo] in HA.
  - injection HA as <- <- <- <-. exists [], g. cbn [map filter run_todo fold_left]. rewrite !app_nil_r. auto 10.
  - assert (Hn : In n names) by (apply IN; now left). inversion ND as [|? ? NI ND']; subst. pose proof (RD n (or_introl eq_refl)) as R1.
    destruct (run_case _ _ _ _ _ _ n aA f) as [[[[r1 q1] a1] h1|h1]|] eqn:C1; [|discriminate|discriminate]. cbn [run_bind] in HA.
    destruct (after_case cc refloat E o HE Ho Hdot c HB body names Hnames n aA f r1 q1 a1 h1 Hn R1 C1) as (-> & -> & OT).
    rewrite HF in HA. cbn [is_abort orb andb] in HA. rewrite (RF E o HE Ho) in HA.
    assert (RDn : forall t m, In m todo -> ready E O m (write_file (O ++ SLASH :: lit "cases.txt") t h1)).
    { intros t. apply (ready_next refloat E o Hdot names Hnames n todo f h1); assumption. }
    assert (IN' : incl todo names) by (intros m Hm; apply IN; now right). cbn [filter]. destruct (keep n) eqn:K.
    + destruct (case_sub n aA f g aB r1 NONE aA h1 Hn K A (ready_theirs n f g Hn K A R1) C1) as (h2 & C2 & A1).
      assert (AW : forall t u, agree theirs (write_file (O ++ SLASH :: lit "cases.txt") t h1) (write_file (O ++ SLASH :: lit "cases.txt") u h2)).
      { intros t u. eapply agree_trans; [apply report_theirs|]. eapply agree_trans; [exact A1|]. apply agree_sym, report_theirs. }
      destruct (IH IN' ND' _ _ _ _ _ _ _ _ _ (add_result rvB r1) (failsB || negb (is_ok r1)) (recsB ++ [(n, r1, durB n)]) aB _ (RDn _)
        (AW _ (report_text show_dur (recsB ++ [(n, r1, durB n)]))) HA) as (res & g' & E1 & E2 & E3 & E4 & E5).
      exists ((n, r1) :: res), g'. cbn [map fst snd fold_left filter]. rewrite K. split; [now rewrite E1|]. split; [rewrite E2, <- app_assoc; reflexivity|]. split; [exact E3|]. split; [exact E4|].
      cbn [map fst snd fold_left run_todo]. rewrite C2. cbn [run_bind]. rewrite HF. cbn [is_abort orb andb]. rewrite (RF E o HE Ho). cbv zeta in E5. rewrite E5, <- app_assoc. reflexivity.
    + assert (AW : forall t, agree theirs (write_file (O ++ SLASH :: lit "cases.txt") t h1) g).
      { intros t. eapply agree_trans; [apply report_theirs|]. eapply agree_trans; [|exact A]. intros p (m & Hm & Km & OW). apply (OT m); auto. intros ->. congruence. }
      destruct (IH IN' ND' _ _ _ _ _ _ _ _ _ rvB failsB recsB aB _ (RDn _) (AW _) HA) as (res & g' & E1 & E2 & E3 & E4 & E5).
      exists ((n, r1) :: res), g'. cbn [map fst snd fold_left filter]. rewrite K. split; [now rewrite E1|]. split; [rewrite E2, <- app_assoc; reflexivity|]. split; [exact E3|]. split; [exact E4|exact E5].
Qed.
End Sub.

Theorem C148_other_tests_do_not_matter :
  forall cc refloat E o c body (D : Type) (show_dur : D -> str) parse_dur sp dur dur1 all_names all_names1 metrics metrics1 names deps keep
    selected answers answers1 f rv recs rest g,
  plain_dir E -> plain o -> starts_with [DOT] o = true -> let O := E ++ SLASH :: o in
  batch c -> fail_fast c = false -> separate names ->
  (forall n, In n names -> reads_deps E O deps n (body n)) ->
  (forall n, In n names -> keep n = true -> forall d, In d (deps n) -> In d names /\ keep d = true) ->
  NoDup selected -> incl selected names -> (forall n, In n selected -> ready E O n f) ->
  run_async cc refloat E O O c body show_dur parse_dur sp dur all_names metrics selected answers f = Some (Ret (rv, recs, rest) g) ->
  exists rv1 recs1 g1,
    run_async cc refloat E O O c body show_dur parse_dur sp dur1 all_names1 metrics1 (filter keep selected) answers1 f = Some (Ret (rv1, recs1, answers1) g1) /\
    map (fun r => (rec_name r, rec_result r)) (filter (fun r => keep (rec_name r)) recs1)
      = map (fun r => (rec_name r, rec_result r)) (filter (fun r => keep (rec_name r)) recs) /\
    (rv = OK -> rv1 = OK) /\
    forall n p, In n names -> keep n = true -> area E n p \/ area O n p -> lookup p g1 = lookup p g.
Proof.
  intros cc refloat E o c body D show_dur parse_dur sp dur dur1 all_names all_names1 metrics metrics1 names deps keep
    selected answers answers1 f rv recs rest g HE Ho Hdot O HB HF SEP Hb Hd ND IN RD H.
  apply (run_inv cc refloat E o HE Ho) in H. cbv zeta in H. fold O in H. set (old := of_file parse_dur sp (lookup (O ++ SLASH :: lit "cases.txt") f)) in *.
  set (todo := snd (cases_to_done_and_todo old (cont c) selected)) in *. destruct H as (f2 & RT & EG).
  assert (IT : incl todo selected) by apply todo_incl. assert (IN' : incl todo names) by (intros n Hn; now apply IN, IT).
  assert (RDw : forall t n, In n todo -> ready E O n (write_file (O ++ SLASH :: lit "cases.txt") t f)).
  { intros t n Hn. apply (ready_free refloat E o Hdot names SEP n f); [now apply IN'|apply agree_sym, write_free, not_free; now left|now apply RD, IT]. }
  assert (T : snd (cases_to_done_and_todo old (cont c) (filter keep selected)) = filter keep todo) by apply todo_filter.
  assert (AF : forall t u, agree (theirs E o names keep) (write_file (O ++ SLASH :: lit "cases.txt") t f) (write_file (O ++ SLASH :: lit "cases.txt") u f)).
  { intros t u. eapply agree_trans; [apply (report_theirs refloat E o Hdot names SEP)|apply agree_sym, (report_theirs refloat E o Hdot names SEP)]. }
  destruct (todo_sub cc refloat E o HE Ho Hdot c HB HF body names deps SEP keep Hd Hb show_dur dur dur1 todo IN' ltac:(now apply todo_NoDup) _ _ _ _ _ _ _ _ _
    OK false (kept old (filter keep todo)) answers1 _ (RDw _) (AF _ (report_text show_dur (kept old (filter keep todo)))) RT) as (res & g' & E1 & E2 & E3 & E4 & E5).
  cbv zeta in E5. set (res' := filter _ res) in E5.
  destruct (run_intro cc refloat E o HE Ho c body show_dur parse_dur sp dur1 all_names1 metrics1 (filter keep selected) answers1 f
    (fold_left add_result (map snd res') OK, kept old (filter keep todo) ++ map (fun x => (fst x, snd x, dur1 (fst x))) res', answers1) g') as (g1 & R1).
  { fold O. fold old. rewrite T. exact E5. }
  fold O in R1. exists (fold_left add_result (map snd res') OK), (kept old (filter keep todo) ++ map (fun x => (fst x, snd x, dur1 (fst x))) res'), g1. split; [exact R1|]. split; [|split].
  - rewrite E2, !filter_app, !map_app, kept_filter. f_equal. unfold res'. clear. induction res as [|[n r] res IH]; [reflexivity|]. unfold rec_name, rec_result in *. cbn [map filter fst snd] in *.
    destruct (keep n) eqn:K; cbn [map filter fst snd]; rewrite ?K; cbn [map fst snd]; [now rewrite IH|exact IH].
  - rewrite E3, !fold_ok. intros [_ F]. split; [reflexivity|]. rewrite Forall_forall in *. intros x Hx. apply in_map_iff in Hx as (y & <- & Hy). apply F. apply in_map. unfold res' in Hy. now apply filter_In in Hy as [Hy _].
  - intros n p Hn K OW. apply (run_inv cc refloat E o HE Ho) in R1. cbv zeta in R1. fold O in R1. fold old in R1. rewrite T in R1. destruct R1 as (f1 & RT1 & EG1). fold O in E5. rewrite E5 in RT1. injection RT1 as <-.
    assert (NS := own_free refloat E o Hdot names SEP n p Hn OW). unfold free in NS. fold O in NS. rewrite EG, EG1, !lookup_write.
    destruct (str_eqb_spec (E ++ SLASH :: lit "index.md") p) as [<-|_]; [destruct NS; right; right; now left|].
    destruct (str_eqb_spec (O ++ SLASH :: lit "metrics.json") p) as [<-|_]; [destruct NS; right; now left|].
    symmetry. apply E4. exists n. auto.
Qed.
Print Assumptions C148_other_tests_do_not_matter.

(** The test t/a alone, and together with t/b, which reads its value; t/b cannot be kept without t/a. *)
Example C148_example : forall acc : bool, exists rv recs rest g rv1 recs1 rest1 g1,
  demo_part acc demo_two demo_f0 = Some (Ret (rv, recs, rest) g) /\ demo_part acc [lit "t/a"] demo_f0 = Some (Ret (rv1, recs1, rest1) g1) /\
  rv = (if acc then OK else DIFF) /\ recs1 = [(lit "t/a", rv1, tt)] /\ lookup (lit "books/t/a.md") g1 = lookup (lit "books/t/a.md") g /\
  (lookup (lit "books/t/b.md") g1 = lookup (lit "books/t/b.md") g -> acc = false).
Proof.
  intros acc. destruct (demo_part acc demo_two demo_f0) as [[[[rv recs] rest] g|g]|] eqn:R; [|destruct acc; vm_compute in R; discriminate|destruct acc; vm_compute in R; discriminate].
  destruct (demo_part acc [lit "t/a"] demo_f0) as [[[[rv1 recs1] rest1] g1|g1]|] eqn:R1; [|destruct acc; vm_compute in R1; discriminate|destruct acc; vm_compute in R1; discriminate].
  exists rv, recs, rest, g, rv1, recs1, rest1, g1. split; [reflexivity|]. split; [reflexivity|].
  split; [clear R1; destruct acc; vm_compute in R; injection R as <- _ _ _; reflexivity|].
  split; [clear R; destruct acc; vm_compute in R1; injection R1 as <- <- _ _; reflexivity|].
  split.
  - pose proof R as R'. rewrite demo_part_eq in R'.
    destruct (C148_other_tests_do_not_matter ascii_class no_float demo_E demo_o (demo_conf acc) demo_using unit (fun _ => lit "7") (fun _ => Some tt) (fun c => N.eqb c SP)
      (fun _ => tt) (fun _ => tt) demo_two demo_two (lit "{}") (lit "{}") demo_two demo_deps (str_eqb (lit "t/a")) demo_two [] [] demo_f0 rv recs rest g
      (proj1 demo_dirs) (proj1 (proj2 demo_dirs)) eq_refl (demo_conf_batch acc) eq_refl demo_separate ltac:(intros n Hn; apply (demo_tests n Hn))
      ltac:(intros n Hn K d Hd; destruct (str_eqb_spec (lit "t/a") n) as [<-|_]; [destruct Hd|discriminate K]) demo_NoDup (incl_refl _) demo_ready R') as (rv2 & recs2 & g2 & R2 & _ & _ & L).
    assert (FE : filter (str_eqb (lit "t/a")) demo_two = [lit "t/a"]) by (vm_compute; reflexivity). rewrite FE in R2. rewrite <- demo_part_eq in R2. rewrite R1 in R2.
    assert (g1 = g2) as -> by (injection R2; auto). apply (L (lit "t/a")); [now left|apply str_eqb_refl|]. apply case_file_own. left. vm_compute. auto 10.
  - clear -R R1. intros X. destruct acc; [|reflexivity]. exfalso. vm_compute in R, R1. injection R as _ _ _ <-. injection R1 as _ _ _ <-. vm_compute in X. discriminate X.
Qed.
