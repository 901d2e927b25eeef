(** C145: the order in which the selected tests run does not matter, as long as every test comes after those that it depends on. *)
From Verif Require Import PyStrFacts CaseRunProps RunCaseProps ReportsProofs RunnerProofs ParProps.
From Coq Require Import Permutation.

(** only the membership in the list of tests counts for the steps of workers *)
Lemma psteps_members {A} todo todo' deps (x y : (str -> proc A) * fs) : (forall n, In n todo <-> In n todo') -> psteps todo deps x y -> psteps todo' deps x y.
Proof.
  intros H S. induction S as [x|x y z S IH P]; [constructor|]. econstructor; [exact IH|]. destruct P as [st f n s Hn E D]. constructor; [now apply H|exact E|].
  intros d H1 H2. apply D; [exact H1|now apply H].
Qed.
Lemma kept_members {D} (old : list (case_rec D)) todo todo' : (forall n, In n todo <-> In n todo') -> kept old todo = kept old todo'.
Proof.
  intros H. unfold kept. apply filter_ext. intros r. f_equal. apply Bool.eq_iff_eq_true. rewrite !str_mem_In. apply H.
Qed.
Lemma todo_members {D} (old : list (case_rec D)) k s1 s2 : Permutation s1 s2 ->
  forall n, In n (snd (cases_to_done_and_todo old k s1)) <-> In n (snd (cases_to_done_and_todo old k s2)).
Proof.
  intros P n. assert (X : forall m, In m s1 <-> In m s2) by (intros m; split; apply Permutation_in; [exact P|now symmetry]).
  unfold cases_to_done_and_todo. destruct k; [|apply X]. rewrite !todo_iff, X. reflexivity.
Qed.
Lemma add_comm a b rv : add_result (add_result rv a) b = add_result (add_result rv b) a.
Proof. destruct a, b, rv; reflexivity. Qed.
Lemma fold_perm l l' : Permutation l l' -> forall rv, fold_left add_result l rv = fold_left add_result l' rv.
Proof.
  induction 1 as [|x l l' P IH|x y l|l l1 l2 P1 IH1 P2 IH2]; intros rv; cbn [fold_left]; auto.
  - now rewrite add_comm.
  - now rewrite IH1.
Qed.

Section Facts.
Variable cc : CharClass.
Variable refloat : str -> option str.
Variables (E o : str).
Hypothesis HE : plain_dir E.
Hypothesis Ho : plain o.
Hypothesis Hdot : starts_with [DOT] o = true.
Notation O := (E ++ SLASH :: o).
Variable c : config.
Hypothesis HB : batch c.
Hypothesis HF : fail_fast c = false.
Variable body : str -> fs -> body_run.
Variable names : list str.
Hypothesis Hnames : separate names.
Context {D : Type} (show_dur : D -> str) (dur : str -> D).

(** the result of a run is the worst of the results of its tests, and nothing but files of these tests and the report change *)
Lemma todo_facts todo : incl todo names -> NoDup todo -> forall rv fails recs answers f rv' recs' rest g, (forall n, In n todo -> ready E O n f) ->
  run_todo cc refloat E O O c body show_dur dur todo rv fails recs answers f = Some (Ret (rv', recs', rest) g) ->
  exists ran, recs' = recs ++ ran /\ map rec_name ran = todo /\ rv' = fold_left add_result (map rec_result ran) rv /\ rest = answers /\
    lookup (O ++ SLASH :: lit "cases.txt") g = match todo with [] => lookup (O ++ SLASH :: lit "cases.txt") f | _ => Some (report_text show_dur recs') end /\
    forall p, (forall n, In n todo -> ~ own E o n p) -> p <> O ++ SLASH :: lit "cases.txt" -> lookup p g = lookup p f.
Proof.
  assert (RF : report_file O = O ++ SLASH :: lit "cases.txt") by (apply path_join_name; [now apply HO|reflexivity]).
  induction todo as [|n todo IH]; intros IN ND rv fails recs answers f rv' recs' rest g RD H; cbn [run_todo] in H.
  - injection H as <- <- <- <-. exists []. rewrite app_nil_r. repeat split; auto.
  - assert (Hn : In n names) by (apply IN; now left). inversion ND as [|? ? NI ND']; subst.
    pose proof (a_name names Hnames n Hn) as CN.
    destruct (run_case_exact E o HE Ho Hdot cc refloat c body HB n answers f CN (RD n (or_introl eq_refl))) as (f1 & _ & K).
    destruct (run_body _ _ _ _ _) as [s|] in K; [|rewrite K in H; discriminate]. cbv zeta in K. destruct K as (h & RC & CR & RDn).
    set (v := verdict _ s) in *. set (res := if auto c v then OK else v) in *. rewrite RC in H. cbn [run_bind] in H. rewrite HF in H. cbn [is_abort orb andb] in H.
    rewrite RF in H. set (f2 := write_file (O ++ SLASH :: lit "cases.txt") _ h) in H.
    assert (F2 : forall p, ~ own E o n p -> p <> O ++ SLASH :: lit "cases.txt" -> lookup p f2 = lookup p f).
    { intros p NO NC. unfold f2. rewrite lookup_write. destruct (str_eqb_spec (O ++ SLASH :: lit "cases.txt") p) as [<-|_]; [easy|].
      apply (cr_rest _ _ _ _ _ _ _ _ _ CR); intros X; apply NO; [apply case_file_own; now left|now right]. }
    assert (RD2 : forall m, In m todo -> ready E O m f2).
    { intros m Hm. apply (ready_local E o m f); [|apply RD; now right]. intros p OW. symmetry. apply F2.
      - intros X. apply NI. replace n with m; [exact Hm|]. apply (own_disjoint E o Hdot names m n p); auto. apply IN. now right.
      - intros ->. revert OW. apply (special_not_own refloat E o Hdot); [apply (a_name names Hnames); apply IN; now right|now left]. }
    destruct (IH ltac:(intros m Hm; apply IN; now right) ND' _ _ _ _ _ _ _ _ _ RD2 H) as (ran & E1 & E2 & E3 & E4 & E5 & E6).
    exists ((n, res, dur n) :: ran). split; [rewrite E1, <- app_assoc; reflexivity|]. split; [cbn [map rec_name fst]; now rewrite E2|].
    split; [exact E3|]. split; [exact E4|]. split.
    + rewrite E5. destruct todo; [|reflexivity]. destruct ran; [|discriminate E2]. unfold f2. rewrite lookup_write, str_eqb_refl, E1, app_nil_r. reflexivity.
    + intros p NO NC. rewrite E6; [|intros m Hm; apply NO; now right|exact NC]. apply F2; [apply NO; now left|exact NC].
Qed.
End Facts.

Section Runs.
Variable cc : CharClass.
Variable refloat : str -> option str.
Variables (E o : str).
Hypothesis HE : plain_dir E.
Hypothesis Ho : plain o.
Hypothesis Hdot : starts_with [DOT] o = true.
Notation O := (E ++ SLASH :: o).
Variable c : config.
Hypothesis HB : batch c.
Hypothesis HF : fail_fast c = false.
Variable body : str -> fs -> body_run.
Variable names : list str.
Hypothesis Hnames : separate names.
Context {D : Type} (show_dur : D -> str) (parse_dur : str -> option D) (sp : char -> bool) (dur : str -> D).

Lemma run_facts all_names metrics selected answers f rv recs rest g : incl selected names -> NoDup selected -> (forall n, In n selected -> ready E O n f) ->
  run_async cc refloat E O O c body show_dur parse_dur sp dur all_names metrics selected answers f = Some (Ret (rv, recs, rest) g) ->
  let todo := par_todo O c parse_dur sp selected f in
  exists ran, recs = par_kept O c parse_dur sp selected f ++ ran /\ map rec_name ran = todo /\ rv = fold_left add_result (map rec_result ran) OK /\ rest = answers /\
    lookup (O ++ SLASH :: lit "cases.txt") g = Some (report_text show_dur recs) /\
    forall p, (forall n, In n todo -> ~ own E o n p) -> p <> O ++ SLASH :: lit "cases.txt" -> p <> O ++ SLASH :: lit "metrics.json" -> p <> E ++ SLASH :: lit "index.md" ->
      lookup p g = lookup p f.
Proof.
  intros IN ND RD H todo. unfold run_async in H. cbv zeta in H.
  assert (RF : report_file O = O ++ SLASH :: lit "cases.txt") by (apply path_join_name; [now apply HO|reflexivity]).
  assert (RF' : path_join O (lit "cases.txt") = O ++ SLASH :: lit "cases.txt") by exact RF.
  assert (ME : path_join O (lit "metrics.json") = O ++ SLASH :: lit "metrics.json") by now apply metrics_eq.
  assert (IE : path_join E (lit "index.md") = E ++ SLASH :: lit "index.md") by now apply index_eq.
  unfold par_kept, todo, par_todo in *. clear todo. rewrite RF' in *. rewrite RF in *. rewrite ME, IE in H.
  set (old := of_file parse_dur sp (lookup (O ++ SLASH :: lit "cases.txt") f)) in *. set (todo := snd (cases_to_done_and_todo old (cont c) selected)) in *.
  destruct (run_todo _ _ _ _ _ _ _ _ _ _ _ _ _ _ _) as [[[[rv0 recs0] rest0] f2|f2]|] eqn:RT in H; [|discriminate|discriminate]. cbn [run_bind] in H.
  assert (EQ : rv0 = rv /\ recs0 = recs /\ rest0 = rest) by (injection H; auto). destruct EQ as (-> & -> & ->).
  assert (EG : g = write_file (E ++ SLASH :: lit "index.md") (index_text all_names) (write_file (O ++ SLASH :: lit "metrics.json") metrics f2)) by (injection H; auto).
  clear H. assert (IS : incl todo selected) by apply todo_incl.
  set (f1 := write_file (O ++ SLASH :: lit "cases.txt") _ f) in RT.
  assert (RD1 : forall n, In n todo -> ready E O n f1).
  { intros n Hn. apply (ready_local E o n f); [|apply RD; now apply IS]. intros p OW. unfold f1. rewrite lookup_write.
    destruct (str_eqb_spec (O ++ SLASH :: lit "cases.txt") p) as [<-|_]; [|reflexivity]. exfalso. revert OW.
    apply (special_not_own refloat E o Hdot); [apply (a_name names Hnames); apply IN; now apply IS|now left]. }
  destruct (todo_facts cc refloat E o HE Ho Hdot c HB HF body names Hnames show_dur dur todo ltac:(intros n Hn; apply IN; now apply IS) ltac:(now apply todo_NoDup)
    _ _ _ _ _ _ _ _ _ RD1 RT) as (ran & E1 & E2 & E3 & E4 & E5 & E6).
  exists ran. split; [exact E1|]. split; [exact E2|]. split; [exact E3|]. split; [exact E4|]. split.
  - rewrite EG, lookup_write. destruct (str_eqb_spec (E ++ SLASH :: lit "index.md") (O ++ SLASH :: lit "cases.txt")) as [X|_].
    + exfalso. revert X. apply (name_vs_out E o Hdot (lit "index") (lit ".md")); [discriminate|vm_compute; intuition discriminate].
    + rewrite lookup_write. destruct (str_eqb_spec (O ++ SLASH :: lit "metrics.json") (O ++ SLASH :: lit "cases.txt")) as [X|_]; [apply app_inv_head in X; discriminate X|].
      rewrite E5. destruct todo; [|reflexivity]. destruct ran; [|discriminate E2]. unfold f1. rewrite lookup_write, str_eqb_refl, E1, app_nil_r. reflexivity.
  - intros p NO NC NM NI. rewrite EG, !lookup_write.
    destruct (str_eqb_spec (E ++ SLASH :: lit "index.md") p) as [<-|_]; [easy|]. destruct (str_eqb_spec (O ++ SLASH :: lit "metrics.json") p) as [<-|_]; [easy|].
    rewrite E6 by assumption. unfold f1. rewrite lookup_write. destruct (str_eqb_spec (O ++ SLASH :: lit "cases.txt") p) as [<-|_]; [easy|reflexivity].
Qed.
End Runs.

Theorem C145_order_does_not_matter :
  forall cc refloat E o c body (D : Type) (show_dur : D -> str) parse_dur sp dur1 dur2 all_names metrics1 metrics2 names deps
    s1 s2 answers1 answers2 f rv1 recs1 rest1 g1 rv2 recs2 rest2 g2,
  plain_dir E -> plain o -> starts_with [DOT] o = true -> let O := E ++ SLASH :: o in
  batch c -> update c = false -> fail_fast c = false -> durations_ok show_dur parse_dur -> space_ok sp ->
  separate names -> ~ In (lit "output") names ->
  (forall n, In n names -> field_ok n /\ incl (deps n) names /\ reads_deps E O deps n (body n)) ->
  NoDup s1 -> incl s1 names -> Permutation s1 s2 -> deps_first deps s1 -> deps_first deps s2 -> (forall n, In n s1 -> ready E O n f) ->
  run_async cc refloat E O O c body show_dur parse_dur sp dur1 all_names metrics1 s1 answers1 f = Some (Ret (rv1, recs1, rest1) g1) ->
  run_async cc refloat E O O c body show_dur parse_dur sp dur2 all_names metrics2 s2 answers2 f = Some (Ret (rv2, recs2, rest2) g2) ->
  rv1 = rv2 /\ Permutation (map (fun r => (rec_name r, rec_result r)) recs1) (map (fun r => (rec_name r, rec_result r)) recs2) /\
  lookup (O ++ SLASH :: lit "cases.txt") g1 = Some (report_text show_dur recs1) /\ lookup (O ++ SLASH :: lit "cases.txt") g2 = Some (report_text show_dur recs2) /\
  forall p, p <> O ++ SLASH :: lit "cases.txt" -> p <> O ++ SLASH :: lit "metrics.json" -> lookup p g1 = lookup p g2.
Proof.
  intros cc refloat E o c body D show_dur parse_dur sp dur1 dur2 all_names metrics1 metrics2 names deps
    s1 s2 answers1 answers2 f rv1 recs1 rest1 g1 rv2 recs2 rest2 g2 HE Ho Hdot O HB HU HF DUR SPC SEP NOUT HN ND1 IN1 PM ORD1 ORD2 RD1 H1 H2.
  assert (ND2 : NoDup s2) by (apply (Permutation_NoDup PM ND1)).
  assert (IN2 : incl s2 names) by (intros n Hn; apply IN1; apply (Permutation_in n (Permutation_sym PM)); exact Hn).
  assert (RD2 : forall n, In n s2 -> ready E O n f) by (intros n Hn; apply RD1; apply (Permutation_in n (Permutation_sym PM)); exact Hn).
  assert (Hfield : forall n, In n names -> field_ok n) by (intros n Hn; apply HN; exact Hn).
  set (W := worker cc refloat E O c body show_dur parse_dur sp dur1 all_names (fun n => n) (fun n => n)).
  set (t1 := par_todo O c parse_dur sp s1 f). set (t2 := par_todo O c parse_dur sp s2 f).
  assert (MEM : forall n, In n t1 <-> In n t2) by (unfold t1, t2, par_todo; now apply todo_members).
  assert (KE : par_kept O c parse_dur sp s1 f = par_kept O c parse_dur sp s2 f) by (unfold par_kept; now apply kept_members).
  assert (PE : par_prepare O c show_dur parse_dur sp s1 f = par_prepare O c show_dur parse_dur sp s2 f) by (unfold par_prepare; now rewrite KE).
  destruct (C82_parallel_run_ends result D (of_file parse_dur sp (lookup (path_join O (lit "cases.txt")) f)) (cont c) deps s1 ND1 ORD1 W (par_prepare O c show_dur parse_dur sp s1 f))
    as (_ & st & gp & PS & AL). fold (par_todo O c parse_dur sp s1 f) in PS, AL. fold t1 in PS, AL.
  destruct (parallel_core cc refloat E o c body D show_dur parse_dur sp dur1 dur1 all_names (fun n => n) (fun n => n) metrics1 names deps
    s1 answers1 f rv1 recs1 rest1 g1 HE Ho Hdot HB HU HF SEP NOUT HN ND1 IN1 ORD1 RD1 H1 st gp PS AL) as (r1 & TI1 & TN1 & RS1 & ER1 & _ & SAME1 & EI1).
  assert (PS2 : psteps t2 deps (W, par_prepare O c show_dur parse_dur sp s2 f) (st, gp)) by (rewrite <- PE; now apply (psteps_members t1)).
  assert (AL2 : forall n, In n t2 -> ended (st n)) by (intros n Hn; apply AL; now apply MEM).
  destruct (parallel_core cc refloat E o c body D show_dur parse_dur sp dur2 dur1 all_names (fun n => n) (fun n => n) metrics2 names deps
    s2 answers2 f rv2 recs2 rest2 g2 HE Ho Hdot HB HU HF SEP NOUT HN ND2 IN2 ORD2 RD2 H2 st gp PS2 AL2) as (r2 & TI2 & TN2 & RS2 & ER2 & _ & SAME2 & EI2).
  fold O t1 in TI1, TN1, RS1, ER1. fold O t2 in TI2, TN2, RS2, ER2.
  assert (SR : forall n, In n t1 -> r1 n = r2 n).
  { intros n Hn. destruct (RS1 n Hn) as [_ L1]. destruct (RS2 n (proj1 (MEM n) Hn)) as [_ L2]. rewrite L1 in L2.
    assert (F : field_ok n) by (apply Hfield; now apply TI1).
    pose proof (of_file_roundtrip show_dur parse_dur sp DUR SPC [(n, r1 n, dur1 n)] ltac:(constructor; [exact F|constructor])) as A.
    pose proof (of_file_roundtrip show_dur parse_dur sp DUR SPC [(n, r2 n, dur1 n)] ltac:(constructor; [exact F|constructor])) as B.
    rewrite L2 in A. rewrite A in B. now injection B. }
  assert (TP : Permutation t1 t2) by (apply NoDup_Permutation; auto).
  destruct (run_facts cc refloat E o HE Ho Hdot c HB HF body names SEP show_dur parse_dur sp dur1 all_names metrics1 s1 answers1 f rv1 recs1 rest1 g1 IN1 ND1 RD1 H1)
    as (ran1 & A1 & _ & A3 & _ & A5 & A6).
  destruct (run_facts cc refloat E o HE Ho Hdot c HB HF body names SEP show_dur parse_dur sp dur2 all_names metrics2 s2 answers2 f rv2 recs2 rest2 g2 IN2 ND2 RD2 H2)
    as (ran2 & B1 & _ & B3 & _ & B5 & B6).
  fold O in A1, A5, A6, B1, B5, B6. fold t1 in A6. fold t2 in B6.
  rewrite ER1 in A1. apply app_inv_head in A1. rewrite ER2 in B1. apply app_inv_head in B1.
  assert (RP : Permutation (map (fun n => (n, r1 n)) t1) (map (fun n => (n, r2 n)) t2)).
  { rewrite (map_ext_in (fun n => (n, r1 n)) (fun n => (n, r2 n)) t1) by (intros n Hn; now rewrite SR). now apply Permutation_map. }
  split; [|split; [|split; [exact A5|split; [exact B5|]]]].
  - rewrite A3, B3, <- A1, <- B1, !map_map. apply fold_perm. cbn [rec_result fst snd].
    pose proof (Permutation_map snd RP) as X. rewrite !map_map in X. exact X.
  - rewrite ER1, ER2, KE, !map_app. apply Permutation_app_head. rewrite !map_map. exact RP.
  - intros p NC NM. destruct (list_eq_dec N.eq_dec p (E ++ SLASH :: lit "index.md")) as [->|NI]; [now rewrite EI1, EI2|].
    destruct (some_own E o t1 p) as [(n & Hn & OW)|NO].
    + assert (NB : ~ booked E o p) by (apply (no_nb E o Hdot names SEP NOUT n); auto). now rewrite <- SAME1, <- SAME2.
    + rewrite A6 by assumption. rewrite B6; auto. intros n Hn. apply NO. now apply MEM.
Qed.
Print Assumptions C145_order_does_not_matter.

(** ** Examples *)
Notation demo_rev := [lit "t/b"; lit "t/a"].
Notation demo_free acc sel :=
  (run_async ascii_class no_float demo_E demo_O demo_O (demo_conf acc) (fun n (_ : fs) => demo_text n) (fun _ : unit => lit "7") (fun _ => Some tt) (fun c => N.eqb c SP) (fun _ => tt) demo_two (lit "{}") sel (@nil str) demo_f0).

(** The hypotheses are met by two tests that depend on nothing, with and without -a: the second test fails in both orders, and the reports list the tests in the order of the run. *)
Example C145_example : forall acc : bool, exists recs1 recs2 rest1 rest2 g1 g2,
  let res := if acc then OK else DIFF in
  demo_free acc demo_two = Some (Ret (res, recs1, rest1) g1) /\ demo_free acc demo_rev = Some (Ret (res, recs2, rest2) g2) /\
  recs1 = [(lit "t/a", OK, tt); (lit "t/b", res, tt)] /\ recs2 = [(lit "t/b", res, tt); (lit "t/a", OK, tt)] /\
  forall p, p <> demo_O ++ SLASH :: lit "cases.txt" -> p <> demo_O ++ SLASH :: lit "metrics.json" -> lookup p g1 = lookup p g2.
Proof.
  intros acc. destruct (demo_free acc demo_two) as [[[[rv1 recs1] rest1] g1|g1]|] eqn:R1; [|destruct acc; vm_compute in R1; discriminate|destruct acc; vm_compute in R1; discriminate].
  destruct (demo_free acc demo_rev) as [[[[rv2 recs2] rest2] g2|g2]|] eqn:R2; [|destruct acc; vm_compute in R2; discriminate|destruct acc; vm_compute in R2; discriminate].
  exists recs1, recs2, rest1, rest2, g1, g2. cbv zeta.
  assert (X1 : rv1 = (if acc then OK else DIFF) /\ recs1 = [(lit "t/a", OK, tt); (lit "t/b", if acc then OK else DIFF, tt)]) by (clear R2; destruct acc; vm_compute in R1; injection R1 as <- <- _ _; split; reflexivity).
  assert (X2 : rv2 = (if acc then OK else DIFF) /\ recs2 = [(lit "t/b", if acc then OK else DIFF, tt); (lit "t/a", OK, tt)]) by (clear R1; destruct acc; vm_compute in R2; injection R2 as <- <- _ _; split; reflexivity).
  destruct X1 as [-> X1], X2 as [-> X2]. split; [reflexivity|]. split; [reflexivity|]. split; [exact X1|]. split; [exact X2|].
  refine (proj2 (proj2 (proj2 (proj2 (C145_order_does_not_matter ascii_class no_float demo_E demo_o (demo_conf acc) (fun n (_ : fs) => demo_text n) unit (fun _ => lit "7") (fun _ => Some tt) (fun c => N.eqb c SP)
    (fun _ => tt) (fun _ => tt) demo_two (lit "{}") (lit "{}") demo_two (fun _ : str => @nil str) demo_two demo_rev [] [] demo_f0 _ recs1 rest1 g1 _ recs2 rest2 g2
    (proj1 demo_dirs) (proj1 (proj2 demo_dirs)) eq_refl (demo_conf_batch acc) eq_refl eq_refl demo_durations demo_space
    demo_separate demo_not_output _ demo_NoDup (incl_refl _) (perm_swap _ _ _) _ _ demo_ready R1 R2))))).
  - intros n Hn. split; [now apply demo_field|]. split; [intros m []|]. intros f g _ _. reflexivity.
  - intros a n b _ d [].
  - intros a n b _ d [].
Qed.

(** The order of the dependencies counts: a test that runs before the one whose value it writes does not get the value. *)
Example C145_needs_deps_first : exists recs1 recs2 rest1 rest2 g1 g2,
  demo_seq true = Some (Ret (OK, recs1, rest1) g1) /\
  run_async ascii_class no_float demo_E demo_O demo_O (demo_conf true) demo_using (fun _ : unit => lit "7") (fun _ => Some tt) (fun c => N.eqb c SP) (fun _ => tt) demo_two (lit "{}") demo_rev (@nil str) demo_f0
    = Some (Ret (OK, recs2, rest2) g2) /\
  lookup (lit "books/t/b.md") g1 = Some (lit "t/a" ++ [NL]) /\ lookup (lit "books/t/b.md") g2 = Some (lit "none" ++ [NL]).
Proof. do 6 eexists. split; [vm_compute; reflexivity|]. split; [vm_compute; reflexivity|]. split; vm_compute; reflexivity. Qed.
