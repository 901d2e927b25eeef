(** C125: booktest and booktest -p end with the same status. *)
From Verif Require Import CaseRunProps PyStrFacts FsFacts ReviewSpec ReviewProps FormatProofs FormatProps RunnerProofs SelectSpec SelectProofs SelectProps ReportsProofs ReportsProps
  RunCaseProofs RunCaseProps ConsoleProofs ConsoleProps CommandsSpec CommandsProofs CommandsProps MainModel MainProps ParSpec ParProofs ParProps ParConsoleProps ParMainModel ConfigProofs.
From Verif Require ConfigModel.
From Coq Require Import Lia ZArith Permutation String.

(** ** The scheduler's order *)
Section Order.
Variable o : objects.
Variable tests : list (str * meth).
Hypothesis ND : NoDup (map fst tests).

Lemma case_deps_incl cases n : incl (case_deps o tests cases n) (map fst tests).
Proof.
  unfold case_deps. destruct (get_case tests n) as [m|] eqn:G; [|intros d []]. intros d Hd. unfold method_dependencies in Hd. apply in_flat_map in Hd as (dep & _ & Hd).
  destruct (case_by_method tests (bind_dependent o m dep)) as [k|] eqn:C; [|destruct Hd]. rewrite orb_true_r in Hd. destruct Hd as [<-|[]]. exact (case_by_method_In _ _ _ C).
Qed.

Lemma case_deps_any cases n : case_deps o tests cases n = case_deps o tests [] n.
Proof.
  unfold case_deps. destruct (get_case tests n) as [m|]; [|reflexivity]. unfold method_dependencies. apply flat_map_ext. intros dep.
  destruct (case_by_method tests (bind_dependent o m dep)); [|reflexivity]. now rewrite !orb_true_r.
Qed.

(** the tests come after those that they depend on *)
Lemma chosen_in_order fuel sel cached cases todo : selected_names o tests fuel sel cached = Some cases -> deps_first (case_deps o tests todo) cases.
Proof.
  intros E. destruct (C28_run_list_any_fuel o tests fuel sel cached cases ND E) as (NC & BF & IN).
  intros a n b EQ d Hd Id. unfold case_deps in Hd. destruct (get_case tests n) as [m|] eqn:G; [|destruct Hd].
  assert (IM : In (n, m) tests).
  { clear - G. unfold get_case in G. induction tests as [|[k x] l IH]; [discriminate|]. cbn [get_case_in] in G. destruct (str_eqb_spec k n) as [->|_]; [injection G as ->; now left|right; auto]. }
  assert (N : needs o tests sel cached n d).
  { apply (mdeps_iff o tests todo (fun _ => false) ND n m d IM) in Hd as (m' & dep & H1 & H2 & H3 & _). exists m', dep. split; [exact H1|]. split; [exact H2|]. split; [exact H3|].
    apply IN in Id as (r & _ & SR & [->|NT]); [now left|]. clear - NT. induction NT as [r d (m & dep & _ & _ & _ & W)|r e d _ _ IH]; auto. }
  assert (In n cases) as Hn by (rewrite EQ; apply in_elt). destruct (BF n d Hn N) as (a' & b' & c' & EQ').
  assert (SP : forall (l1 l2 r1 r2 : list str), l1 ++ n :: r1 = l2 ++ n :: r2 -> NoDup (l1 ++ n :: r1) -> l1 = l2).
  { clear - n. induction l1 as [|x l1 IH]; intros [|y l2] r1 r2 E N; cbn [app] in *; [reflexivity| | |].
    - injection E as <- E. inversion N as [|? ? X _]; subst. elim X. apply in_elt.
    - injection E as -> E. inversion N as [|? ? X _]; subst. elim X. apply in_elt.
    - injection E as <- E. f_equal. inversion N; subst. eauto. }
  rewrite (SP a (a' ++ d :: b') b c'); [apply in_elt| |now rewrite <- EQ].
  rewrite <- EQ, EQ', <- app_assoc. reflexivity.
Qed.
End Order.

(** ** The configuration with -p *)
Definition with_p (v : ConfigModel.cval) (p : ConfigModel.flags) : ConfigModel.flags :=
  {| ConfigModel.f_i := ConfigModel.f_i p; ConfigModel.f_I := ConfigModel.f_I p; ConfigModel.f_v := ConfigModel.f_v p; ConfigModel.f_L := ConfigModel.f_L p; ConfigModel.f_f := ConfigModel.f_f p;
     ConfigModel.f_c := ConfigModel.f_c p; ConfigModel.f_r := ConfigModel.f_r p; ConfigModel.f_u := ConfigModel.f_u p; ConfigModel.f_a := ConfigModel.f_a p; ConfigModel.f_p := v;
     ConfigModel.f_s := ConfigModel.f_s p; ConfigModel.f_S := ConfigModel.f_S p; ConfigModel.f_cov := ConfigModel.f_cov p; ConfigModel.f_md_viewer := ConfigModel.f_md_viewer p;
     ConfigModel.f_diff_tool := ConfigModel.f_diff_tool p |}.

Definition but_p (c c' : ConfigModel.config) : Prop := forall k, k <> lit "parallel" -> ConfigModel.dget k c' = ConfigModel.dget k c.
Lemma but_p_put k v c c' : but_p c c' -> but_p (ConfigModel.dput k v c) (ConfigModel.dput k v c').
Proof. intros H m N. rewrite !dget_dput. destruct (str_eqb m k); [reflexivity|]. now apply H. Qed.
Lemma but_p_all l : forall c c', but_p c c' -> but_p (ConfigModel.put_all l c) (ConfigModel.put_all l c').
Proof. induction l as [|[k v] l IH]; intros c c' H; [exact H|]. unfold ConfigModel.put_all in *. cbn [fold_left fst snd]. apply IH. now apply but_p_put. Qed.
Lemma but_p_one v w c : but_p (ConfigModel.put_all (if ConfigModel.truthy v then [(lit "parallel", v)] else []) c) (ConfigModel.put_all (if ConfigModel.truthy w then [(lit "parallel", w)] else []) c).
Proof.
  intros k N. destruct (ConfigModel.truthy v), (ConfigModel.truthy w); unfold ConfigModel.put_all; cbn [fold_left fst snd]; rewrite ?dget_dput_other by exact N; reflexivity.
Qed.
Lemma put_app a b c : ConfigModel.put_all (a ++ b) c = ConfigModel.put_all b (ConfigModel.put_all a c).
Proof. unfold ConfigModel.put_all. apply fold_left_app. Qed.
Lemma with_p_but v p c : but_p (ConfigModel.put_all (ConfigModel.flag_settings p) c) (ConfigModel.put_all (ConfigModel.flag_settings (with_p v p)) c).
Proof.
  unfold ConfigModel.flag_settings, with_p. cbn [ConfigModel.f_i ConfigModel.f_I ConfigModel.f_v ConfigModel.f_L ConfigModel.f_f ConfigModel.f_c ConfigModel.f_r ConfigModel.f_u ConfigModel.f_a ConfigModel.f_p
    ConfigModel.f_s ConfigModel.f_S ConfigModel.f_cov ConfigModel.f_md_viewer ConfigModel.f_diff_tool]. rewrite !put_app.
  repeat apply but_p_all. apply but_p_one.
Qed.
Lemma but_p_on k c c' : but_p c c' -> k <> lit "parallel" -> on k c' = on k c.
Proof. intros H N. unfold on. now rewrite (H k N). Qed.
Lemma but_p_run c c' : but_p c c' -> run_config c' = run_config c.
Proof. intros H. unfold run_config. rewrite !(but_p_on _ c c' H) by discriminate. reflexivity. Qed.

Section Main.
Context {D : Type} (show_dur : D -> str) (parse_dur : str -> option D) (sp : char -> bool).
Variable show_ms : D -> str.
Variable show_nat : nat -> str.
Variable read_took : str -> option str.
Variable cc : CharClass.
Variable refloat : str -> option str.
Variable o : objects.
Variable fuel : nat.
Variable body : ConfigModel.config -> str -> fs -> body_run.
Variables durS durP : str -> D.
Variables printed metrics_of : str -> str.
Variables tookS tookP : str.
Variable shell : str -> fs -> str * Z.
Variable parallel_run : list (str * meth) -> str -> ConfigModel.config -> list str -> list str -> fs -> run (option Z * str).
Context {G : Type}.
Variable walk : str -> walked meth G.
Let booktest := main show_dur parse_dur sp show_ms show_nat read_took cc refloat o fuel body durS tookS shell parallel_run walk.

(** The same command line, the second time with -p, from the same files, under the hypotheses of C82. If the sequential command comes to
    an end without an exception, then a parallel command that ends has the same status, leaves the same files apart from booktest's own notes, and its report has the same results. *)
Theorem C125_same_status environ p v args answers answers' f c c' tests root status text g status' text' g' :
  works_with cc walk environ p f c tests root -> works_with cc walk environ (with_p v p) f c' tests root ->
  MainProps.accepted tests args -> project root tests -> ~ In (lit "output") (map fst tests) ->
  ConfigModel.is_parallel c = false -> ConfigModel.truthy v = true -> body c' = body c ->
  batch (run_config c) -> update (run_config c) = false -> fail_fast (run_config c) = false -> durations_ok show_dur parse_dur -> space_ok sp ->
  (forall n, In n (map fst tests) -> field_ok n /\ reads_deps root (root ++ SLASH :: lit ".out") (case_deps o tests []) n (body c n)) ->
  all_ready root (lit ".out") (map fst tests) f ->
  (forall cases todo w, chosen parse_dur sp o tests fuel root c' (given args) f = Some (Some (cases, todo)) -> parallel_run tests root c' cases answers' f = Some w ->
     parallel_call show_dur parse_dur sp show_ms show_nat cc refloat o body durP printed metrics_of tookP tests root c' cases f w) ->
  booktest environ p args CRun answers f = Some (status, text, g) -> status <> 1%Z ->
  booktest environ (with_p v p) args CRun answers' f = Some (status', text', g') ->
  status' = status /\ (forall q, ~ bookkeeping (root ++ SLASH :: lit ".out") q -> lookup q g' = lookup q g) /\
  exists recs recs', lookup (root ++ SLASH :: lit ".out/cases.txt") g = Some (report_text show_dur recs) /\
    lookup (root ++ SLASH :: lit ".out/cases.txt") g' = Some (report_text show_dur recs') /\
    Permutation (map (fun r => (rec_name r, rec_result r)) recs) (map (fun r => (rec_name r, rec_result r)) recs').
Proof.
  intros W W' A PR NOUT NP TV EB B HU HF DUR SPC HN AR PC R NS R'. destruct PR as (HR & HS & ND).
  assert (BP : but_p c c').
  { destruct W as (c0 & s & E1 & _ & _ & ->), W' as (c1 & s' & E1' & _ & _ & ->). rewrite E1 in E1'. injection E1' as <-. apply with_p_but. }
  assert (IP : ConfigModel.is_parallel c' = true).
  { destruct W' as (c1 & s' & _ & _ & _ & ->). unfold ConfigModel.is_parallel.
    unfold ConfigModel.flag_settings. cbv zeta. rewrite !put_app. cbn [with_p ConfigModel.f_p]. rewrite TV.
    do 5 (rewrite put_all_get by (repeat match goal with |- context [if ?b then _ else _] => destruct b | |- context [match ?b with [] => _ | _ => _ end] => destruct b end; cbn [map fst In]; intuition discriminate)).
    unfold ConfigModel.put_all at 1. cbn [fold_left fst snd]. now rewrite dget_dput_same. }
  pose proof (but_p_run c c' BP) as RC.
  unfold booktest in R, R'.
  rewrite (booktest_inv show_dur parse_dur sp show_ms show_nat read_took cc refloat o fuel body durS tookS shell parallel_run walk environ p args CRun answers f c tests root W A) in R.
  rewrite (booktest_inv show_dur parse_dur sp show_ms show_nat read_took cc refloat o fuel body durS tookS shell parallel_run walk environ (with_p v p) args CRun answers' f c' tests root W' A) in R'.
  unfold exec_parsed in R, R'.
  assert (CH : chosen parse_dur sp o tests fuel root c' (given args) f = chosen parse_dur sp o tests fuel root c (given args) f).
  { unfold chosen, stored, selection_of. rewrite RC, (but_p_on _ c c' BP) by discriminate. destruct (given args); [reflexivity|]. rewrite (BP (lit "default_tests")) by discriminate. reflexivity. }
  rewrite CH in R'.
  destruct (chosen parse_dur sp o tests fuel root c (given args) f) as [[[cases todo]|]|] eqn:EC; [|injection R as <- _ _; congruence|discriminate].
  rewrite NP, IP in *.
  destruct (chosen_some parse_dur sp o tests fuel root HR ND c (given args) f cases todo EC) as (sel & SEL & SN & TD & NC & IC & _).
  unfold run_bind in R. 
  destruct (run_async_out _ _ _ _ _ _ _ _ _ _ _ _ _ _ _ _ _ _ _) as [[[[[rv recs] rest] t1] h1|h1]|] eqn:RA in R; [|injection R as <- _ _; congruence|discriminate].
  injection R as <- <- <-.
  destruct (parallel_run tests root c' cases answers' f) as [w|] eqn:PW; [|discriminate].
  destruct (PC cases todo w CH PW) as (x & PX & ->). rewrite out_eq in RA, PX by exact HR. rewrite RC, EB in PX. unfold outputs in *.
  pose proof (erase_run show_dur parse_dur sp show_ms show_nat (shown_config show_nat c) cc refloat root (root ++ SLASH :: lit ".out") (root ++ SLASH :: lit ".out") (run_config c) (body c) durS (all_names tests) tookS cases answers f) as ER.
  rewrite RA in ER. cbn [run_map fst] in ER. symmetry in ER.
  pose proof (C102_files_as_modelled _ _ _ _ _ _ _ _ _ _ _ _ _ _ _ _ _ _ _ _ _ PX) as PF.
  set (deps := case_deps o tests (par_todo (root ++ SLASH :: lit ".out") (run_config c) parse_dur sp cases f)) in *.
  assert (HD : forall n, In n (map fst tests) -> field_ok n /\ incl (deps n) (map fst tests) /\ reads_deps root (root ++ SLASH :: lit ".out") deps n (body c n)).
  { intros n Hn. destruct (HN n Hn) as [F RD]. split; [exact F|]. split; [apply case_deps_incl|]. intros f1 g1 H1 H2. apply RD; [exact H1|]. intros d Hd. apply H2. unfold deps. now rewrite case_deps_any. }
  destruct (C82_parallel_like_sequential cc refloat root (lit ".out") (run_config c) (body c) D show_dur parse_dur sp durS durP (all_names tests) printed metrics_of _ _ (map fst tests) deps
    cases answers f rv recs rest h1 HR Hout Hdot B HU HF DUR SPC HS NOUT HD NC IC (chosen_in_order o tests ND fuel sel _ cases _ SN) (fun n Hn => AR n (IC n Hn)) ER _ PF) as (recs' & h & EX & PE & LC & SAME).
  destruct x as [[[ok recs2] t2] h2|h2]; [|discriminate EX]. cbn [io_map fst] in EX. injection EX as -> -> ->. injection R' as <- <- <-.
  split; [destruct (is_ok rv); reflexivity|]. split; [exact SAME|]. exists recs, recs'.
  assert (PA : (root ++ SLASH :: lit ".out") ++ SLASH :: lit "cases.txt" = root ++ SLASH :: lit ".out/cases.txt") by now rewrite <- app_assoc.
  rewrite <- PA. split; [|split; [exact LC|exact PE]].
  destruct (run_exact show_dur parse_dur sp show_ms show_nat (shown_config show_nat c) cc refloat root (lit ".out") HR Hout Hdot (run_config c) B (body c) durS (map fst tests) HS
      (all_names tests) tookS cases answers f rv recs rest t1 h1 IC NC AR RA) as (old & ran & blocks & left & _ & _ & _ & _ & _ & _ & _ & LR & _).
  change (root ++ SLASH :: lit ".out") with (outputs root) in LR. rewrite CommandsProofs.report_eq in LR by exact HR. exact LR.
Qed.
End Main.
Print Assumptions C125_same_status.

(** Running the workers one by one is a parallel run. *)
Lemma psteps_app {A} todo deps (x y z : (str -> proc A) * fs) : psteps todo deps x y -> psteps todo deps y z -> psteps todo deps x z.
Proof. intros H1 H2. induction H2 as [y|y z w H2 IH P]; [exact H1|]. econstructor; [now apply IH|exact P]. Qed.
Lemma turn_steps {A} todo deps (init : str -> proc A) : NoDup todo -> deps_first deps todo -> forall b a st f, todo = a ++ b -> (forall n, In n a -> ended (st n)) -> (forall n, In n b -> st n = init n) ->
  exists st', psteps todo deps (st, f) (st', fst (in_turn init b f)) /\ forall n, In n todo -> ended (st' n).
Proof.
  intros ND DF. induction b as [|n b IH]; intros a st f E EA EB.
  - exists st. split; [constructor|]. intros n Hn. apply EA. rewrite E, app_nil_r in Hn. exact Hn.
  - assert (Hn : In n todo) by (rewrite E; apply in_elt).
    destruct (solo_steps todo deps n Hn (init n) st f (EB n (or_introl eq_refl)) (fun d H1 H2 => EA d (DF a n b E d H1 H2))) as (st1 & PS & EN & OT).
    cbn [in_turn]. destruct (solo (init n) f) as [g oc] eqn:SO. cbn [fst snd] in *.
    destruct (IH (a ++ [n]) st1 g) as (st2 & PS2 & AL).
    + rewrite E, <- app_assoc. reflexivity.
    + intros m Hm. apply in_app_or in Hm as [Hm|[<-|[]]]; [|eexists; exact EN].
      destruct (str_eqb_spec m n) as [->|NE]; [eexists; exact EN|rewrite OT by exact NE; now apply EA].
    + intros m Hm. rewrite OT; [apply EB; now right|]. intros ->. rewrite E in ND. apply NoDup_remove_2 in ND. apply ND, in_or_app. now right.
    + exists st2. destruct (in_turn init b g) as [h os]. cbn [fst] in *. split; [|exact AL]. eapply psteps_app; eauto.
Qed.

Lemma one_by_one_is_parallel {D} (show_dur : D -> str) parse_dur sp show_ms show_nat cc refloat o body dur printed metrics_of took tests root c cases f :
  NoDup cases -> deps_first (case_deps o tests []) cases ->
  parallel_call show_dur parse_dur sp show_ms show_nat cc refloat o body dur printed metrics_of took tests root c cases f
    (one_by_one show_dur parse_dur sp show_ms show_nat cc refloat body dur printed metrics_of took tests root c cases f).
Proof.
  intros NC DF. unfold parallel_call, one_by_one. cbv zeta. eexists. split; [|reflexivity].
  set (todo := par_todo _ _ _ _ _ _). assert (NT : NoDup todo) by now apply todo_NoDup.
  assert (DT : deps_first (case_deps o tests todo) todo).
  { assert (X : deps_first (case_deps o tests []) todo) by now apply todo_deps_first. intros a n b E d Hd. rewrite case_deps_any in Hd. now apply (X a n b E d). }
  set (W := worker _ _ _ _ _ _ _ _ _ _ _ _ _).
  destruct (turn_steps todo _ W NT DT todo [] W (par_prepare (out_of_root root) (run_config c) show_dur parse_dur sp cases f) eq_refl ltac:(intros n []) ltac:(reflexivity)) as (st & PS & AL).
  exists st, (fst (in_turn W todo (par_prepare (out_of_root root) (run_config c) show_dur parse_dur sp cases f))), todo. split; [exact PS|]. split; [exact AL|]. split; [reflexivity|]. split; [exact NT|]. reflexivity.
Qed.

(** ** Example: y writes the value of x, which it depends on *)
Definition pm_objects : objects := {| o_deps := fun i => if Nat.eqb i 2 then [Fn 1] else []; o_resources := fun _ => []; o_self_type := fun _ => None; o_isinstance := fun _ _ => false |}.
Definition pm_body (n : str) (f : fs) : body_run :=
  if str_eqb n (lit "test/a/y")
  then {| b_ops := [OTln (match lookup (lit "books/.out/test/a/x.bin") f with Some v => v | None => lit "none" end)]; b_exc := None; b_files := []; b_tmp := []; b_log := []; b_value := None |}
  else {| b_ops := [OTln (lit "hello")]; b_exc := None; b_files := []; b_tmp := []; b_log := []; b_value := Some (lit "42") |}.
Notation pm_par := (fun tests root c cases (_ : list str) f => Some (one_by_one cmd_dur (fun _ => Some tt) (fun c => N.eqb c SP) cmd_dur dec ascii_class no_float (fun _ => pm_body) (fun _ => tt) (fun n => n) (fun n => n) (lit "5") tests root c cases f)).
Notation pm_main := (main cmd_dur (fun _ => Some tt) (fun c => N.eqb c SP) cmd_dur dec demo_took ascii_class no_float pm_objects 5
  (fun _ => pm_body) (fun _ => tt) (lit "12") (fun line _ => (line ++ [NL], 768%Z)) pm_par main_walk).
(** the snapshot of y has the value of x *)
Definition pm_f (v : string) : fs := [(lit "books/test/a/x.md", lit "hello" ++ [NL]); (lit "books/test/a/y.md", lit v ++ [NL])].
Definition pm_config (a : bool) (p : ConfigModel.cval) : ConfigModel.config := ConfigModel.put_all (ConfigModel.flag_settings (with_p p (main_flags a []))) [].

Example C125_example : forall v, v = "42"%string \/ v = "41"%string -> forall args, args = [] \/ args = [lit "test/a/y"] ->
  (forall w, works_with ascii_class main_walk [] (with_p w (main_flags false [])) (pm_f v) (pm_config false w) main_tests (lit "books")) /\
  MainProps.accepted main_tests args /\ project (lit "books") main_tests /\ ~ In (lit "output") (map fst main_tests) /\
  ConfigModel.is_parallel (pm_config false (ConfigModel.VBool false)) = false /\
  batch (run_config (pm_config false (ConfigModel.VBool false))) /\ update (run_config (pm_config false (ConfigModel.VBool false))) = false /\ fail_fast (run_config (pm_config false (ConfigModel.VBool false))) = false /\
  (forall n, In n (map fst main_tests) -> field_ok n /\ reads_deps (lit "books") (lit "books" ++ SLASH :: lit ".out") (case_deps pm_objects main_tests []) n (pm_body n)) /\
  all_ready (lit "books") (lit ".out") (map fst main_tests) (pm_f v) /\
  (forall cases todo w, chosen (fun _ => Some tt) (fun c => N.eqb c SP) pm_objects main_tests 5 (lit "books") (pm_config false (ConfigModel.VBool true)) (given args) (pm_f v) = Some (Some (cases, todo)) ->
     pm_par main_tests (lit "books") (pm_config false (ConfigModel.VBool true)) cases [] (pm_f v) = Some w ->
     parallel_call cmd_dur (fun _ => Some tt) (fun c => N.eqb c SP) cmd_dur dec ascii_class no_float pm_objects (fun _ => pm_body) (fun _ => tt) (fun n => n) (fun n => n) (lit "5")
       main_tests (lit "books") (pm_config false (ConfigModel.VBool true)) cases (pm_f v) w) /\
  case_deps pm_objects main_tests [] (lit "test/a/y") = [lit "test/a/x"] /\
  let s := if String.eqb v "42" then 0%Z else 255%Z in
  option_map (fun x => fst (fst x)) (pm_main [] (with_p (ConfigModel.VBool false) (main_flags false [])) args CRun [] (pm_f v)) = Some s /\
  option_map (fun x => fst (fst x)) (pm_main [] (with_p (ConfigModel.VBool true) (main_flags false [])) args CRun [] (pm_f v)) = Some s.
Proof.
  assert (PR : project (lit "books") main_tests) by apply C123_example.
  intros v Hv args Ha. split; [|split; [|split; [exact PR|]]].
  - intros w. do 2 eexists. split; [reflexivity|]. split; [vm_compute; reflexivity|]. split; [reflexivity|]. reflexivity.
  - destruct Ha as [->| ->]; [intros a []|]. intros a [<-|[]]. apply str_mem_In. vm_compute. reflexivity.
  - split; [vm_compute; intuition discriminate|]. do 4 (split; [vm_compute; try split; reflexivity|]). split; [|split; [|split; [|split; [vm_compute; reflexivity|]]]].
    + intros n [<-|[<-|[]]]; (split; [split; [|split]; vm_compute; intuition discriminate|]); intros f g _ H; [reflexivity|].
      specialize (H (lit "test/a/x") (or_introl eq_refl)). unfold pm_body. cbn [str_eqb].
      change (lookup (lit "books/.out/test/a/x.bin") f = lookup (lit "books/.out/test/a/x.bin") g) in H. now rewrite H.
    + intros n [<-|[<-|[]]]; apply readyb_ok; destruct Hv as [->| ->]; vm_compute; reflexivity.
    + intros cases todo w CH [= <-].
      destruct (chosen_some (fun _ => Some tt) (fun c => N.eqb c SP) pm_objects main_tests 5 (lit "books") (proj1 PR) (proj2 (proj2 PR)) _ _ _ cases todo CH) as (sel & _ & SN & _ & NC & _ & _).
      apply one_by_one_is_parallel; [exact NC|]. exact (chosen_in_order pm_objects main_tests (proj2 (proj2 PR)) 5 sel _ cases [] SN).
    + destruct Hv as [->| ->], Ha as [->| ->]; split; vm_compute; reflexivity.
Qed.
