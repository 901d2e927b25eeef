(** C134: a parallel run that is killed, continued with -c. *)
From Verif Require Import PyStrFacts FsFacts CaseRunProps RunCaseProps ReportsProofs RunnerProofs ReviewProofs ParResumeProofs KillProofs ParKillProofs.
From Verif Require Export KillProps ParKillModel.
From Coq Require Import Permutation.

Definition over {A} (p : proc A) : bool := match p with Halt _ => true | Act _ => false end.
Lemma over_ended {A} (p : proc A) : over p = true <-> ended p.
Proof. destruct p as [o|s]; cbn [over]; split; try easy; [now exists o|intros [o X]; discriminate X]. Qed.

(** A parallel run without questions, -u and -a that is killed at any moment, and is then continued with -c: both together have
    the result of one sequential run to the end, the same results of the selected tests, and its files. There are no results that
    it does not have. The results of the tests that were not selected are still there, if the run was not killed while it filled
    the report with them again; and it must not be killed there if it was itself started with -c. *)
Theorem C134_killed_parallel_run :
  forall cc refloat E o c body (D : Type) (show_dur : D -> str) parse_dur sp durS durK dur2 all_names printed metrics_of metricsS metrics2 names deps
    selected answersS answers2 f rv recs rest g,
  plain_dir E -> plain o -> starts_with [DOT] o = true -> let O := E ++ SLASH :: o in
  hands_off c -> durations_ok show_dur parse_dur -> space_ok sp ->
  separate names -> ~ In (lit "output") names ->
  (forall n, In n names -> field_ok n /\ incl (deps n) names /\ reads_fresh E O deps n (body n)) ->
  NoDup selected -> incl selected names -> deps_first deps selected -> (forall n, In n selected -> ready E O n f) ->
  run_async cc refloat E O O (unattended c) body show_dur parse_dur sp durS all_names metricsS selected answersS f = Some (Ret (rv, recs, rest) g) ->
  forall whole h, par_killed cc refloat E O c body show_dur parse_dur sp durK all_names printed metrics_of deps selected f whole h -> (cont c = true -> whole = true) ->
  forall c2, hands_off c2 -> cont c2 = true -> fail_fast c2 = false -> point_error_pos c2 = point_error_pos c ->
  (forall n, In n selected -> ready E O n h) /\
  exists recs2 g2, run_async cc refloat E O O c2 body show_dur parse_dur sp dur2 all_names metrics2 selected answers2 h = Some (Ret (rv, recs2, answers2) g2) /\
    (forall n r, (exists d, In (n, r, d) recs2) -> exists d, In (n, r, d) recs) /\
    (forall n r, In n selected \/ whole = true -> (exists d, In (n, r, d) recs) -> exists d, In (n, r, d) recs2) /\
    (forall p, ~ bookkeeping O p -> lookup p g2 = lookup p g).
Proof.
  intros cc refloat E o c body D show_dur parse_dur sp durS durK dur2 all_names printed metrics_of metricsS metrics2 names deps
    selected answersS answers2 f rv recs rest g HE Ho Hdot O HOc DUR SPC SEP NOUT HN ND INS ORD RD H whole h K KC c2 HO2 HC2 HF2 HP2.
  assert (HO0 : hands_off (unattended c)) by (destruct HOc as (_ & U & A); repeat split; assumption).
  pose proof (hands_off_auto _ HO0) as HA0. pose proof (hands_off_auto c2 HO2) as HA2.
  assert (HN' : forall n, In n names -> field_ok n /\ incl (deps n) names /\ reads_deps E O deps n (body n)).
  { intros n Hn. destruct (HN n Hn) as (A1 & A2 & A3). split; [exact A1|]. split; [exact A2|]. now apply fresh_deps. }
  destruct (parallel_sim cc refloat E o (unattended c) body D show_dur parse_dur sp durS durK all_names printed metrics_of metricsS names deps
    selected answersS f rv recs rest g HE Ho Hdot (proj1 HO0) (proj1 (proj2 HO0)) eq_refl SEP NOUT HN' ND INS ORD RD H) as (res & gl & IN & TND & TORD & TU & RS & ER & EV & SAME & EI).
  fold O in IN, TND, TORD, TU, RS, ER, EV, SAME. unfold par_killed in K. cbv zeta in K.
  pose proof (fun ran fresh k0 new => resume_run cc refloat E o HE Ho Hdot body show_dur parse_dur sp names deps SEP NOUT HN all_names (unattended c) c2 durS dur2 metricsS metrics2 selected
    answersS answers2 f rv recs rest g h ran fresh k0 new (proj1 HO0) HA0 eq_refl (proj1 HO2) HA2 HF2 HC2 HP2 ND INS ORD RD H) as RES.
  cbv zeta in RES. fold O in RES.
  change (snd (cases_to_done_and_todo (of_file parse_dur sp (lookup (report_file O) f)) (cont (unattended c)) selected)) with (par_todo O c parse_dur sp selected f) in RES.
  change (par_todo O (unattended c) parse_dur sp selected f) with (par_todo O c parse_dur sp selected f) in *.
  change (par_kept O (unattended c) parse_dur sp selected f) with (par_kept O c parse_dur sp selected f) in *.
  change (kept (of_file parse_dur sp (lookup (report_file O) f)) (par_todo O c parse_dur sp selected f)) with (par_kept O c parse_dur sp selected f) in RES.
  change (par_prepare O (unattended c) show_dur parse_dur sp selected f) with (par_prepare O c show_dur parse_dur sp selected f) in *.
  change (worker cc refloat E O (unattended c) body show_dur parse_dur sp durK all_names printed metrics_of) with (worker cc refloat E O c body show_dur parse_dur sp durK all_names printed metrics_of) in *.
  set (todo := par_todo O c parse_dur sp selected f) in *. set (kept0 := par_kept O c parse_dur sp selected f) in *.
  set (W := worker cc refloat E O c body show_dur parse_dur sp durK all_names printed metrics_of) in *. set (g1 := par_prepare O c show_dur parse_dur sp selected f) in *.
  assert (RF : report_file O = O ++ SLASH :: lit "cases.txt") by (apply path_join_name; [now apply HO|reflexivity]).
  assert (RF' : path_join O (lit "cases.txt") = report_file O) by reflexivity. rewrite RF' in K.
  assert (INT : incl todo selected) by (intros n Hn; unfold todo, par_todo in Hn; now apply todo_incl in Hn).
  assert (NOK : names_ok kept0).
  { apply Forall_forall. intros r Hr. unfold kept0, par_kept in Hr. apply kept_In in Hr as [Hr _]. pose proof (read_names_ok parse_dur sp (lookup (path_join O (lit "cases.txt")) f)) as NK. unfold names_ok in NK. rewrite Forall_forall in NK. now apply NK. }
  assert (NBS : forall n p, In n names -> own E o n p -> ~ booked E o p) by (intros n p Hn; apply (no_nb E o Hdot names SEP NOUT n p); auto).
  assert (BE : batches_dir O = O ++ SLASH :: lit ".batches") by now apply batches_eq.
  assert (RB : forall p, run_file E O p -> booked E o p).
  { intros p [B|[<-|[<-|[<-|[<-|[<-|[]]]]]]].
    - left. left. rewrite BE in B. now apply prefix_below.
    - left. left. rewrite BE. apply prefix_refl.
    - rewrite RF', RF. left. right. now left.
    - left. right. right. right. left. symmetry. apply path_join_name; [now apply HO|reflexivity].
    - unfold O. rewrite metrics_eq by assumption. apply booked_metrics.
    - rewrite index_eq by assumption. apply booked_index. }
  assert (DEC : forall p k1 k2, {lookup p k1 = lookup p k2} + {lookup p k1 <> lookup p k2}) by (intros; repeat decide equality).
  assert (G1 : forall p, ~ booked E o p -> lookup p g1 = lookup p f).
  { intros p NB. unfold g1, par_prepare. rewrite RF'. rewrite (write_booked E o) by (exact NB || (rewrite RF; left; right; now left)). rewrite lookup_rm, BE.
    destruct (below _ p || str_eqb _ p) eqn:X; [|reflexivity]. exfalso. apply NB. left. left. apply orb_true_iff in X as [X|X]; [now apply prefix_below|]. apply str_eqb_eq in X. rewrite <- X. apply prefix_refl. }
  destruct whole.
  - destruct K as (st & gk & new & t & u & ST & REC & ETX & EH & CH).
    assert (Hdeps : forall n, In n names -> incl (deps n) names) by (intros n Hn; apply HN; exact Hn).
    assert (Hbody : forall n, In n names -> reads_deps E O deps n (body n)) by (intros n Hn; apply HN'; exact Hn).
    destruct (cut_machine todo deps W (own' E o) (reads E o deps) (writes E o) TND TORD) with (f0 := g1) (st := st) (f := gk) as (END & RUN & WAY & FRAME); auto.
    { intros n _. unfold W. apply worker_starts. }
    { intros n Hn. apply (workers_local cc refloat E o HE Ho c body show_dur parse_dur sp durK all_names printed metrics_of names deps SEP Hbody todo IN n Hn). }
    { intros n p _ X. now left. }
    { intros n m p Hn Hm N X Y. exact (workers_apart E o Hdot names SEP NOUT todo IN n m p Hn Hm N X Y). }
    { intros n p Hn X. exact (workers_read E o Hdot names deps SEP NOUT Hdeps todo IN TND TORD n p Hn X). }
    unfold last_fs, outs in END, RUN, WAY. rewrite TU in END, RUN, WAY. cbn [fst snd] in END, RUN, WAY.
    assert (OUTS : forall n oc, In (n, oc) (map (fun n => (n, Value (res n))) todo) -> oc = Value (res n)).
    { intros n oc Y. apply in_map_iff in Y as (m & EQ & _). congruence. }
    assert (RECS : forall n r d, In n todo -> In (n, r, d) recs -> r = res n).
    { intros n r d Hn Y. rewrite ER in Y. apply in_app_iff in Y as [Y|Y]; [unfold kept0, par_kept in Y; apply kept_In in Y as [_ Y]; now elim Y|]. apply in_map_iff in Y as (m & EQ & _). congruence. }
    assert (INR : forall n, In n todo -> exists d, In (n, res n, d) recs).
    { intros n Hn. exists (durS n). rewrite ER. apply in_or_app. right. apply in_map_iff. now exists n. }
    (* what the kill left of a test *)
    assert (OWNS : forall n p, In n todo -> own E o n p -> lookup p h = lookup p gk \/
      (~ ended (st n) /\ (scratch E o n p \/ p = O ++ SLASH :: n ++ lit ".bin" /\ res n <> FAIL))).
    { intros n p Hn OW. destruct (DEC p h gk) as [X|X]; [now left|right]. destruct (CH p X) as [Y|(m & Hm & NE & DE & Y)]; [exfalso; apply (NBS n p); auto|].
      assert (Pm : proper m) by (apply (named names SEP m); auto). unfold case_scratch in Y. rewrite !case_path_eq in Y by (exact Pm || assumption || now apply HO). unfold O in Y. rewrite (bin_path E o HE Ho m) in Y by (apply (named names SEP m); auto).
      assert (OM : own E o m p) by (destruct Y as [Y|[-> _]]; [right; now apply (scratch_area refloat E o m)|apply bin_own]).
      assert (m = n) as -> by (apply (own_disjoint E o Hdot names m n p); auto). split; [exact NE|]. destruct Y as [Y|(-> & r & SR & NF)]; [now left|]. right. split; [reflexivity|].
      pose proof (OUTS n _ (RUN n Hn NE DE)) as Z. rewrite SR in Z. injection Z as <-. exact NF. }
    set (ran := filter (fun n => over (st n)) todo). set (fresh := filter (fun n => negb (over (st n))) todo).
    assert (RANE : forall n, In n ran <-> In n todo /\ ended (st n)) by (intros n; unfold ran; rewrite filter_In, over_ended; reflexivity).
    assert (FRE : forall n, In n fresh <-> In n todo /\ ~ ended (st n)).
    { intros n. unfold fresh. rewrite filter_In, <- over_ended. destruct (over (st n)); cbn [negb]; intuition congruence. }
    assert (NOM : names_ok new).
    { apply Forall_forall. intros [[n r] d] Hr. unfold rec_name. cbn [fst]. apply HN, INS, INT. now apply REC in Hr. }
    assert (CALM : forall n p, In n todo -> ~ ended (st n) -> own E o n p -> ~ scratch E o n p -> (p = O ++ SLASH :: n ++ lit ".bin" -> res n = FAIL) -> lookup p h = lookup p f).
    { intros n p Hn NE OW NS NB. assert (NBK : ~ booked E o p) by (apply (NBS n p); auto). rewrite <- (G1 p NBK).
      destruct (OWNS n p Hn OW) as [->|(_ & [Y|[Y1 Y2]])]; [|contradiction|now elim Y2; apply NB].
      destruct (WAY n Hn NE) as [AG|(g0 & q & k & PT & A1 & A2 & A3)]; [apply AG; now left|].
      rewrite (A1 p) by now left. rewrite <- (A2 p) by now left. apply OUTS in A3.
      destruct (str_eqb_spec p (O ++ SLASH :: n ++ lit ".bin")) as [->|NP].
      - apply (spares_worker cc refloat E o HE Ho Hdot c (proj1 (proj2 HOc)) (proj2 (proj2 HOc)) body show_dur parse_dur sp durK all_names printed metrics_of names SEP NOUT n (IN n Hn) g0 q k PT). fold O. fold W. rewrite A3. f_equal. now apply NB.
      - apply (only_part _ _ _ _ _ (ow_worker cc refloat E o HE Ho c (proj1 (proj2 HOc)) (proj2 (proj2 HOc)) body show_dur parse_dur sp durK all_names printed metrics_of names SEP n (IN n Hn)) PT). fold O. tauto. }
    destruct (RES ran fresh kept0 (of_file parse_dur sp (Some t))) as (Y1 & recs2 & g2 & Y2 & Y3 & Y4 & Y5).
    + intros n. rewrite RANE, FRE, <- over_ended. destruct (over (st n)); intuition congruence.
    + rewrite EH. apply (of_file_more show_dur parse_dur sp DUR SPC kept0 new t u); assumption.
    + intros n r d Hr. now exists d.
    + reflexivity.
    + intros n r d Hr. destruct (of_file_part show_dur parse_dur sp DUR SPC new t u NOM ETX n r d Hr) as [d' Y]. destruct (REC n r d' Y) as (Hn & SN & _).
      assert (EN : ended (st n)) by now exists (Value r). split; [now apply RANE|]. destruct (END n Hn EN) as (oc & S2 & IO & _). apply OUTS in IO. rewrite SN in S2. injection S2 as <-. injection IO as ->. now apply INR.
    + intros n p Hn OW. apply RANE in Hn as [Hn EN]. destruct (OWNS n p Hn OW) as [->|[NE _]]; [|contradiction]. destruct (END n Hn EN) as (oc & _ & _ & AG). rewrite (AG p) by now left. apply SAME. apply (NBS n); auto.
    + intros n Hn. apply FRE in Hn as [Hn NE]. split; [|split].
      * apply (scratch_ready refloat E o Hdot names SEP n f h (IN n Hn) (RD n (INT n Hn))). intros p OW NS NB. apply (CALM n p Hn NE OW NS). fold O in NB. intros X. contradiction.
      * intros p Hp. assert (NA : ~ area O n p).
        { destruct Hp as (x & _ & Hp). apply prefix_split in Hp as (t0 & _ & ->). rewrite in_case. apply (area_apart E o Hdot). apply (named names SEP); auto. }
        apply (CALM n p Hn NE); [now left|intros X; apply NA; now apply (scratch_area refloat E o n)|]. intros ->. exfalso. apply NA. exists (lit ".bin"). split; [unfold case_exts; cbn [In]; tauto|apply prefix_refl].
      * intros [d FL]. apply (CALM n _ Hn NE); [apply bin_own|apply scratch_bin|]. intros _. symmetry. now apply (RECS n FAIL d).
    + intros p NB NO. rewrite <- (G1 p NB). destruct (DEC p h gk) as [->|X].
      * apply FRAME. intros n Hn [[Y|Y]|[->| ->]]; [now apply (NO n)| | |]; apply NB; [now apply (booked_bdir E o n)|apply booked_metrics|apply booked_index].
      * exfalso. destruct (CH p X) as [Y|(m & Hm & NE & DE & Y)]; [now apply NB, RB|]. apply (NO m Hm).
        assert (Pm : proper m) by (apply (named names SEP m); auto). unfold case_scratch in Y. rewrite !case_path_eq in Y by (exact Pm || assumption || now apply HO). unfold O in Y. rewrite (bin_path E o HE Ho m) in Y by (apply (named names SEP m); auto).
        destruct Y as [Y|[-> _]]; [right; now apply (scratch_area refloat E o m)|apply bin_own].
    + split; [exact Y1|]. exists recs2, g2. split; [exact Y2|]. split; [|split; [|exact Y5]].
      * intros n r [d Y]. now apply (Y3 n r d).
      * intros n r _ [d Y]. apply (Y4 n r d); [now right|exact Y].
  - destruct K as (t & u & ET & EH & CH). assert (CF : cont c = false) by (destruct (cont c); [now specialize (KC eq_refl)|reflexivity]).
    assert (SM : forall p, ~ booked E o p -> lookup p h = lookup p f).
    { intros p NB. destruct (DEC p h f) as [X|X]; [exact X|]. exfalso. now apply NB, RB, CH. }
    destruct (RES [] todo (of_file parse_dur sp (Some t)) []) as (Y1 & recs2 & g2 & Y2 & Y3 & Y4 & Y5).
    + intros n. split; [now right|intros [[]|X]; exact X].
    + now rewrite EH, app_nil_r.
    + apply (of_file_part show_dur parse_dur sp DUR SPC kept0 t u NOK ET).
    + change (cont (unattended c)) with (cont c). congruence.
    + easy.
    + easy.
    + intros n Hn. assert (Hnn : In n names) by now apply INS, INT. split; [|split].
      * apply (ready_local E o n f); [|now apply RD, INT]. intros p OW. symmetry. apply SM. now apply (NBS n).
      * intros p Hp. apply SM. apply (NBS n); auto. now left.
      * intros _. apply SM. apply (NBS n); auto. apply bin_own.
    + intros p NB _. now apply SM.
    + split; [exact Y1|]. exists recs2, g2. split; [exact Y2|]. split; [|split; [|exact Y5]].
      * intros n r [d Y]. now apply (Y3 n r d).
      * intros n r [SEL|X] [d Y]; [|discriminate]. apply (Y4 n r d); [now left|exact Y].
Qed.
Print Assumptions C134_killed_parallel_run.

(** when the tests that are left run in parallel *)
Lemma in_parallel cc refloat E o c2 body (D : Type) (show_dur : D -> str) parse_dur sp dur2 all_names printed metrics_of metrics2 names deps selected h rv recs2 g2 :
  plain_dir E -> plain o -> starts_with [DOT] o = true -> let O := E ++ SLASH :: o in
  hands_off c2 -> fail_fast c2 = false -> durations_ok show_dur parse_dur -> space_ok sp -> separate names -> ~ In (lit "output") names ->
  (forall n, In n names -> field_ok n /\ incl (deps n) names /\ reads_fresh E O deps n (body n)) ->
  NoDup selected -> incl selected names -> deps_first deps selected -> (forall n, In n selected -> ready E O n h) ->
  run_async cc refloat E O O c2 body show_dur parse_dur sp dur2 all_names metrics2 selected [] h = Some (Ret (rv, recs2, []) g2) ->
  forall x, parallel_run cc refloat E O c2 body show_dur parse_dur sp dur2 all_names printed metrics_of metrics2 deps selected h x ->
  exists recs3 g3, x = Ret (is_ok rv, recs3) g3 /\ (forall n r, (exists d, In (n, r, d) recs3) <-> (exists d, In (n, r, d) recs2)) /\
    (forall p, ~ bookkeeping O p -> lookup p g3 = lookup p g2).
Proof.
  intros HE Ho Hdot O HO2 HF2 DUR SPC SEP NOUT HN ND INS ORD RDH R2 x X.
  assert (HN' : forall n, In n names -> field_ok n /\ incl (deps n) names /\ reads_deps E O deps n (body n)).
  { intros n Hn. destruct (HN n Hn) as (A1 & A2 & A3). split; [exact A1|]. split; [exact A2|]. now apply fresh_deps. }
  destruct (C82_parallel_like_sequential cc refloat E o c2 body D show_dur parse_dur sp dur2 dur2 all_names printed metrics_of metrics2 metrics2 names deps
    selected [] h rv recs2 [] g2 HE Ho Hdot (proj1 HO2) (proj1 (proj2 HO2)) HF2 DUR SPC SEP NOUT HN' ND INS ORD RDH R2 x X) as (recs3 & g3 & EX2 & PERM & _ & FILES3).
  exists recs3, g3. split; [exact EX2|]. split; [|exact FILES3]. intros n r.
  assert (Q : forall l, (exists d, In (n, r, d) l) <-> In (n, r) (map (fun q : case_rec D => (rec_name q, rec_result q)) l)).
  { intros l. rewrite in_map_iff. split.
    - intros [d Y]. now exists (n, r, d).
    - intros ([[m q] d] & EQ & Y). unfold rec_name, rec_result in EQ. cbn [fst snd] in EQ. injection EQ as -> ->. now exists d. }
  rewrite !Q. split; intros Y; [apply Permutation_in with (2 := Y), Permutation_sym, PERM|apply Permutation_in with (2 := Y), PERM].
Qed.

(** Killed again and again: a run of the selected tests, sequential or parallel, that is killed with the files [h], and further
    runs with -c, sequential or parallel, that are killed, too. Only the first may be killed while it fills the report. *)
Section Attempts.
Variable cc : CharClass.
Variable refloat : str -> option str.
Variables E O : str.
Variable body : str -> fs -> body_run.
Context {D : Type} (show_dur : D -> str) (parse_dur : str -> option D) (sp : char -> bool).
Variable all_names : list str.
Variable deps : str -> list str.
Variable selected : list str.
Definition cut_run (c : config) (f : fs) (whole : bool) (h : fs) : Prop :=
  (exists dur answers, killed cc refloat E O O c body show_dur parse_dur sp dur selected answers f whole h) \/
  exists dur printed metrics_of, par_killed cc refloat E O c body show_dur parse_dur sp dur all_names printed metrics_of deps selected f whole h.
Inductive tries (c : config) (f : fs) (whole : bool) : fs -> Prop :=
| first_try h : cut_run c f whole h -> tries c f whole h
| next_try h c' h' : tries c f whole h -> hands_off c' -> cont c' = true -> point_error_pos c' = point_error_pos c -> cut_run c' h true h' -> tries c f whole h'.
End Attempts.

Theorem C134_killed_again_and_again :
  forall cc refloat E o c body (D : Type) (show_dur : D -> str) parse_dur sp durS all_names metricsS names deps selected answersS f rv recs rest g,
  plain_dir E -> plain o -> starts_with [DOT] o = true -> let O := E ++ SLASH :: o in
  hands_off c -> durations_ok show_dur parse_dur -> space_ok sp ->
  separate names -> ~ In (lit "output") names ->
  (forall n, In n names -> field_ok n /\ incl (deps n) names /\ reads_fresh E O deps n (body n)) ->
  NoDup selected -> incl selected names -> deps_first deps selected -> (forall n, In n selected -> ready E O n f) ->
  run_async cc refloat E O O (unattended c) body show_dur parse_dur sp durS all_names metricsS selected answersS f = Some (Ret (rv, recs, rest) g) ->
  forall whole h, tries cc refloat E O body show_dur parse_dur sp all_names deps selected c f whole h -> (cont c = true -> whole = true) ->
  forall c2 dur2 metrics2, hands_off c2 -> cont c2 = true -> fail_fast c2 = false -> point_error_pos c2 = point_error_pos c ->
  let ends_like recs2 g2 :=
    (forall n r, (exists d, In (n, r, d) recs2) -> exists d, In (n, r, d) recs) /\
    (forall n r, In n selected \/ whole = true -> (exists d, In (n, r, d) recs) -> exists d, In (n, r, d) recs2) /\
    (forall p, ~ bookkeeping O p -> lookup p g2 = lookup p g) in
  (forall answers2, exists recs2 g2, run_async cc refloat E O O c2 body show_dur parse_dur sp dur2 all_names metrics2 selected answers2 h = Some (Ret (rv, recs2, answers2) g2) /\ ends_like recs2 g2) /\
  (forall printed metrics_of x, parallel_run cc refloat E O c2 body show_dur parse_dur sp dur2 all_names printed metrics_of metrics2 deps selected h x ->
    exists recs2 g2, x = Ret (is_ok rv, recs2) g2 /\ ends_like recs2 g2).
Proof.
  intros cc refloat E o c body D show_dur parse_dur sp durS all_names metricsS names deps
    selected answersS f rv recs rest g HE Ho Hdot O HOc DUR SPC SEP NOUT HN ND INS ORD RD H0 whole h TR KC.
  assert (ONE : forall c f dur0 metrics0 answers0 rv recs rest g whole h, hands_off c -> (forall n, In n selected -> ready E O n f) ->
    run_async cc refloat E O O (unattended c) body show_dur parse_dur sp dur0 all_names metrics0 selected answers0 f = Some (Ret (rv, recs, rest) g) ->
    cut_run cc refloat E O body show_dur parse_dur sp all_names deps selected c f whole h -> (cont c = true -> whole = true) ->
    forall c2 dur2 metrics2 answers2, hands_off c2 -> cont c2 = true -> fail_fast c2 = false -> point_error_pos c2 = point_error_pos c ->
    (forall n, In n selected -> ready E O n h) /\
    exists recs2 g2, run_async cc refloat E O O c2 body show_dur parse_dur sp dur2 all_names metrics2 selected answers2 h = Some (Ret (rv, recs2, answers2) g2) /\
      (forall n r, (exists d, In (n, r, d) recs2) -> exists d, In (n, r, d) recs) /\
      (forall n r, In n selected \/ whole = true -> (exists d, In (n, r, d) recs) -> exists d, In (n, r, d) recs2) /\
      (forall p, ~ bookkeeping O p -> lookup p g2 = lookup p g)).
  { clear c HOc f RD H0 whole h TR KC rv recs rest g. intros c f dur0 metrics0 answers0 rv recs rest g whole h HOc RD H0 K KC c2 dur2 metrics2 answers2 HO2 HC2 HF2 HP2.
    destruct K as [(durK & answersK & K)|(durK & printed & metrics_of & K)].
    - exact (C133_killed_and_continued_partial cc refloat E o c body D show_dur parse_dur sp dur0 durK dur2 all_names metrics0 metrics2 names deps
        selected answers0 answersK answers2 f rv recs rest g HE Ho Hdot HOc DUR SPC SEP NOUT HN ND INS ORD RD H0 whole h K KC c2 HO2 HC2 HF2 HP2).
    - exact (C134_killed_parallel_run cc refloat E o c body D show_dur parse_dur sp dur0 durK dur2 all_names printed metrics_of metrics0 metrics2 names deps
        selected answers0 answers2 f rv recs rest g HE Ho Hdot HOc DUR SPC SEP NOUT HN ND INS ORD RD H0 whole h K KC c2 HO2 HC2 HF2 HP2). }
  assert (ALL : forall c2 dur2 metrics2 answers2, hands_off c2 -> cont c2 = true -> fail_fast c2 = false -> point_error_pos c2 = point_error_pos c ->
    (forall n, In n selected -> ready E O n h) /\
    exists recs2 g2, run_async cc refloat E O O c2 body show_dur parse_dur sp dur2 all_names metrics2 selected answers2 h = Some (Ret (rv, recs2, answers2) g2) /\
      (forall n r, (exists d, In (n, r, d) recs2) -> exists d, In (n, r, d) recs) /\
      (forall n r, In n selected \/ whole = true -> (exists d, In (n, r, d) recs) -> exists d, In (n, r, d) recs2) /\
      (forall p, ~ bookkeeping O p -> lookup p g2 = lookup p g)).
  { induction TR as [h K|h c' h' TR IH HO' HC' HP' K]; intros c2 dur2 metrics2 answers2 HO2 HC2 HF2 HP2.
    - exact (ONE c f durS metricsS answersS rv recs rest g whole h HOc RD H0 K KC c2 dur2 metrics2 answers2 HO2 HC2 HF2 HP2).
    - assert (HOu : hands_off (unattended c')) by (destruct HO' as (_ & U & A); repeat split; assumption).
      destruct (IH (unattended c') durS metricsS answersS HOu HC' eq_refl HP') as (RDH & recs1 & g1 & R1 & S1 & S2 & F1).
      destruct (ONE c' h durS metricsS answersS rv recs1 answersS g1 true h' HO' RDH R1 K (fun _ => eq_refl) c2 dur2 metrics2 answers2 HO2 HC2 HF2) as (RDH' & recs2 & g2 & R2 & T1 & T2 & F2).
      { congruence. }
      split; [exact RDH'|]. exists recs2, g2. split; [exact R2|]. split; [|split].
      + intros n r Y. now apply S1, T1.
      + intros n r SEL Y. apply T2; [now right|]. now apply S2.
      + intros p NB. rewrite F2 by exact NB. now apply F1. }
  intros c2 dur2 metrics2 HO2 HC2 HF2 HP2 ends_like. split.
  - intros answers2. destruct (ALL c2 dur2 metrics2 answers2 HO2 HC2 HF2 HP2) as (_ & recs2 & g2 & R2 & T). exists recs2, g2. split; [exact R2|exact T].
  - intros printed metrics_of x X. destruct (ALL c2 dur2 metrics2 [] HO2 HC2 HF2 HP2) as (RDH & recs2 & g2 & R2 & T1 & T2 & T3).
    destruct (in_parallel cc refloat E o c2 body D show_dur parse_dur sp dur2 all_names printed metrics_of metrics2 names deps selected h rv recs2 g2
      HE Ho Hdot HO2 HF2 DUR SPC SEP NOUT HN ND INS ORD RDH R2 x X) as (recs3 & g3 & EX & S3 & F3).
    exists recs3, g3. split; [exact EX|]. split; [|split].
    + intros n r Y. now apply T1, S3.
    + intros n r SEL Y. apply S3. now apply T2.
    + intros p NB. fold O in F3. rewrite F3 by exact NB. now apply T3.
Qed.
Print Assumptions C134_killed_again_and_again.

(** ** The demo project, in parallel: the first test has passed, its record is half written, and the second is under way. *)
Lemma work_off {A} todo deps n (Hn : In n todo) : forall (p : proc A) st f, st n = p -> (forall d, In d (deps n) -> In d todo -> ended (st d)) ->
  exists st', psteps todo deps (st, f) (st', fst (solo p f)) /\ st' n = Halt (snd (solo p f)) /\ forall m, m <> n -> st' m = st m.
Proof.
  assert (TR : forall x y z : (str -> proc A) * fs, psteps todo deps x y -> psteps todo deps y z -> psteps todo deps x z) by (intros x y z H1 H2; induction H2 as [|x1 y1 z1 _ IH P]; [exact H1|exact (PS1 _ _ _ _ _ (IH H1) P)]).
  induction p as [oc|s IH] using proc_ind2; intros st f Es D.
  - exists st. cbn [solo fst snd]. split; [constructor|auto].
  - specialize (IH f (set_proc st n (snd (s f))) (fst (s f))). destruct IH as (st' & K1 & K2 & K3).
    + unfold set_proc. now rewrite str_eqb_refl.
    + intros d Hd Td. destruct (D d Hd Td) as [oc Eo]. unfold set_proc. destruct (str_eqb_spec n d) as [<-|_]; [congruence|now exists oc].
    + exists st'. pose proof (PStep todo deps st f n s Hn Es D) as P. cbn [solo]. destruct (s f) as [g q]. cbn [fst snd] in *. split; [eapply TR; [|exact K1]; econstructor; [constructor|exact P]|]. split; [exact K2|].
      intros m NM. rewrite K3 by exact NM. unfold set_proc. destruct (str_eqb_spec n m) as [<-|_]; [easy|reflexivity].
Qed.
Notation demo_w := (worker ascii_class no_float demo_E demo_O (demo_conf false) demo_using (fun _ : unit => lit "7") (fun _ => Some tt) (fun c => N.eqb c SP) (fun _ => tt) demo_two (fun n => n) (fun n => n)).
Definition demo_g : fs := fst (solo (demo_w (lit "t/a")) (par_prepare demo_O (demo_conf false) (fun _ : unit => lit "7") (fun _ => Some tt) (fun c => N.eqb c SP) demo_two demo_f0)).
Definition demo_h : fs := write_file (path_join demo_O (lit "cases.txt")) (lit "t/a") (demo_half demo_g).
Lemma demo_par_down : par_killed ascii_class no_float demo_E demo_O (demo_conf false) demo_using (fun _ : unit => lit "7") (fun _ => Some tt) (fun c => N.eqb c SP) (fun _ => tt) demo_two
  (fun n => n) (fun n => n) demo_deps demo_two demo_f0 true demo_h.
Proof.
  assert (ET : par_todo demo_O (demo_conf false) (fun _ : str => Some tt) (fun c => N.eqb c SP) demo_two demo_f0 = demo_two) by (vm_compute; reflexivity).
  unfold par_killed. cbv zeta iota. rewrite ET.
  destruct (work_off demo_two demo_deps (lit "t/a") (or_introl eq_refl) (demo_w (lit "t/a")) demo_w
    (par_prepare demo_O (demo_conf false) (fun _ : unit => lit "7") (fun _ => Some tt) (fun c => N.eqb c SP) demo_two demo_f0) eq_refl) as (st & K1 & K2 & K3).
  { intros d Hd. vm_compute in Hd. contradiction. }
  exists st, demo_g, [(lit "t/a", OK, tt)], (lit "t/a"), (skipn 3 (report_text (fun _ : unit => lit "7") [(lit "t/a", OK, tt)])). split; [unfold demo_g; exact K1|]. split; [|split; [vm_compute; reflexivity|split; [vm_compute; reflexivity|]]].
  - intros n r d [EQ|[]]. injection EQ as <- <- <-. split; [now left|]. split; [|reflexivity]. rewrite K2. f_equal.
  - intros p N. unfold demo_h, demo_half in N. rewrite !lookup_write in N. destruct (str_eqb_spec (path_join demo_O (lit "cases.txt")) p) as [Y|_]; [rewrite <- Y; left; right; right; now left|].
    assert (NB : lit "t/b" <> lit "t/a") by discriminate.
    right. exists (lit "t/b"). split; [right; now left|]. split; [rewrite (K3 _ NB); intros [oc X]; discriminate X|]. split.
    { intros d Hd _. assert (d = lit "t/a") as -> by (vm_compute in Hd; destruct Hd as [<-|[]]; reflexivity). eexists. exact K2. }
    left. destruct (str_eqb_spec (lit "books/.out/t/b.md") p) as [Y|_]; [rewrite <- Y; right; right; now left|].
    destruct (str_eqb_spec (lit "books/.out/t/b/part") p) as [Y|_]; [rewrite <- Y; left; vm_compute; reflexivity|contradiction].
Qed.
Example C134_example : lookup (lit "books/.out/t/b.md") demo_h = Some (lit "t/") /\
  tries ascii_class no_float demo_E demo_O demo_using (fun _ : unit => lit "7") (fun _ => Some tt) (fun c => N.eqb c SP) demo_two demo_deps demo_two (demo_conf false) demo_f0 true demo_h /\
  exists g, demo_continued demo_two demo_h = Some (Ret (DIFF, [(lit "t/a", OK, tt); (lit "t/b", DIFF, tt)], []) g) /\
    lookup (lit "books/.out/t/b.md") g = Some (lit "t/a" ++ [NL]) /\ lookup (lit "books/.out/t/b/part") g = None.
Proof.
  split; [vm_compute; reflexivity|]. split; [apply first_try; right; do 3 eexists; exact demo_par_down|]. eexists. split; [vm_compute; reflexivity|]. split; vm_compute; reflexivity.
Qed.
