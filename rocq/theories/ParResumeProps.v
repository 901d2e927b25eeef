(** C132: a parallel run that was not finished, continued with -c. *)
From Verif Require Import PyStrFacts FsFacts CaseRunProps RunCaseProps ReportsProofs RunnerProofs ReviewProofs ParResumeProofs.
From Verif Require Export ParStopProps.
From Coq Require Import Permutation.

Lemma reviews_batch c res a done lf : batch c -> reviews c res a done lf -> forall n r, In (n, r) done -> r = NONE.
Proof.
  intros [B1 B2] H. induction H as [|a n r z done lf RW _ _ IH]; intros m q Hm; [destruct Hm|]. destruct Hm as [X|Hm]; [|now apply (IH m)].
  injection X as <- <-. destruct RW as [[AK _]|(_ & X & _)]; [|exact X]. destruct AK as [AK|[_ AK]]; congruence.
Qed.

Definition pending_again {D} (old : list (case_rec D)) (i : str) : bool := match by_name i old with r :: _ => negb (is_ok (rec_result r)) | [] => true end.
Lemma todo_filter {D} (old : list (case_rec D)) cases : snd (done_and_todo old cases) = filter (pending_again old) cases.
Proof.
  induction cases as [|i cases IH]; [reflexivity|]. cbn [done_and_todo filter]. unfold pending_again at 1. destruct (done_and_todo old cases) as [d t]. cbn [snd] in IH.
  destruct (by_name i old) as [|r l]; [cbn [snd]; now rewrite IH|]. destruct (is_ok (rec_result r)); cbn [negb snd]; now rewrite IH.
Qed.
Lemma filter_within (k1 k2 : str -> bool) sel : (forall n, In n sel -> k2 n = true -> k1 n = true) -> filter (fun n => str_mem n (filter k2 sel)) (filter k1 sel) = filter k2 sel.
Proof.
  intros H. transitivity (filter k2 (filter k1 sel)).
  - apply filter_ext_in. intros n Hn. apply filter_In in Hn as [Hn _]. destruct (k2 n) eqn:E2.
    + apply str_mem_In. apply filter_In. auto.
    + destruct (str_mem n (filter k2 sel)) eqn:EM; [|reflexivity]. apply str_mem_In in EM. apply filter_In in EM as [_ X]. congruence.
  - clear -H. induction sel as [|n sel IH]; [reflexivity|]. cbn [filter]. assert (IH' := IH (fun m Hm => H m (or_intror Hm))). destruct (k1 n) eqn:E1; cbn [filter]; destruct (k2 n) eqn:E2; rewrite ?IH'; auto.
    pose proof (H n (or_introl eq_refl) E2). congruence.
Qed.
Lemma fold_skip (k : str * result -> bool) rs : (forall x, In x rs -> k x = false -> snd x = OK) -> forall rv, fold_left add_result (map snd (filter k rs)) rv = fold_left add_result (map snd rs) rv.
Proof.
  induction rs as [|x rs IH]; intros H rv; [reflexivity|]. cbn [filter map fold_left]. destruct (k x) eqn:K.
  - cbn [map fold_left]. apply IH. intros y Hy. apply H. now right.
  - rewrite (H x (or_introl eq_refl) K). cbn [add_result]. apply IH. intros y Hy. apply H. now right.
Qed.

(** A run without questions that was interrupted with Ctrl-C or stopped by fail-fast, and was then continued with -c: both together
    have the results of one run to the end, and leave its files. *)
Theorem C132_continuing_finishes :
  forall cc refloat E o c body (D : Type) (show_dur : D -> str) parse_dur sp durS durP dur2 all_names printed metrics_of metricsS metricsP metrics2 names deps
    selected answersS answers answers2 f rv recs rest g,
  plain_dir E -> plain o -> starts_with [DOT] o = true -> let O := E ++ SLASH :: o in
  batch c -> update c = false -> accept c = false -> durations_ok show_dur parse_dur -> space_ok sp ->
  separate names -> ~ In (lit "output") names ->
  (forall n, In n names -> field_ok n /\ incl (deps n) names /\ reads_fresh E O deps n (body n)) ->
  NoDup selected -> incl selected names -> deps_first deps selected -> (forall n, In n selected -> ready E O n f) ->
  run_async cc refloat E O O (unattended c) body show_dur parse_dur sp durS all_names metricsS selected answersS f = Some (Ret (rv, recs, rest) g) ->
  forall ctrl_c x, ask_run cc refloat E O c body show_dur parse_dur sp durP all_names printed metrics_of metricsP deps selected answers f ctrl_c x ->
  forall c2, batch c2 -> update c2 = false -> accept c2 = false -> cont c2 = true -> fail_fast c2 = false -> point_error_pos c2 = point_error_pos c ->
  exists code all h recs2 g2, x = Ret (code, all) h /\ (forall n, In n selected -> ready E O n h) /\
    run_async cc refloat E O O c2 body show_dur parse_dur sp dur2 all_names metrics2 selected answers2 h = Some (Ret (rv, recs2, answers2) g2) /\
    (forall n r, (exists d, In (n, r, d) recs2) <-> (exists d, In (n, r, d) recs)) /\
    (forall p, ~ bookkeeping O p -> lookup p g2 = lookup p g).
Proof.
  intros cc refloat E o c body D show_dur parse_dur sp durS durP dur2 all_names printed metrics_of metricsS metricsP metrics2 names deps
    selected answersS answers answers2 f rv recs rest g HE Ho Hdot O HB HU HAC DUR SPC SEP NOUT HN ND INS ORD RD H ctrl_c x X c2 HB2 HU2 HA2 HC2 HF2 HP2.
  assert (HAI : always_interactive c = true -> accept c = false) by auto.
  assert (HN' : forall n, In n names -> field_ok n /\ incl (deps n) names /\ reads_deps E O deps n (body n)).
  { intros n Hn. destruct (HN n Hn) as (A1 & A2 & A3). split; [exact A1|]. split; [exact A2|]. now apply fresh_deps. }
  destruct (C127_asking_in_parallel cc refloat E o c body D show_dur parse_dur sp durS durP all_names printed metrics_of metricsS metricsP names deps
    selected answersS answers f rv recs rest g HE Ho Hdot HU HAI DUR SPC SEP NOUT HN' ND INS ORD RD H) as (res & ER & _ & ALL). fold O in ER, ALL.
  set (todo := par_todo O c parse_dur sp selected f) in *. set (kept0 := par_kept O c parse_dur sp selected f) in *.
  destruct (ALL _ _ X) as (done & lf & lost & pending & started & h & RV & WHY & NDA & IA & IT & _ & F1 & _ & F3 & F4 & CASES). clear ALL X.
  set (new := map (fun d => (fst d, final (res (fst d)) (snd d), durP (fst d))) done ++ map (fun n => (n, res n, durP n)) pending) in *. cbv zeta in WHY.
  pose proof (reviews_batch c res answers done lf HB RV) as RN.
  assert (XR : exists code, x = Ret (code, kept0 ++ new) h).
  { destruct WHY as [(_ & -> & _)|[(_ & -> & _)|(_ & _ & n & _ & AK & _)]]; [eexists; reflexivity|eexists; reflexivity|]. exfalso.
    destruct HB as [B1 B2]. destruct AK as [AK|[_ AK]]; congruence. }
  destruct XR as [code ->]. exists code, (kept0 ++ new), h. clear WHY.
  assert (NFD : forall n, ~ In (n, FREEZE) done) by (intros n Y; specialize (RN _ _ Y); discriminate).
  assert (LOST : forall n p, In n lost -> own E o n p -> lookup p h = lookup p g).
  { intros n p Hn OW. destruct (F3 n Hn) as (g' & [->|(_ & AK & _)] & Y); [now apply Y|]. exfalso. destruct HB as [B1 B2]. destruct AK as [AK|[_ AK]]; congruence. }
  assert (STA : forall n p, In n started -> own E o n p -> lookup p h = lookup p g).
  { intros n p Hn OW. destruct (in_dec (list_eq_dec N.eq_dec) n lost) as [L|L]; [now apply (LOST n)|]. apply (F1 n p (IT n Hn) OW); auto. }
  assert (NST : forall n p, In n todo -> ~ In n started -> own E o n p -> lookup p h = lookup p f) by (intros n p Hn NS OW; now apply (F1 n p Hn OW)).
  (* the records *)
  assert (NEW : map rec_name new = map fst done ++ pending).
  { unfold new. rewrite map_app, !map_map. unfold rec_name. cbn [fst]. now rewrite map_id. }
  assert (INN : incl (map rec_name new) started).
  { rewrite NEW. intros m Hm. apply IA. rewrite !in_app_iff in *. tauto. }
  assert (RES : forall n v d, In (n, v, d) new -> v = res n).
  { intros n v d Hr. unfold new in Hr. apply in_app_iff in Hr as [Hr|Hr]; apply in_map_iff in Hr as (y & EY & Hy).
    - destruct y as [m q]. cbn [fst snd] in EY. rewrite (RN _ _ Hy) in EY. cbn [final] in EY. now injection EY as -> <- _.
    - now injection EY as -> <- _. }
  assert (NOK : names_ok (kept0 ++ new)).
  { apply Forall_app. split.
    - apply Forall_forall. intros r Hr. apply kept_In in Hr as [Hr _]. pose proof (read_names_ok parse_dur sp (lookup (path_join O (lit "cases.txt")) f)) as NK.
      unfold names_ok in NK. rewrite Forall_forall in NK. now apply NK.
    - apply Forall_forall. intros r Hr. apply (in_map rec_name), INN, IT, todo_incl in Hr. apply INS, HN in Hr. now apply Hr. }
  assert (OLD2 : of_file parse_dur sp (lookup (O ++ SLASH :: lit "cases.txt") h) = kept0 ++ new) by (rewrite CASES; now apply of_file_roundtrip).
  set (old := of_file parse_dur sp (lookup (O ++ SLASH :: lit "cases.txt") f)).
  assert (RF : report_file O = O ++ SLASH :: lit "cases.txt") by (apply path_join_name; [now apply HO|reflexivity]).
  assert (TD : todo = snd (cases_to_done_and_todo old (cont c) selected)) by (unfold todo, par_todo; change (path_join O (lit "cases.txt")) with (report_file O); now rewrite RF).
  assert (KP : kept0 = kept old todo) by (unfold kept0, par_kept; change (path_join O (lit "cases.txt")) with (report_file O); now rewrite RF).
  set (todo2 := snd (done_and_todo (kept0 ++ new) selected)).
  assert (SUB : forall n, In n selected -> In n todo2 -> In n todo).
  { intros n Hn H2. destruct (in_dec (list_eq_dec N.eq_dec) n todo) as [I|NI]; [exact I|]. exfalso. assert (NI' := NI). rewrite TD in NI'. destruct (not_todo _ _ _ n Hn NI') as (_ & r & l & EB & EK).
    apply todo_iff in H2 as [_ H2]. apply H2. exists r, l. split; [|exact EK]. rewrite by_name_app, KP, by_name_kept by exact NI. rewrite EB.
    replace (by_name n new) with (@nil (case_rec D)) by (symmetry; apply by_name_none; intros Y; apply INN in Y; now apply IT in Y). now rewrite app_nil_r. }
  assert (SKIP : forall n, In n todo -> ~ In n todo2 -> In n started /\ res n = OK /\ In (n, OK, durP n) new).
  { intros n Hn N2. assert (Hs : In n selected) by (rewrite TD in Hn; now apply todo_incl in Hn). destruct (not_todo (kept0 ++ new) true selected n Hs N2) as (_ & r & l & EB & EK).
    assert (Hr : In r (by_name n (kept0 ++ new))) by (rewrite EB; now left). apply by_name_In in Hr as [Hr EN]. destruct r as [[m v] d]. unfold rec_name, rec_result in EN, EK. cbn [fst snd] in EN, EK. subst m v.
    apply in_app_iff in Hr as [Hr|Hr]; [exfalso; rewrite KP in Hr; apply kept_In in Hr as [_ Hr]; now apply Hr|].
    pose proof (RES _ _ _ Hr) as EQ. split; [|split; [now symmetry|]].
    - apply INN. now apply (in_map rec_name) in Hr.
    - replace (durP n) with d; [exact Hr|]. unfold new in Hr. apply in_app_iff in Hr as [Hr|Hr]; apply in_map_iff in Hr as (y & EY & Hy); [destruct y; cbn [fst snd] in EY|]; injection EY as -> _ <-; reflexivity. }
  set (keep := fun n => str_mem n todo2).
  assert (KEEP : filter keep todo = todo2).
  { rewrite TD. unfold keep, todo2. rewrite todo_filter. destruct (cont c) eqn:CC; cbn [cases_to_done_and_todo snd].
    - rewrite todo_filter. apply filter_within. intros n Hn K2. assert (I : In n todo) by (apply SUB; [exact Hn|]; unfold todo2; rewrite todo_filter; now apply filter_In).
      rewrite TD in I. cbn [cases_to_done_and_todo] in I. rewrite todo_filter in I. now apply filter_In in I.
    - pose proof (filter_within (fun _ => true) (pending_again (kept0 ++ new)) selected (fun _ _ _ => eq_refl)) as Y.
      replace (filter (fun _ : str => true) selected) with selected in Y by (clear; induction selected as [|n s IH]; [reflexivity|]; cbn [filter]; now rewrite <- IH). exact Y. }
  assert (KI : forall n, keep n = true <-> In n todo2) by (intros n; apply str_mem_In).
  (* the first run *)
  unfold run_async in H. rewrite RF in H. fold old in H. change (cont (unattended c)) with (cont c) in H. rewrite <- TD in H. rewrite <- KP in H.
  destruct (run_todo _ _ _ _ _ _ _ _ _ _ _ _ _ _ _) as [[[[rv0 recs0] rest0] g0|g0]|] eqn:RT in H; [|discriminate|discriminate]. cbn [run_bind] in H. injection H as -> -> -> <-.
  set (f1 := write_file (O ++ SLASH :: lit "cases.txt") (report_text show_dur kept0) f) in *.
  set (h1 := write_file (O ++ SLASH :: lit "cases.txt") (report_text show_dur (kept (kept0 ++ new) todo2)) h).
  assert (BC : booked E o (O ++ SLASH :: lit "cases.txt")) by (left; right; now left).
  assert (ME : path_join O (lit "metrics.json") = O ++ SLASH :: lit "metrics.json") by now apply metrics_eq.
  assert (IE : path_join E (lit "index.md") = E ++ SLASH :: lit "index.md") by now apply index_eq.
  assert (W1 : forall p, ~ booked E o p -> lookup p f1 = lookup p f) by (intros p N; now apply (write_booked E o)).
  assert (W2 : forall p, ~ booked E o p -> lookup p h1 = lookup p h) by (intros p N; now apply (write_booked E o)).
  assert (WM : forall m k p, ~ booked E o p -> lookup p (write_file (path_join E (lit "index.md")) (index_text all_names) (write_file (path_join O (lit "metrics.json")) m k)) = lookup p k).
  { intros m k p N. rewrite IE, ME. rewrite (write_booked E o) by (exact N || apply booked_index). apply (write_booked E o); [apply booked_metrics|exact N]. }
  set (g := write_file (path_join E (lit "index.md")) _ _) in *.
  assert (WG : forall p, ~ booked E o p -> lookup p g = lookup p g0) by (intros p N; now apply WM).
  assert (INT : incl todo selected) by (rewrite TD; intros n Hn; now apply todo_incl in Hn).
  assert (NBO : forall n p, In n todo -> own E o n p -> ~ booked E o p) by (intros n p Hn; apply (no_nb E o Hdot names SEP NOUT n p); auto).
  assert (NBS : forall n p, In n selected -> own E o n p -> ~ booked E o p) by (intros n p Hn; apply (no_nb E o Hdot names SEP NOUT n p); auto).
  assert (Hdeps : forall n, In n names -> incl (deps n) names) by (intros n Hn; apply HN; exact Hn).
  assert (Hbody : forall n, In n names -> reads_fresh E O deps n (body n)) by (intros n Hn; apply HN; exact Hn).
  assert (AU : forall v, auto (unattended c) v = false) by (intros []; cbn [auto unattended update accept]; auto).
  assert (AU2 : forall v, auto c2 v = false) by (intros []; cbn [auto]; auto).
  assert (NDT : NoDup todo) by (rewrite TD; now apply todo_NoDup). assert (ORT : deps_first deps todo) by (rewrite TD; now apply todo_deps_first).
  assert (RD1 : forall n, In n selected -> ready E O n f1).
  { intros n Hn. apply (ready_local E o n f); [|now apply RD]. intros p OW. symmetry. now apply W1, (NBS n). }
  (* the tests are ready again *)
  assert (BATCH : batch (unattended c)) by (split; reflexivity).
  assert (NAMES : incl todo names) by (intros n Hn; now apply INS, INT).
  destruct (parallel_sim cc refloat E o (unattended c) body D show_dur parse_dur sp durS durP all_names printed metrics_of metricsS names deps
    selected answersS f rv recs rest g HE Ho Hdot BATCH HU eq_refl SEP NOUT HN' ND INS ORD RD) as (resP & gl & _ & _ & _ & _ & RS & _).
  { unfold run_async. fold O. rewrite RF. fold old. change (cont (unattended c)) with (cont c). rewrite <- TD, <- KP. fold f1. rewrite RT. reflexivity. }
  assert (RDH : forall n, In n selected -> ready E O n h).
  { intros n Hn. destruct (in_dec (list_eq_dec N.eq_dec) n started) as [S1|S1].
    - apply (ready_local E o n g); [intros p OW; symmetry; now apply (STA n)|]. apply (RS n). exact (IT n S1).
    - destruct (in_dec (list_eq_dec N.eq_dec) n todo) as [T1|T1].
      + apply (ready_local E o n f); [intros p OW; symmetry; now apply (NST n)|now apply RD].
      + apply (ready_local E o n f); [|now apply RD]. intros p OW. symmetry. apply F4.
        * intros Y. apply (NBS n p Hn OW). now left.
        * intros Y. apply (NBS n p Hn OW). now right.
        * intros m Hm Z. apply T1. replace n with m; [exact Hm|]. apply (own_disjoint E o Hdot names m n p); auto. }
  destruct (resume_todo cc refloat E o HE Ho Hdot (unattended c) c2 BATCH HB2 AU AU2 eq_refl HF2 HP2 body show_dur durS dur2 names deps SEP NOUT Hdeps Hbody
    keep todo NAMES NDT ORT OK false kept0 answersS f1 rv recs rest g0 OK false (kept (kept0 ++ new) todo2) answers2 h1 RT) as (rs & g2 & M & ER2 & EV & RT2 & OWN & REST).
  { intros n Hn. split; [now apply RD1, INT|]. apply (ready_local E o n h); [intros p OW; symmetry; now apply W2, (NBO n)|now apply RDH, INT]. }
  { (* the snapshots are still the same *)
    intros n p Hn _ Hp. assert (NB : ~ booked E o p) by (apply (NBO n p Hn); now left). rewrite W1, W2 by exact NB.
    destruct (in_dec (list_eq_dec N.eq_dec) n started) as [S1|S1]; [|symmetry; apply (NST n p Hn S1); now left].
    rewrite (STA n p S1) by now left. rewrite WG by exact NB. rewrite <- (W1 p NB). symmetry.
    refine (snapshots_stay cc refloat E o HE Ho Hdot (unattended c) BATCH AU eq_refl body show_dur durS names SEP todo NAMES NDT _ _ _ _ f1 _ g0 _ RT n p _ Hp); auto. }
  { intros n Hn _ _. assert (NB : ~ booked E o (O ++ SLASH :: n ++ lit ".bin")) by (apply (NBO n _ Hn), bin_own). rewrite W1, W2 by exact NB.
    destruct (in_dec (list_eq_dec N.eq_dec) n started) as [S1|S1]; [right|left; apply (NST n _ Hn S1), bin_own].
    rewrite (STA n _ S1) by apply bin_own. now apply WG. }
  { intros n p Hn K OW. assert (NB : ~ booked E o p) by (apply (NBO n p Hn OW)). rewrite W2 by exact NB.
    destruct (SKIP n Hn) as [S1 _]; [intros Y; apply KI in Y; congruence|]. rewrite (STA n p S1 OW). now apply WG. }
  { intros n Hn NI. assert (NB : ~ booked E o (O ++ SLASH :: n ++ lit ".bin")) by (apply (no_nb E o Hdot names SEP NOUT n _ Hn), bin_own). rewrite W1, W2 by exact NB. symmetry. apply F4.
    - intros Y. apply NB. now left.
    - intros Y. apply NB. now right.
    - intros m Hm Z. apply NI. replace n with m; [exact Hm|]. apply (own_disjoint E o Hdot names m n (O ++ SLASH :: n ++ lit ".bin")); auto. apply bin_own. }
  assert (RSR : forall m v, In (m, v) rs -> In m todo /\ v = res m).
  { intros m v Hm. assert (I : In m todo) by (rewrite <- M; now apply (in_map fst) in Hm). split; [exact I|].
    assert (K : In (m, v, durS m) (map (fun n => (n, res n, durS n)) todo)).
    { rewrite ER2 in ER. apply app_inv_head in ER. rewrite <- ER. unfold runs_of. apply in_map_iff. now exists (m, v). }
    apply in_map_iff in K as (y & EY & _). now injection EY as -> <- _. }
  rewrite KEEP in RT2. rewrite fold_skip in RT2.
  2:{ intros [m v] Hm K. cbn [fst snd] in *. destruct (RSR m v Hm) as [I ->]. destruct (SKIP m I) as (_ & Y & _); [intros Y; apply KI in Y; congruence|exact Y]. }
  rewrite <- EV in RT2. set (rs2 := filter (fun y => keep (fst y)) rs) in *.
  exists (kept (kept0 ++ new) todo2 ++ runs_of rs2 dur2), (write_file (path_join E (lit "index.md")) (index_text all_names) (write_file (path_join O (lit "metrics.json")) metrics2 g2)).
  split; [reflexivity|]. split; [exact RDH|]. split; [|split].
  - unfold run_async. rewrite RF, OLD2, HC2. cbn [cases_to_done_and_todo]. fold todo2. fold h1. fold O in RT2. rewrite RT2. reflexivity.
  - assert (RS2 : forall n v, (exists d, In (n, v, d) (runs_of rs2 dur2)) <-> In n todo2 /\ v = res n).
    { intros n v. unfold runs_of. split.
      - intros [d Y]. apply in_map_iff in Y as ([m q] & EY & Y). cbn [fst snd] in EY. injection EY as -> -> _. apply filter_In in Y as [Y K]. cbn [fst] in K. apply KI in K. split; [exact K|]. now apply RSR.
      - intros [Y ->]. exists (dur2 n). apply in_map_iff. exists (n, res n). split; [reflexivity|]. apply filter_In. split; [|now apply KI].
        assert (I : In n (map fst rs)) by (rewrite M, <- KEEP in *; now apply filter_In in Y). apply in_map_iff in I as ([m q] & EM & I). cbn [fst] in EM. subst m. now rewrite <- (proj2 (RSR n q I)). }
    intros n v. rewrite ER. split; intros [d Y]; apply in_app_iff in Y as [Y|Y].
    + apply kept_In in Y as [Y N2]. unfold rec_name in N2. cbn [fst] in N2. apply in_app_iff in Y as [Y|Y]; [exists d; apply in_or_app; now left|].
      exists (durS n). apply in_or_app. right. rewrite (RES _ _ _ Y). apply in_map_iff. exists n. split; [reflexivity|]. apply IT, INN. now apply (in_map rec_name) in Y.
    + destruct (proj1 (RS2 n v) (ex_intro _ d Y)) as [N2 ->]. exists (durS n). apply in_or_app. right. apply in_map_iff. exists n. split; [reflexivity|]. rewrite <- KEEP in N2. now apply filter_In in N2.
    + assert (NT : ~ In n todo) by (rewrite KP in Y; apply kept_In in Y as [_ Y]; exact Y). exists d. apply in_or_app. left. apply kept_In. split; [apply in_or_app; now left|]. unfold rec_name. cbn [fst].
      intros N2. apply NT. rewrite <- KEEP in N2. now apply filter_In in N2.
    + apply in_map_iff in Y as (m & EY & Y). injection EY as -> <- _. destruct (in_dec (list_eq_dec N.eq_dec) n todo2) as [N2|N2].
      * destruct (proj2 (RS2 n (res n)) (conj N2 eq_refl)) as [d' Z]. exists d'. apply in_or_app. now right.
      * destruct (SKIP n Y N2) as (_ & -> & Z). exists (durP n). apply in_or_app. left. apply kept_In. split; [apply in_or_app; now right|exact N2].
  - intros p NB. destruct (list_eq_dec N.eq_dec p (E ++ SLASH :: lit "index.md")) as [->|NI].
    + unfold g. rewrite IE, !lookup_write, !str_eqb_refl. reflexivity.
    + assert (NBK : ~ booked E o p) by (intros [Y|Y]; contradiction). rewrite WM, WG by exact NBK. destruct (some_own E o todo p) as [(n & Hn & OW)|NO]; [now apply (OWN n)|].
      destruct (REST p NBK NO) as [-> ->]. rewrite W1, W2 by exact NBK. now apply F4.
Qed.
Print Assumptions C132_continuing_finishes.

(** the same when the tests that are left run in parallel again *)
Theorem C132_continuing_in_parallel :
  forall cc refloat E o c body (D : Type) (show_dur : D -> str) parse_dur sp durS durP dur2 all_names printed metrics_of metricsS metricsP metrics2 names deps
    selected answersS answers f rv recs rest g,
  plain_dir E -> plain o -> starts_with [DOT] o = true -> let O := E ++ SLASH :: o in
  batch c -> update c = false -> accept c = false -> durations_ok show_dur parse_dur -> space_ok sp ->
  separate names -> ~ In (lit "output") names ->
  (forall n, In n names -> field_ok n /\ incl (deps n) names /\ reads_fresh E O deps n (body n)) ->
  NoDup selected -> incl selected names -> deps_first deps selected -> (forall n, In n selected -> ready E O n f) ->
  run_async cc refloat E O O (unattended c) body show_dur parse_dur sp durS all_names metricsS selected answersS f = Some (Ret (rv, recs, rest) g) ->
  forall ctrl_c x, ask_run cc refloat E O c body show_dur parse_dur sp durP all_names printed metrics_of metricsP deps selected answers f ctrl_c x ->
  forall c2, batch c2 -> update c2 = false -> accept c2 = false -> cont c2 = true -> fail_fast c2 = false -> point_error_pos c2 = point_error_pos c ->
  exists code all h, x = Ret (code, all) h /\
    forall x2, parallel_run cc refloat E O c2 body show_dur parse_dur sp dur2 all_names printed metrics_of metrics2 deps selected h x2 ->
    exists recs2 g2, x2 = Ret (is_ok rv, recs2) g2 /\
      (forall n r, (exists d, In (n, r, d) recs2) <-> (exists d, In (n, r, d) recs)) /\
      (forall p, ~ bookkeeping O p -> lookup p g2 = lookup p g).
Proof.
  intros cc refloat E o c body D show_dur parse_dur sp durS durP dur2 all_names printed metrics_of metricsS metricsP metrics2 names deps
    selected answersS answers f rv recs rest g HE Ho Hdot O HB HU HAC DUR SPC SEP NOUT HN ND INS ORD RD H ctrl_c x X c2 HB2 HU2 HA2 HC2 HF2 HP2.
  destruct (C132_continuing_finishes cc refloat E o c body D show_dur parse_dur sp durS durP dur2 all_names printed metrics_of metricsS metricsP metrics2 names deps
    selected answersS answers [] f rv recs rest g HE Ho Hdot HB HU HAC DUR SPC SEP NOUT HN ND INS ORD RD H ctrl_c x X c2 HB2 HU2 HA2 HC2 HF2 HP2) as (code & all & h & recs2 & g2 & EX & RDH & R2 & SAME & FILES).
  exists code, all, h. split; [exact EX|]. intros x2 X2.
  assert (HN' : forall n, In n names -> field_ok n /\ incl (deps n) names /\ reads_deps E O deps n (body n)).
  { intros n Hn. destruct (HN n Hn) as (A1 & A2 & A3). split; [exact A1|]. split; [exact A2|]. now apply fresh_deps. }
  destruct (C82_parallel_like_sequential cc refloat E o c2 body D show_dur parse_dur sp dur2 dur2 all_names printed metrics_of metrics2 metrics2 names deps
    selected [] h rv recs2 [] g2 HE Ho Hdot HB2 HU2 HF2 DUR SPC SEP NOUT HN' ND INS ORD RDH R2 x2 X2) as (recs3 & g3 & EX2 & PERM & _ & FILES3).
  exists recs3, g3. split; [exact EX2|]. split.
  - intros n r. rewrite <- SAME.
    assert (K : forall l, (exists d, In (n, r, d) l) <-> In (n, r) (map (fun q : case_rec D => (rec_name q, rec_result q)) l)).
    { intros l. rewrite in_map_iff. split.
      - intros [d Y]. now exists (n, r, d).
      - intros ([[m q] d] & EQ & Y). unfold rec_name, rec_result in EQ. cbn [fst snd] in EQ. injection EQ as -> ->. now exists d. }
    rewrite !K. split; intros Y; [apply Permutation_in with (2 := Y), Permutation_sym, PERM|apply Permutation_in with (2 := Y), PERM].
  - intros p NB. rewrite FILES3 by exact NB. now apply FILES.
Qed.
Print Assumptions C132_continuing_in_parallel.

(** The demo project: Ctrl-C when the first test has been reviewed and the second has not been started. *)
Definition demo_again : config :=
  {| always_interactive := false; interactive := false; update := false; accept := false; cont := true; fail_fast := false; point_error_pos := point_error_pos (demo_conf false) |}.
Lemma demo_fresh n : In n demo_two -> field_ok n /\ incl (demo_deps n) demo_two /\ reads_fresh demo_E demo_O demo_deps n (demo_using n).
Proof.
  intros Hn. destruct (demo_tests n Hn) as (A1 & A2 & _). split; [exact A1|]. split; [exact A2|]. destruct Hn as [<-|[<-|[]]]; intros f g _ H; [reflexivity|].
  specialize (H (lit "t/a") (or_introl eq_refl)). unfold demo_using. cbn [str_eqb]. change (lookup (lit "books/.out/t/a.bin") f = lookup (lit "books/.out/t/a.bin") g) in H. now rewrite H.
Qed.
Notation demo_batch ctrl_c x :=
  (ask_run ascii_class no_float demo_E demo_O (demo_conf false) demo_using (fun _ : unit => lit "7") (fun _ => Some tt) (fun c => N.eqb c SP) (fun _ => tt) demo_two
    (fun n => n) (fun n => n) (lit "{}") demo_deps demo_two [] demo_f0 ctrl_c x).
Lemma demo_cut : exists h, demo_batch true (Ret (true, [(lit "t/a", OK, tt)]) h) /\
  lookup (path_join demo_O (lit "cases.txt")) h = Some (report_text (fun _ : unit => lit "7") [(lit "t/a", OK, tt)]).
Proof.
  pose (c := demo_conf false). pose (pd := fun _ : str => Some tt). pose (sd := fun _ : unit => lit "7"). pose (spc := fun k => N.eqb k SP).
  pose (w := worker ascii_class no_float demo_E demo_O c demo_using sd pd spc (fun _ => tt) demo_two (fun n => n) (fun n => n)).
  pose (f0 := par_prepare demo_O c sd pd spc demo_two demo_f0).
  destruct (turn demo_E demo_O c pd spc demo_two (lit "{}") demo_deps demo_two w [] f0 [] [] [] true [] (lit "t/a") (w (lit "t/a")) (lit "t/a", OK, tt)) as (st1 & E1 & S1 & T1).
  { now left. }
  { intros []. }
  { intros []. }
  { intros d Hd. vm_compute in Hd. destruct Hd. }
  { reflexivity. }
  { vm_compute. reflexivity. }
  set (f1 := fst (solo (ask_proc _ _ _ _ _ _) _)) in T1.
  set (o1 := snd (solo (ask_proc _ _ _ _ _ _) _)) in T1. assert (O1 : o1 = Value (OK, NONE, [])) by (vm_compute; reflexivity). rewrite O1 in T1.
  eexists. split.
  - do 2 eexists. split; [eapply steps_trans; [exact T1|]; eapply steps_trans; [apply steps_one, KReviewed|]; eapply steps_trans; [apply steps_one, (KInterrupt _ _ _ _ _ _ _ _ _ _ _ _ _ _ _ _ _ _ _ _ [lit "t/b"])|]; [constructor; [intros []|constructor]| |]|].
    + intros n. split.
      * intros [<-|[]]. split; [right; now left|]. intros [X|[]]; discriminate X.
      * intros [X Y]. destruct X as [<-|[<-|[]]]; [elim Y; now left|now left].
    + apply steps_one, KLeave. now left.
    + cbn [k_end k_sched k_st k_cut k_fs k_ok k_recs]. split; [reflexivity|]. split; [|split; reflexivity]. intros n [<-|[]]. exact E1.
  - cbn [k_fs]. rewrite lookup_write, str_eqb_refl. reflexivity.
Qed.

(** -c runs the second test, which uses the value of the first, and finds the difference that an uninterrupted run finds *)
Example C132_example : exists h, demo_batch true (Ret (true, [(lit "t/a", OK, tt)]) h) /\
  par_todo demo_O demo_again (fun _ => Some tt) (fun c => N.eqb c SP) demo_two h = [lit "t/b"] /\
  exists recs2 g2, run_async ascii_class no_float demo_E demo_O demo_O demo_again demo_using (fun _ : unit => lit "7") (fun _ => Some tt) (fun c => N.eqb c SP) (fun _ => tt) demo_two (lit "{}") demo_two [] h
    = Some (Ret (DIFF, recs2, []) g2) /\ (exists d, In (lit "t/a", OK, d) recs2) /\ (exists d, In (lit "t/b", DIFF, d) recs2) /\ lookup (lit "books/.out/t/b.md") g2 = Some (lit "t/a" ++ [NL]).
Proof.
  destruct demo_cut as (h & A & L). exists h. split; [exact A|]. split; [unfold par_todo; rewrite L; vm_compute; reflexivity|].
  assert (S : exists recs rest g, run_async ascii_class no_float demo_E demo_O demo_O (unattended (demo_conf false)) demo_using (fun _ : unit => lit "7") (fun _ => Some tt) (fun c => N.eqb c SP)
      (fun _ => tt) demo_two (lit "{}") demo_two [] demo_f0 = Some (Ret (DIFF, recs, rest) g) /\ In (lit "t/a", OK, tt) recs /\ In (lit "t/b", DIFF, tt) recs /\ lookup (lit "books/.out/t/b.md") g = Some (lit "t/a" ++ [NL])).
  { do 3 eexists. split; [vm_compute; reflexivity|]. split; [now left|]. split; [right; now left|]. vm_compute. reflexivity. }
  destruct S as (recs & rest & g & S & R1 & R2 & LG).
  destruct (C132_continuing_finishes ascii_class no_float demo_E demo_o (demo_conf false) demo_using unit (fun _ : unit => lit "7") (fun _ => Some tt) (fun c => N.eqb c SP)
    (fun _ => tt) (fun _ => tt) (fun _ => tt) demo_two (fun n => n) (fun n => n) (lit "{}") (lit "{}") (lit "{}") demo_two demo_deps demo_two [] [] [] demo_f0 DIFF recs rest g
    (proj1 demo_dirs) (proj1 (proj2 demo_dirs)) eq_refl (demo_conf_batch false) eq_refl eq_refl demo_durations demo_space
    demo_separate demo_not_output demo_fresh demo_NoDup (incl_refl _) demo_first demo_ready S true _ A demo_again (conj eq_refl eq_refl) eq_refl eq_refl eq_refl eq_refl eq_refl)
    as (code & all & h' & recs2 & g2 & EX & _ & RUN & SAME & FILES).
  injection EX as _ _ <-. exists recs2, g2. split; [exact RUN|]. split; [apply SAME; now exists tt|]. split; [apply SAME; now exists tt|].
  rewrite FILES; [exact LG|]. intros [[X|[r X]]|[X|[X|[X|[]]]]]; discriminate X.
Qed.
