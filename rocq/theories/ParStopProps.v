(** C130, C131: what the exit status and the report of a parallel run tell, however the run ended. *)
From Verif Require Import PyStrFacts FsFacts CaseRunProps RunCaseProps ReportsProofs RunnerProofs ReviewProofs.
From Verif Require Export ParAskProps.

Section Records.
Context {D : Type}.
Implicit Types old all : list (case_rec D).

Lemma not_todo old k cases n : In n cases -> ~ In n (snd (cases_to_done_and_todo old k cases)) -> k = true /\ exists r l, by_name n old = r :: l /\ rec_result r = OK.
Proof.
  unfold cases_to_done_and_todo. destruct k; [|cbn [snd]; now intros H1 H2]. intros H1 H2. split; [reflexivity|]. destruct (by_name n old) as [|r l] eqn:EB.
  - elim H2. apply todo_iff. split; [exact H1|]. rewrite EB. now intros (? & ? & X & _).
  - exists r, l. split; [reflexivity|]. destruct (rec_result r) eqn:ER; [reflexivity| |]; elim H2; apply todo_iff; (split; [exact H1|]);
      intros (r' & l' & X & Y); rewrite EB in X; injection X as -> ->; congruence.
Qed.

Lemma by_name_app n (a b : list (case_rec D)) : by_name n (a ++ b) = by_name n a ++ by_name n b.
Proof. unfold by_name. apply filter_app. Qed.
Lemma by_name_none n (l : list (case_rec D)) : ~ In n (map rec_name l) -> by_name n l = [].
Proof.
  intros H. destruct (by_name n l) as [|r k] eqn:E; [reflexivity|]. exfalso. apply H.
  assert (X : In r (by_name n l)) by (rewrite E; now left). apply by_name_In in X as [X <-]. now apply in_map.
Qed.
Lemma by_name_kept n old todo : ~ In n todo -> by_name n (kept old todo) = by_name n old.
Proof.
  intros H. unfold by_name, kept. induction old as [|r old IH]; [reflexivity|]. cbn [filter]. destruct (str_mem (rec_name r) todo) eqn:EM; cbn [negb filter]; [|now rewrite IH].
  destruct (str_eqb_spec (rec_name r) n) as [EN|_]; [|exact IH]. apply str_mem_In in EM. rewrite EN in EM. contradiction.
Qed.
Lemma by_name_one n (l : list (case_rec D)) r : NoDup (map rec_name l) -> In r l -> rec_name r = n -> by_name n l = [r].
Proof.
  intros ND H EN. unfold by_name. induction l as [|a l IH]; [destruct H|]. cbn [map] in ND. apply NoDup_cons_iff in ND as [N1 N2]. cbn [filter]. destruct H as [->|H].
  - destruct (str_eqb_spec (rec_name r) n) as [_|X]; [|contradiction]. f_equal. apply (by_name_none n l). now rewrite <- EN.
  - destruct (str_eqb_spec (rec_name a) n) as [X|_]; [|auto]. elim N1. rewrite X, <- EN. now apply in_map.
Qed.
End Records.

(** Status 0 of a parallel run without -I that was not interrupted: every selected test is recorded as OK. *)
Theorem C130_status_of_stopped_runs_partial :
  forall cc refloat E o c body (D : Type) (show_dur : D -> str) parse_dur sp durS durP all_names printed metrics_of metricsS metricsP names deps
    selected answersS answers f rv recs rest g,
  plain_dir E -> plain o -> starts_with [DOT] o = true -> let O := E ++ SLASH :: o in
  update c = false -> always_interactive c = false -> durations_ok show_dur parse_dur -> space_ok sp ->
  separate names -> ~ In (lit "output") names ->
  (forall n, In n names -> field_ok n /\ incl (deps n) names /\ reads_deps E O deps n (body n)) ->
  NoDup selected -> incl selected names -> deps_first deps selected -> (forall n, In n selected -> ready E O n f) ->
  run_async cc refloat E O O (unattended c) body show_dur parse_dur sp durS all_names metricsS selected answersS f = Some (Ret (rv, recs, rest) g) ->
  forall all h, ask_run cc refloat E O c body show_dur parse_dur sp durP all_names printed metrics_of metricsP deps selected answers f false (Ret (true, all) h) ->
  forall n, In n selected -> exists d, In (n, OK, d) all.
Proof.
  intros cc refloat E o c body D show_dur parse_dur sp durS durP all_names printed metrics_of metricsS metricsP names deps
    selected answersS answers f rv recs rest g HE Ho Hdot O HU HAI DUR SPC SEP NOUT HN ND INS ORD RD H all h X n Hn.
  assert (HAA : always_interactive c = true -> accept c = false) by (rewrite HAI; discriminate).
  destruct (C127_asking_in_parallel cc refloat E o c body D show_dur parse_dur sp durS durP all_names printed metrics_of metricsS metricsP names deps
    selected answersS answers f rv recs rest g HE Ho Hdot HU HAA DUR SPC SEP NOUT HN ND INS ORD RD H) as (res & _ & _ & ALL). fold O in ALL.
  destruct (ALL _ _ X) as (done & left & lost & pending & started & h' & RV & WHY & _).
  destruct WHY as [(_ & EX & _ & WHY)|[(Y & _)|(_ & Y & _)]]; [|discriminate Y|discriminate Y]. injection EX as EC EA _. subst all.
  symmetry in EC. rewrite forallb_forall in EC.
  assert (OKS : forall m r, In (m, r) done -> final (res m) r = OK).
  { intros m r Hm. specialize (EC _ Hm). cbn [fst snd] in EC. now apply ok_iff in EC. }
  assert (AB : forall m r, In (m, r) done -> r <> ABORT).
  { clear -RV OKS HAI. revert OKS. induction RV as [|a m r z done left RW _ _ IH]; intros OKS m' r' Hm; [destruct Hm|]. destruct Hm as [Y|Hm].
    - injection Y as <- <-. intros ->. specialize (OKS m ABORT (or_introl eq_refl)). cbn [final] in OKS. destruct RW as [[AK _]|(_ & Y & _)].
      + destruct AK as [AK|[AK _]]; congruence.
      + discriminate Y.
    - apply (IH (fun a b Hab => OKS a b (or_intror Hab)) m' r' Hm). }
  destruct WHY as [(m & r & Hm & [Y|[_ Y]])|[-> FIN]].
  - elim (AB m r Hm Y).
  - elim Y. exact (OKS m r Hm).
  - destruct (in_dec (list_eq_dec N.eq_dec) n (par_todo O c parse_dur sp selected f)) as [I|NI].
    + apply FIN in I. apply in_map_iff in I as ([m r] & EM & Hm). cbn [fst] in EM. subst m. exists (durP n). apply in_or_app. right. apply in_or_app. left.
      apply in_map_iff. exists (n, r). cbn [fst snd]. split; [now rewrite (OKS n r Hm)|exact Hm].
    + destruct (not_todo _ _ _ n Hn NI) as (_ & r & l & EB & ER). set (old := of_file _ _ _) in EB. assert (I : In r (by_name n old)) by (rewrite EB; now left). apply by_name_In in I as [I EN].
      destruct r as [[m v] d]. cbn [rec_name rec_result fst snd] in EN, ER. subst m v. exists d. apply in_or_app. left. unfold par_kept. apply kept_In. split; [exact I|exact NI].
Qed.
Print Assumptions C130_status_of_stopped_runs_partial.

(** The user interrupts the run at the question about the second test. *)
Lemma demo_interrupted : exists h, demo_ask false false false [] true (Ret (true, [(lit "t/a", OK, tt)]) h) /\
  lookup (path_join demo_O (lit "cases.txt")) h = Some (report_text (fun _ : unit => lit "7") [(lit "t/a", OK, tt)]).
Proof.
  pose (c := ask_conf false false false). pose (pd := fun _ : str => Some tt). pose (sd := fun _ : unit => lit "7"). pose (spc := fun k => N.eqb k SP).
  pose (f0 := par_prepare demo_O c sd pd spc demo_two demo_f0).
  destruct (turn demo_E demo_O c pd spc demo_two (lit "{}") demo_deps demo_two demo_worker [] f0 [] [] [] true [] (lit "t/a") (demo_worker (lit "t/a")) (lit "t/a", OK, tt)) as (st1 & E1 & S1 & T1).
  { now left. }
  { intros []. }
  { intros []. }
  { intros d Hd. vm_compute in Hd. destruct Hd. }
  { reflexivity. }
  { vm_compute. reflexivity. }
  match type of T1 with ask_steps _ _ _ _ _ _ _ _ _ _ ?y => let z := eval cbn [k_shown app] in (k_shown y) in pose (sh1 := z) end.
  set (f1 := fst (solo (ask_proc _ _ _ _ _ _) _)) in T1.
  set (o1 := snd (solo (ask_proc _ _ _ _ _ _) _)) in T1. assert (O1 : o1 = Value (OK, NONE, [])) by (vm_compute; reflexivity). rewrite O1 in T1.
  destruct (turn demo_E demo_O c pd spc demo_two (lit "{}") demo_deps demo_two st1 [lit "t/a"] f1 [lit "t/a"] sh1 [(lit "t/a", OK, tt)] true [] (lit "t/b") (demo_worker (lit "t/b")) (lit "t/b", DIFF, tt)) as (st2 & E2 & S2 & T2).
  { right. now left. }
  { intros [X|[]]; discriminate X. }
  { intros [X|[]]; discriminate X. }
  { intros d Hd _. vm_compute in Hd. destruct Hd as [<-|[]]. now left. }
  { rewrite S1; [reflexivity|discriminate]. }
  { vm_compute. reflexivity. }
  set (f2 := fst (solo (ask_proc _ _ _ _ _ _) _)) in T2.
  eexists. split.
  - do 2 eexists. split; [eapply steps_trans; [exact T1|]; eapply steps_trans; [apply steps_one, KReviewed|]; eapply steps_trans; [exact T2|]; eapply steps_trans; [apply steps_one, (KInterrupt _ _ _ _ _ _ _ _ _ _ _ _ _ _ _ _ _ _ _ _ [])|]; [constructor| |]|].
    + intros n. split; [intros []|]. intros [X Y]. apply Y. destruct X as [<-|[<-|[]]]; [right; now left|now left].
    + apply steps_one, KLeave. now left.
    + cbn [k_end k_sched k_st k_cut k_fs k_ok k_recs]. split; [reflexivity|]. split; [|split; reflexivity]. intros n [<-|[<-|[]]]; [exact E2|]. rewrite S2; [exact E1|discriminate].
  - cbn [k_fs]. rewrite lookup_write, str_eqb_refl. reflexivity.
Qed.

(** The second test differs: the status is 0 and the test has no record. *)
Theorem C130_status_of_stopped_runs_refuted :
  exists all h, demo_ask false false false [] true (Ret (true, all) h) /\ In (lit "t/b") demo_two /\ ~ In (lit "t/b") (map rec_name all) /\
    exists recs rest g, run_async ascii_class no_float demo_E demo_O demo_O (unattended (ask_conf false false false)) demo_using (fun _ : unit => lit "7") (fun _ => Some tt) (fun c => N.eqb c SP)
      (fun _ => tt) demo_two (lit "{}") demo_two [] demo_f0 = Some (Ret (DIFF, recs, rest) g) /\ In (lit "t/b", DIFF, tt) recs.
Proof.
  destruct demo_interrupted as (h & A & _). do 2 eexists. split; [exact A|]. split; [right; now left|]. split.
  - intros X. change (In (lit "t/b") [lit "t/a"]) in X. destruct X as [X|[]]; discriminate X.
  - do 3 eexists. split; [vm_compute; reflexivity|]. right. now left.
Qed.
Print Assumptions C130_status_of_stopped_runs_refuted.

(** the user accepts the output: status 0, and both tests are recorded as OK *)
Example C130_example : exists all h, demo_ask false false false [lit "a"] false (Ret (true, all) h).
Proof. destruct (demo_asks false) as (all & h & A & _). exact (ex_intro _ all (ex_intro _ h A)). Qed.

(** However the run ended, a run with -c after it runs again exactly the tests that did not end with OK: those whose review did not,
    those that were not reviewed and did not, and those that have no record because they were not reviewed to the end or not run. *)
Theorem C131_continuing_stopped_runs :
  forall cc refloat E o c body (D : Type) (show_dur : D -> str) parse_dur sp durS durP all_names printed metrics_of metricsS metricsP names deps
    selected answersS answers f rv recs rest g,
  plain_dir E -> plain o -> starts_with [DOT] o = true -> let O := E ++ SLASH :: o in
  update c = false -> (always_interactive c = true -> accept c = false) -> durations_ok show_dur parse_dur -> space_ok sp ->
  separate names -> ~ In (lit "output") names ->
  (forall n, In n names -> field_ok n /\ incl (deps n) names /\ reads_deps E O deps n (body n)) ->
  NoDup selected -> incl selected names -> deps_first deps selected -> (forall n, In n selected -> ready E O n f) ->
  run_async cc refloat E O O (unattended c) body show_dur parse_dur sp durS all_names metricsS selected answersS f = Some (Ret (rv, recs, rest) g) ->
  let todo := par_todo O c parse_dur sp selected f in let kept := par_kept O c parse_dur sp selected f in
  exists res, recs = kept ++ map (fun n => (n, res n, durS n)) todo /\
  forall ctrl_c x, ask_run cc refloat E O c body show_dur parse_dur sp durP all_names printed metrics_of metricsP deps selected answers f ctrl_c x ->
  exists done left lost pending h,
    reviews c res answers done left /\ (x = Raise h \/ exists code all, x = Ret (code, all) h) /\ NoDup (map fst done ++ lost ++ pending) /\ length lost <= 1 /\
    forall c' selected' n, cont c' = true -> In n selected -> In n selected' ->
      (In n (par_todo O c' parse_dur sp selected' h) <->
       In n todo /\ (forall r, In (n, r) done -> final (res n) r <> OK) /\ (In n pending -> res n <> OK)).
Proof.
  intros cc refloat E o c body D show_dur parse_dur sp durS durP all_names printed metrics_of metricsS metricsP names deps
    selected answersS answers f rv recs rest g HE Ho Hdot O HU HAI DUR SPC SEP NOUT HN ND INS ORD RD H todo kept0.
  destruct (C127_asking_in_parallel cc refloat E o c body D show_dur parse_dur sp durS durP all_names printed metrics_of metricsS metricsP names deps
    selected answersS answers f rv recs rest g HE Ho Hdot HU HAI DUR SPC SEP NOUT HN ND INS ORD RD H) as (res & ER & _ & ALL). fold O in ER, ALL. fold todo kept0 in ER.
  exists res. split; [exact ER|]. intros ctrl_c x X. destruct (ALL _ _ X) as (done & lf & lost & pending & started & h & RV & WHY & NDA & IA & IT & _ & _ & _ & _ & _ & CASES). clear ALL. fold todo in IT. fold kept0 in WHY, CASES.
  set (new := map (fun d => (fst d, final (res (fst d)) (snd d), durP (fst d))) done ++ map (fun n => (n, res n, durP n)) pending) in *.
  assert (NEW : map rec_name new = map fst done ++ pending).
  { unfold new. rewrite map_app, !map_map. unfold rec_name. cbn [fst]. now rewrite map_id. }
  assert (NDN : NoDup (map rec_name new)).
  { rewrite NEW. clear -NDA. revert NDA. generalize (map fst done) as dn. induction dn as [|a l IH]; cbn [app]; intros NDA.
    - induction lost as [|a l IH]; [exact NDA|]. apply IH. cbn [app] in NDA. now apply NoDup_cons_iff in NDA.
    - apply NoDup_cons_iff in NDA as [N1 N2]. constructor; [|auto]. intros X. apply N1. rewrite !in_app_iff in *. tauto. }
  assert (INN : incl (map rec_name new) todo).
  { rewrite NEW. intros m Hm. apply IT, IA. rewrite !in_app_iff in *. tauto. }
  exists done, lf, lost, pending, h. split; [exact RV|]. split; [|split; [exact NDA|split]].
  - destruct WHY as [(_ & -> & _)|[(_ & -> & _)|(_ & -> & _)]]; eauto.
  - destruct WHY as [(_ & _ & -> & _)|[(_ & _ & L)|(_ & _ & m & -> & _)]]; [cbn [length]; lia|exact L|cbn [length]; lia].
  - intros c' selected' n HC Hn Hn'. unfold par_todo at 1. rewrite (path_join_name O (lit "cases.txt")); [|now apply HO|reflexivity]. rewrite CASES, HC.
    assert (NOK : names_ok (kept0 ++ new)).
    { apply Forall_app. split.
      - apply Forall_forall. intros r Hr. apply kept_In in Hr as [Hr _]. pose proof (read_names_ok parse_dur sp (lookup (path_join O (lit "cases.txt")) f)) as NK.
        unfold names_ok in NK. rewrite Forall_forall in NK. now apply NK.
      - apply Forall_forall. intros r Hr. apply (in_map rec_name), INN, todo_incl in Hr. apply INS, HN in Hr. now apply Hr. }
    rewrite of_file_roundtrip by assumption. cbn [cases_to_done_and_todo]. rewrite todo_iff, by_name_app.
    destruct (in_dec (list_eq_dec N.eq_dec) n todo) as [I|NI].
    + replace (by_name n kept0) with (@nil (case_rec D)).
      2:{ symmetry. apply by_name_none. intros Y. apply in_map_iff in Y as (r & <- & Hr). apply kept_In in Hr as [_ Hr]. now apply Hr. }
      cbn [app]. split.
      * intros [_ NR]. split; [exact I|]. split.
        -- intros r Hr EF. apply NR. exists (n, OK, durP n), []. split; [|reflexivity]. apply by_name_one; [exact NDN| |reflexivity].
           unfold new. apply in_or_app. left. apply in_map_iff. exists (n, r). cbn [fst snd]. now rewrite EF.
        -- intros Hp EF. apply NR. exists (n, OK, durP n), []. split; [|reflexivity]. apply by_name_one; [exact NDN| |reflexivity].
           unfold new. apply in_or_app. right. apply in_map_iff. exists n. now rewrite EF.
      * intros (_ & N1 & N2). split; [exact Hn'|]. intros (r & l & EB & EK). assert (Hr : In r (by_name n new)) by (rewrite EB; now left). apply by_name_In in Hr as [Hr EN].
        unfold new in Hr. apply in_app_iff in Hr as [Hr|Hr]; apply in_map_iff in Hr as (d & <- & Hd); cbn [rec_name rec_result fst snd] in EN, EK.
        -- destruct d as [m q]. cbn [fst snd] in *. subst m. now apply (N1 q).
        -- subst d. now apply N2.
    + split; [|now intros [Y _]]. intros [_ NR]. exfalso. apply NR. destruct (not_todo _ _ _ n Hn NI) as (_ & r & l & EB & EK). exists r, l. split; [|exact EK].
      replace (by_name n new) with (@nil (case_rec D)) by (symmetry; apply by_name_none; intros Y; now apply INN in Y). rewrite app_nil_r.
      unfold kept0, par_kept. fold todo. now rewrite by_name_kept.
Qed.
Print Assumptions C131_continuing_stopped_runs.

(** after the interrupted run, -c runs the second test *)
Example C131_example : exists h, demo_ask false false false [] true (Ret (true, [(lit "t/a", OK, tt)]) h) /\
  forall c', cont c' = true -> par_todo demo_O c' (fun _ => Some tt) (fun c => N.eqb c SP) demo_two h = [lit "t/b"].
Proof.
  destruct demo_interrupted as (h & A & L). exists h. split; [exact A|]. intros c' HC. unfold par_todo. rewrite L, HC. vm_compute. reflexivity.
Qed.
