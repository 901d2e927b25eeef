(** C133: a sequential run that is killed or left with Ctrl-C, continued with -c. *)
From Verif Require Import PyStrFacts FsFacts CaseRunProps RunCaseProps ReportsProofs RunnerProofs ReviewProofs ParResumeProofs KillProofs.
From Verif Require Export ParResumeProps KillModel.
From Coq Require Import Permutation.

(** a configuration without questions, -u and -a *)
Definition hands_off (c : config) : Prop := batch c /\ update c = false /\ accept c = false.

Lemma hands_off_auto c : hands_off c -> forall v, auto c v = false.
Proof. intros (_ & U & A) []; cbn [auto]; auto. Qed.
Lemma unattended_case cc refloat E O c body n a f : batch c -> run_case cc refloat E O c body n a f = run_case cc refloat E O (unattended c) body n a f.
Proof. destruct c as [ai i u ac co ff pp]. intros [B1 B2]. cbn in B1, B2. subst ai i. reflexivity. Qed.

(** how long the tests take and what stands in the input makes no difference *)
Lemma other_durations cc refloat E o c0 body (D : Type) (show_dur : D -> str) parse_dur sp dur dur2 all_names metrics metrics2 names deps selected answers answers2 f rv recs rest g :
  plain_dir E -> plain o -> starts_with [DOT] o = true -> let O := E ++ SLASH :: o in
  hands_off c0 -> fail_fast c0 = false -> separate names -> ~ In (lit "output") names ->
  (forall n, In n names -> field_ok n /\ incl (deps n) names /\ reads_fresh E O deps n (body n)) ->
  NoDup selected -> incl selected names -> deps_first deps selected -> (forall n, In n selected -> ready E O n f) ->
  run_async cc refloat E O O c0 body show_dur parse_dur sp dur all_names metrics selected answers f = Some (Ret (rv, recs, rest) g) ->
  exists recs2 g2, run_async cc refloat E O O c0 body show_dur parse_dur sp dur2 all_names metrics2 selected answers2 f = Some (Ret (rv, recs2, answers2) g2) /\
    (forall n r, (exists d, In (n, r, d) recs2) <-> (exists d, In (n, r, d) recs)) /\ (forall p, ~ bookkeeping O p -> lookup p g2 = lookup p g).
Proof.
  intros HE Ho Hdot O HO0 HF SEP NOUT HN ND INS ORD RD H. pose proof (hands_off_auto c0 HO0) as HA. destruct HO0 as (HB & HU & _). unfold run_async in *.
  set (old := of_file parse_dur sp (lookup (report_file O) f)) in *. set (todo := snd (cases_to_done_and_todo old (cont c0) selected)) in *. set (kept0 := kept old todo) in *.
  set (f1 := write_file (report_file O) (report_text show_dur kept0) f) in *.
  assert (INT : incl todo selected) by (intros n Hn; now apply todo_incl in Hn).
  destruct (run_todo _ _ _ _ _ _ _ _ _ _ _ _ _ _ _) as [[[[rv0 recs0] rest0] g0|g0]|] eqn:RT in H; [|discriminate|discriminate]. cbn [run_bind] in H. injection H as -> -> -> <-.
  assert (RF : report_file O = O ++ SLASH :: lit "cases.txt") by (apply path_join_name; [now apply HO|reflexivity]).
  assert (RD1 : forall n, In n todo -> ready E O n f1).
  { intros n Hn. apply (ready_local E o n f); [|now apply RD, INT]. intros p OW. symmetry. unfold f1. apply (write_booked E o); [rewrite RF; left; right; now left|]. apply (no_nb E o Hdot names SEP NOUT n); auto. }
  destruct (resume_todo cc refloat E o HE Ho Hdot c0 c0 HB HB HA HA HF HF eq_refl body show_dur dur dur2 names deps SEP NOUT (fun n Hn => proj1 (proj2 (HN n Hn))) (fun n Hn => proj2 (proj2 (HN n Hn)))
    (fun _ => true) todo (fun n Hn => INS n (INT n Hn)) (todo_NoDup _ _ _ ND) (todo_deps_first deps _ _ _ ND ORD) OK false kept0 answers f1 rv recs rest g0 OK false kept0 answers2 f1 RT) as (rs & g2 & M & ER2 & EV & RT2 & OWN & REST).
  { auto. }
  { auto. }
  { auto. }
  { discriminate. }
  { auto. }
  assert (FT : forall (A : Type) (l : list A), filter (fun _ => true) l = l) by (intros A l; induction l as [|x l IH]; [reflexivity|]; cbn [filter]; now rewrite IH).
  rewrite !FT in RT2. rewrite <- EV in RT2. fold O in RT2.
  exists (kept0 ++ runs_of rs dur2), (write_file (path_join E (lit "index.md")) (index_text all_names) (write_file (path_join O (lit "metrics.json")) metrics2 g2)).
  rewrite RT2. split; [reflexivity|]. split.
  - intros n r. rewrite ER2. unfold runs_of. split; intros [d Y]; apply in_app_iff in Y as [Y|Y]; try (exists d; apply in_or_app; now left).
    + apply in_map_iff in Y as ([m q] & EY & Y). cbn [fst snd] in EY. injection EY as -> -> _. exists (dur n). apply in_or_app. right. apply in_map_iff. exists (n, r). now split.
    + apply in_map_iff in Y as ([m q] & EY & Y). cbn [fst snd] in EY. injection EY as -> -> _. exists (dur2 n). apply in_or_app. right. apply in_map_iff. exists (n, r). now split.
  - assert (ME : path_join O (lit "metrics.json") = O ++ SLASH :: lit "metrics.json") by now apply metrics_eq.
    assert (IE : path_join E (lit "index.md") = E ++ SLASH :: lit "index.md") by now apply index_eq.
    intros p NB. rewrite IE, ME, !lookup_write. destruct (str_eqb_spec (E ++ SLASH :: lit "index.md") p) as [_|NI]; [reflexivity|].
    destruct (str_eqb_spec (O ++ SLASH :: lit "metrics.json") p) as [<-|_]; [elim NB; right; right; now left|].
    assert (NBK : ~ booked E o p) by (intros [Y|Y]; [contradiction|now elim NI]). destruct (some_own E o todo p) as [(n & Hn & OW)|NO]; [now apply (OWN n)|].
    destruct (REST p NBK NO) as [-> ->]. reflexivity.
Qed.

(** A run without questions, -u and -a that is left at any moment, and is then continued with -c: both together have the result
    of one run to the end, the same results of the selected tests, and its files. There are no results that it does not have.
    The results of the tests that were not selected are still there, if the run was not left while it filled the report with
    them again; and it must not be left there if it was itself started with -c. *)
Theorem C133_killed_and_continued_partial :
  forall cc refloat E o c body (D : Type) (show_dur : D -> str) parse_dur sp durS durK dur2 all_names metricsS metrics2 names deps
    selected answersS answersK answers2 f rv recs rest g,
  plain_dir E -> plain o -> starts_with [DOT] o = true -> let O := E ++ SLASH :: o in
  hands_off c -> durations_ok show_dur parse_dur -> space_ok sp ->
  separate names -> ~ In (lit "output") names ->
  (forall n, In n names -> field_ok n /\ incl (deps n) names /\ reads_fresh E O deps n (body n)) ->
  NoDup selected -> incl selected names -> deps_first deps selected -> (forall n, In n selected -> ready E O n f) ->
  run_async cc refloat E O O (unattended c) body show_dur parse_dur sp durS all_names metricsS selected answersS f = Some (Ret (rv, recs, rest) g) ->
  forall whole h, killed cc refloat E O O c body show_dur parse_dur sp durK selected answersK f whole h -> (cont c = true -> whole = true) ->
  forall c2, hands_off c2 -> cont c2 = true -> fail_fast c2 = false -> point_error_pos c2 = point_error_pos c ->
  (forall n, In n selected -> ready E O n h) /\
  exists recs2 g2, run_async cc refloat E O O c2 body show_dur parse_dur sp dur2 all_names metrics2 selected answers2 h = Some (Ret (rv, recs2, answers2) g2) /\
    (forall n r, (exists d, In (n, r, d) recs2) -> exists d, In (n, r, d) recs) /\
    (forall n r, In n selected \/ whole = true -> (exists d, In (n, r, d) recs) -> exists d, In (n, r, d) recs2) /\
    (forall p, ~ bookkeeping O p -> lookup p g2 = lookup p g).
Proof.
  intros cc refloat E o c body D show_dur parse_dur sp durS durK dur2 all_names metricsS metrics2 names deps
    selected answersS answersK answers2 f rv recs rest g HE Ho Hdot O HOc DUR SPC SEP NOUT HN ND INS ORD RD H0 whole h K KC c2 HO2 HC2 HF2 HP2.
  set (c0 := unattended c) in *. assert (HO0 : hands_off c0) by (destruct HOc as (_ & U & A); repeat split; assumption).
  destruct (other_durations cc refloat E o c0 body D show_dur parse_dur sp durS durK all_names metricsS metricsS names deps selected answersS answersK f rv recs rest g
    HE Ho Hdot HO0 eq_refl SEP NOUT HN ND INS ORD RD H0) as (recsK & gK & H & SAME & FILES). fold O in H, FILES.
  assert (MAIN : (forall n, In n selected -> ready E O n h) /\
    exists recs2 g2, run_async cc refloat E O O c2 body show_dur parse_dur sp dur2 all_names metrics2 selected answers2 h = Some (Ret (rv, recs2, answers2) g2) /\
    (forall n r d, In (n, r, d) recs2 -> exists d', In (n, r, d') recsK) /\
    (forall n r d, In n selected \/ whole = true -> In (n, r, d) recsK -> exists d', In (n, r, d') recs2) /\
    (forall p, ~ bookkeeping O p -> lookup p g2 = lookup p gK)).
  2:{ destruct MAIN as (M1 & recs2 & g2 & M2 & M3 & M4 & M5). split; [exact M1|]. exists recs2, g2. split; [exact M2|]. split; [|split].
      - intros n r [d Y]. apply SAME. now apply (M3 n r d).
      - intros n r SEL Y. apply SAME in Y as [d Y]. now apply (M4 n r d).
      - intros p NB. rewrite M5, FILES by exact NB. reflexivity. }
  clear recs g rest H0 SAME FILES. pose proof (hands_off_auto c0 HO0) as HA0. pose proof (hands_off_auto c2 HO2) as HA2.
  assert (RF : report_file O = O ++ SLASH :: lit "cases.txt") by (apply path_join_name; [now apply HO|reflexivity]).
  assert (BC : booked E o (report_file O)) by (rewrite RF; left; right; now left).
  pose proof (fun ran fresh k0 new => resume_run cc refloat E o HE Ho Hdot body show_dur parse_dur sp names deps SEP NOUT HN all_names c0 c2 durK dur2 metricsS metrics2 selected
    answersK answers2 f rv recsK answersK gK h ran fresh k0 new (proj1 HO0) HA0 eq_refl (proj1 HO2) HA2 HF2 HC2 HP2 ND INS ORD RD H) as RES.
  cbv zeta in RES. fold O in RES. unfold killed in K. change (cont c0) with (cont c) in RES.
  set (old := of_file parse_dur sp (lookup (report_file O) f)) in *. set (todo := snd (cases_to_done_and_todo old (cont c) selected)) in *. set (kept0 := kept old todo) in *.
  assert (INT : incl todo selected) by (intros n Hn; now apply todo_incl in Hn).
  assert (NOK : names_ok kept0).
  { apply Forall_forall. intros r Hr. apply kept_In in Hr as [Hr _]. pose proof (read_names_ok parse_dur sp (lookup (report_file O) f)) as NK. unfold names_ok in NK. rewrite Forall_forall in NK. now apply NK. }
  assert (NBS : forall n p, In n names -> own E o n p -> ~ booked E o p) by (intros n p Hn; apply (no_nb E o Hdot names SEP NOUT n p); auto).
  destruct whole.
  - (* with all the records *)
    set (f1 := write_file (report_file O) (report_text show_dur kept0) f) in *.
    assert (CUT : exists h0, todo_cut cc refloat E O O c body show_dur durK todo false kept0 answersK f1 h0 /\ lookup (report_file O) h = lookup (report_file O) h0 /\ forall p, ~ booked E o p -> lookup p h = lookup p h0).
    { destruct K as [K|(x & f2 & m & K & KW)]; [exists h; auto|]. exists f2. split; [eapply todo_all; exact K|].
      assert (ME : path_join O (lit "metrics.json") = O ++ SLASH :: lit "metrics.json") by now apply metrics_eq.
      assert (IE : path_join E (lit "index.md") = E ++ SLASH :: lit "index.md") by now apply index_eq. rewrite ME, IE in KW.
      assert (NI : E ++ SLASH :: lit "index.md" <> O ++ SLASH :: lit "cases.txt").
      { unfold O. rewrite <- app_assoc. intros Y. apply app_inv_head in Y. injection Y as Y. destruct o as [|k o']; [discriminate Hdot|]. cbn [app] in Y. injection Y as Y _. cbn [starts_with] in Hdot. rewrite <- Y in Hdot. discriminate Hdot. }
      assert (NM : O ++ SLASH :: lit "metrics.json" <> O ++ SLASH :: lit "cases.txt") by (intros Y; apply app_inv_head in Y; discriminate Y).
      destruct KW as [->|[i ->]].
      - split; [rewrite RF, lookup_write; destruct (str_eqb_spec (O ++ SLASH :: lit "metrics.json") (O ++ SLASH :: lit "cases.txt")) as [Y|_]; [contradiction|reflexivity]|].
        intros p NB. apply (write_booked E o); [apply booked_metrics|exact NB].
      - split; [rewrite RF, !lookup_write; destruct (str_eqb_spec (E ++ SLASH :: lit "index.md") (O ++ SLASH :: lit "cases.txt")) as [Y|_]; [contradiction|]; destruct (str_eqb_spec (O ++ SLASH :: lit "metrics.json") (O ++ SLASH :: lit "cases.txt")) as [Y|_]; [contradiction|reflexivity]|].
        intros p NB. rewrite (write_booked E o) by (exact NB || apply booked_index). apply (write_booked E o); [apply booked_metrics|exact NB]. }
    clear K. destruct CUT as (h0 & CUT & HR & HH).
    assert (RD1 : forall n, In n todo -> ready E O n f1).
    { intros n Hn. apply (ready_local E o n f); [|now apply RD, INT]. intros p OW. symmetry. apply (write_booked E o); [exact BC|]. apply (NBS n); auto. }
    pose proof H as H'. unfold run_async in H'. fold old in H'. change (cont c0) with (cont c) in H'. fold todo kept0 f1 in H'.
    destruct (run_todo _ _ _ _ _ _ _ _ _ _ _ _ _ _ _) as [[[[rv0 recs0] rest0] g0|g0]|] eqn:RT in H'; [|discriminate|discriminate]. cbn [run_bind] in H'. injection H' as EV ER ET EG. subst rv0 recs0 rest0.
    assert (WG : forall p, ~ booked E o p -> lookup p gK = lookup p g0).
    { intros p NB. rewrite <- EG. unfold O. rewrite metrics_eq, index_eq by assumption. rewrite (write_booked E o) by (exact NB || apply booked_index). apply (write_booked E o); [apply booked_metrics|exact NB]. }
    destruct (cut_states cc refloat E o HE Ho Hdot body show_dur names SEP NOUT c c0 (proj1 HO0) HA0 eq_refl (fun n a k => unattended_case cc refloat E O c body n a k (proj1 HOc)) durK
      todo (fun n Hn => INS n (INT n Hn)) (todo_NoDup _ _ _ ND) false kept0 answersK f1 h0 _ _ _ _ _ g0 CUT RT RD1) as (ran & fresh & more & t & u & EL & I1 & I2 & ETX & EH & G1 & G2 & G3).
    { unfold f1. now rewrite lookup_write, str_eqb_refl. }
    { intros r Hr. now apply kept_In in Hr as [_ Hr]. }
    assert (NOM : names_ok more).
    { apply Forall_forall. intros r Hr. apply HN, INS, INT. rewrite EL. apply in_or_app. left. apply I1. now apply in_map. }
    destruct (RES ran fresh kept0 (of_file parse_dur sp (Some t))) as (Y1 & recs2 & g2 & Y2 & Y3 & Y4 & Y5).
    + intros n. rewrite EL. apply in_app_iff.
    + rewrite HR. fold O in EH. rewrite EH. apply (of_file_more show_dur parse_dur sp DUR SPC kept0 more t u); assumption.
    + intros n r d Hr. now exists d.
    + reflexivity.
    + intros n r d Hr. destruct (of_file_part show_dur parse_dur sp DUR SPC more t u NOM ETX n r d Hr) as [d' Y]. split; [apply I1; now apply (in_map rec_name) in Y|exists d'; now apply I2].
    + intros n p Hn OW. assert (NB : ~ booked E o p) by (apply (NBS n); auto; apply INS, INT; rewrite EL; apply in_or_app; now left). rewrite HH, WG by exact NB. now apply (G1 n).
    + intros n Hn. assert (Hnn : In n names) by (apply INS, INT; rewrite EL; apply in_or_app; now right). destruct (G2 n Hn) as (Y1 & Y2 & Y3). split; [|split].
      * apply (ready_local E o n h0); [|exact Y1]. intros p OW. symmetry. apply HH. now apply (NBS n).
      * intros p Hp. assert (NB : ~ booked E o p) by (apply (NBS n); auto; now left). rewrite HH by exact NB. rewrite Y2 by exact Hp. unfold f1. now apply (write_booked E o).
      * intros FL. assert (NB : ~ booked E o (O ++ SLASH :: n ++ lit ".bin")) by (apply (NBS n); auto; apply bin_own). rewrite HH by exact NB. fold O in Y3. rewrite Y3 by exact FL. unfold f1. now apply (write_booked E o).
    + intros p NB NO. rewrite HH by exact NB. rewrite G3 by assumption. unfold f1. now apply (write_booked E o).
    + split; [exact Y1|]. exists recs2, g2. split; [exact Y2|]. split; [exact Y3|]. split; [|exact Y5]. intros n r d _. apply Y4. now right.
  - (* while the report is filled *)
    destruct K as (t & u & ET & ->). assert (CF : cont c = false) by (destruct (cont c); [now specialize (KC eq_refl)|reflexivity]).
    destruct (RES [] todo (of_file parse_dur sp (Some t)) []) as (Y1 & recs2 & g2 & Y2 & Y3 & Y4 & Y5).
    + intros n. split; [now right|intros [[]|X]; exact X].
    + now rewrite lookup_write, str_eqb_refl, app_nil_r.
    + apply (of_file_part show_dur parse_dur sp DUR SPC kept0 t u NOK ET).
    + congruence.
    + easy.
    + easy.
    + intros n Hn. assert (Hnn : In n names) by now apply INS, INT. split; [|split].
      * apply (ready_local E o n f); [|now apply RD, INT]. intros p OW. symmetry. apply (write_booked E o); [exact BC|now apply (NBS n)].
      * intros p Hp. apply (write_booked E o); [exact BC|]. apply (NBS n); auto. now left.
      * intros _. apply (write_booked E o); [exact BC|]. apply (NBS n); auto. apply bin_own.
    + intros p NB _. now apply (write_booked E o).
    + split; [exact Y1|]. exists recs2, g2. split; [exact Y2|]. split; [exact Y3|]. split; [|exact Y5]. intros n r d [SEL|X]; [|discriminate]. apply Y4. now left.
Qed.
Print Assumptions C133_killed_and_continued_partial.

(** the same when the tests that are left run in parallel *)
Theorem C133_killed_and_continued_in_parallel_partial :
  forall cc refloat E o c body (D : Type) (show_dur : D -> str) parse_dur sp durS durK dur2 all_names printed metrics_of metricsS metrics2 names deps
    selected answersS answersK f rv recs rest g,
  plain_dir E -> plain o -> starts_with [DOT] o = true -> let O := E ++ SLASH :: o in
  hands_off c -> durations_ok show_dur parse_dur -> space_ok sp ->
  separate names -> ~ In (lit "output") names ->
  (forall n, In n names -> field_ok n /\ incl (deps n) names /\ reads_fresh E O deps n (body n)) ->
  NoDup selected -> incl selected names -> deps_first deps selected -> (forall n, In n selected -> ready E O n f) ->
  run_async cc refloat E O O (unattended c) body show_dur parse_dur sp durS all_names metricsS selected answersS f = Some (Ret (rv, recs, rest) g) ->
  forall whole h, killed cc refloat E O O c body show_dur parse_dur sp durK selected answersK f whole h -> (cont c = true -> whole = true) ->
  forall c2, hands_off c2 -> cont c2 = true -> fail_fast c2 = false -> point_error_pos c2 = point_error_pos c ->
  forall x, parallel_run cc refloat E O c2 body show_dur parse_dur sp dur2 all_names printed metrics_of metrics2 deps selected h x ->
  exists recs2 g2, x = Ret (is_ok rv, recs2) g2 /\
    (forall n r, (exists d, In (n, r, d) recs2) -> exists d, In (n, r, d) recs) /\
    (forall n r, In n selected \/ whole = true -> (exists d, In (n, r, d) recs) -> exists d, In (n, r, d) recs2) /\
    (forall p, ~ bookkeeping O p -> lookup p g2 = lookup p g).
Proof.
  intros cc refloat E o c body D show_dur parse_dur sp durS durK dur2 all_names printed metrics_of metricsS metrics2 names deps
    selected answersS answersK f rv recs rest g HE Ho Hdot O HOc DUR SPC SEP NOUT HN ND INS ORD RD H0 whole h K KC c2 HO2 HC2 HF2 HP2 x X.
  destruct (C133_killed_and_continued_partial cc refloat E o c body D show_dur parse_dur sp durS durK dur2 all_names metricsS metrics2 names deps
    selected answersS answersK [] f rv recs rest g HE Ho Hdot HOc DUR SPC SEP NOUT HN ND INS ORD RD H0 whole h K KC c2 HO2 HC2 HF2 HP2) as (RDH & recs2 & g2 & R2 & S1 & S2 & FILES).
  assert (HN' : forall n, In n names -> field_ok n /\ incl (deps n) names /\ reads_deps E O deps n (body n)).
  { intros n Hn. destruct (HN n Hn) as (A1 & A2 & A3). split; [exact A1|]. split; [exact A2|]. now apply fresh_deps. }
  destruct (C82_parallel_like_sequential cc refloat E o c2 body D show_dur parse_dur sp dur2 dur2 all_names printed metrics_of metrics2 metrics2 names deps
    selected [] h rv recs2 [] g2 HE Ho Hdot (proj1 HO2) (proj1 (proj2 HO2)) HF2 DUR SPC SEP NOUT HN' ND INS ORD RDH R2 x X) as (recs3 & g3 & EX2 & PERM & _ & FILES3).
  assert (K3 : forall n r, (exists d, In (n, r, d) recs3) <-> (exists d, In (n, r, d) recs2)).
  { intros n r. assert (Q : forall l, (exists d, In (n, r, d) l) <-> In (n, r) (map (fun q : case_rec D => (rec_name q, rec_result q)) l)).
    { intros l. rewrite in_map_iff. split.
      - intros [d Y]. now exists (n, r, d).
      - intros ([[m q] d] & EQ & Y). unfold rec_name, rec_result in EQ. cbn [fst snd] in EQ. injection EQ as -> ->. now exists d. }
    rewrite !Q. split; intros Y; [apply Permutation_in with (2 := Y), Permutation_sym, PERM|apply Permutation_in with (2 := Y), PERM]. }
  exists recs3, g3. split; [exact EX2|]. split; [|split].
  - intros n r Y. apply S1. now apply K3.
  - intros n r SEL Y. apply K3. now apply S2.
  - intros p NB. rewrite FILES3 by exact NB. now apply FILES.
Qed.
Print Assumptions C133_killed_and_continued_in_parallel_partial.

(** Left again and again: a run of the selected tests that is left with the files [h], and further runs with -c that are left,
    too. Only the first may be left while it fills the report. *)
Section Attempts.
Variable cc : CharClass.
Variable refloat : str -> option str.
Variables E O : str.
Variable body : str -> fs -> body_run.
Context {D : Type} (show_dur : D -> str) (parse_dur : str -> option D) (sp : char -> bool).
Variable selected : list str.
Inductive attempts (c : config) (f : fs) (whole : bool) : fs -> Prop :=
| first_attempt dur answers h : killed cc refloat E O O c body show_dur parse_dur sp dur selected answers f whole h -> attempts c f whole h
| next_attempt h c' dur answers h' : attempts c f whole h -> hands_off c' -> cont c' = true -> point_error_pos c' = point_error_pos c ->
    killed cc refloat E O O c' body show_dur parse_dur sp dur selected answers h true h' -> attempts c f whole h'.
End Attempts.

Theorem C133_killed_again_and_again_partial :
  forall cc refloat E o c body (D : Type) (show_dur : D -> str) parse_dur sp durS dur2 all_names metricsS metrics2 names deps
    selected answersS answers2 f rv recs rest g,
  plain_dir E -> plain o -> starts_with [DOT] o = true -> let O := E ++ SLASH :: o in
  hands_off c -> durations_ok show_dur parse_dur -> space_ok sp ->
  separate names -> ~ In (lit "output") names ->
  (forall n, In n names -> field_ok n /\ incl (deps n) names /\ reads_fresh E O deps n (body n)) ->
  NoDup selected -> incl selected names -> deps_first deps selected -> (forall n, In n selected -> ready E O n f) ->
  run_async cc refloat E O O (unattended c) body show_dur parse_dur sp durS all_names metricsS selected answersS f = Some (Ret (rv, recs, rest) g) ->
  forall whole h, attempts cc refloat E O body show_dur parse_dur sp selected c f whole h -> (cont c = true -> whole = true) ->
  forall c2, hands_off c2 -> cont c2 = true -> fail_fast c2 = false -> point_error_pos c2 = point_error_pos c ->
  (forall n, In n selected -> ready E O n h) /\
  exists recs2 g2, run_async cc refloat E O O c2 body show_dur parse_dur sp dur2 all_names metrics2 selected answers2 h = Some (Ret (rv, recs2, answers2) g2) /\
    (forall n r, (exists d, In (n, r, d) recs2) -> exists d, In (n, r, d) recs) /\
    (forall n r, In n selected \/ whole = true -> (exists d, In (n, r, d) recs) -> exists d, In (n, r, d) recs2) /\
    (forall p, ~ bookkeeping O p -> lookup p g2 = lookup p g).
Proof.
  intros cc refloat E o c body D show_dur parse_dur sp durS dur2 all_names metricsS metrics2 names deps
    selected answersS answers2 f rv recs rest g HE Ho Hdot O HOc DUR SPC SEP NOUT HN ND INS ORD RD H0 whole h AT KC.
  revert dur2 metrics2 answers2. induction AT as [dur answers h K|h c' dur answers h' AT IH HO' HC' HP' K]; intros dur2 metrics2 answers2 c2 HO2 HC2 HF2 HP2.
  - exact (C133_killed_and_continued_partial cc refloat E o c body D show_dur parse_dur sp durS dur dur2 all_names metricsS metrics2 names deps
      selected answersS answers answers2 f rv recs rest g HE Ho Hdot HOc DUR SPC SEP NOUT HN ND INS ORD RD H0 whole h K KC c2 HO2 HC2 HF2 HP2).
  - assert (HOu : hands_off (unattended c')) by (destruct HO' as (_ & U & A); repeat split; assumption).
    destruct (IH dur metrics2 answers2 (unattended c') HOu HC' eq_refl HP') as (RDH & recs1 & g1 & R1 & S1 & S2 & F1).
    destruct (C133_killed_and_continued_partial cc refloat E o c' body D show_dur parse_dur sp dur dur dur2 all_names metrics2 metrics2 names deps
      selected answers2 answers answers2 h rv recs1 answers2 g1 HE Ho Hdot HO' DUR SPC SEP NOUT HN ND INS ORD RDH R1 true h' K (fun _ => eq_refl) c2 HO2 HC2 HF2) as (RDH' & recs2 & g2 & R2 & T1 & T2 & F2).
    { congruence. }
    split; [exact RDH'|]. exists recs2, g2. split; [exact R2|]. split; [|split].
    + intros n r Y. now apply S1, T1.
    + intros n r SEL Y. apply T2; [now right|]. now apply S2.
    + intros p NB. fold O in F2. rewrite F2 by exact NB. now apply F1.
Qed.
Print Assumptions C133_killed_again_and_again_partial.

(** a run to the end is one of the runs that are left *)
Lemma run_is_killed cc refloat E O c body (D : Type) (show_dur : D -> str) parse_dur sp dur all_names metrics selected answers f x g :
  run_async cc refloat E O O c body show_dur parse_dur sp dur all_names metrics selected answers f = Some (Ret x g) ->
  killed cc refloat E O O c body show_dur parse_dur sp dur selected answers f true g.
Proof.
  unfold run_async, killed. cbv zeta. destruct (run_todo _ _ _ _ _ _ _ _ _ _ _ _ _ _ _) as [[y f2|f2]|]; [|discriminate|discriminate]. cbn [run_bind]. intros H. injection H as -> <-.
  right. exists x, f2, metrics. split; [reflexivity|]. right. now eexists.
Qed.

(** The demo project: the first test passed, then the machine went down while the second wrote its report. *)
Notation demo_killed sel f whole h :=
  (killed ascii_class no_float demo_E demo_O demo_O (demo_conf false) demo_using (fun _ : unit => lit "7") (fun _ => Some tt) (fun c => N.eqb c SP) (fun _ => tt) sel [] f whole h).
Notation demo_continued sel h :=
  (run_async ascii_class no_float demo_E demo_O demo_O demo_again demo_using (fun _ : unit => lit "7") (fun _ => Some tt) (fun c => N.eqb c SP) (fun _ => tt) demo_two (lit "{}") sel (@nil str) h).
Definition demo_half (f : fs) : fs := write_file (lit "books/.out/t/b.md") (lit "t/") (write_file (lit "books/.out/t/b/part") (lit "x") f).
Definition demo_first_done : fs :=
  match run_case ascii_class no_float demo_E demo_O (demo_conf false) demo_using (lit "t/a") [] (write_file (report_file demo_O) [] demo_f0) with
  | Some (Ret _ f1) => write_file (report_file demo_O) (report_text (fun _ : unit => lit "7") [(lit "t/a", OK, tt)]) f1
  | _ => []
  end.
Lemma demo_went_down : demo_killed demo_two demo_f0 true (demo_half demo_first_done).
Proof.
  unfold killed. cbv zeta iota. left. set (old := of_file _ _ _). assert (EO : old = []) by (vm_compute; reflexivity). rewrite EO. change (snd (cases_to_done_and_todo [] (cont (demo_conf false)) demo_two)) with demo_two.
  change (kept (@nil (case_rec unit)) demo_two) with (@nil (case_rec unit)). cbn [report_text flat_map]. unfold demo_two. cbn [todo_cut]. right.
  exists OK, NONE, []. eexists. split; [vm_compute; reflexivity|]. cbv zeta. right. cbn [is_abort orb andb fail_fast demo_conf]. left. split.
  - intros p N. set (b := write_file (report_file _) _ _) in N. assert (EB : b = demo_first_done) by (vm_compute; reflexivity). rewrite EB in N. clear b EB.
    unfold demo_half in N. rewrite !lookup_write in N. destruct (str_eqb_spec (lit "books/.out/t/b.md") p) as [Y|_]; [rewrite <- Y; right; right; now left|].
    destruct (str_eqb_spec (lit "books/.out/t/b/part") p) as [Y|_]; [rewrite <- Y; left; vm_compute; reflexivity|contradiction].
  - intros N. elim N. set (b := write_file (report_file _) _ _). assert (EB : b = demo_first_done) by (vm_compute; reflexivity). rewrite EB. vm_compute. reflexivity.
Qed.
Example C133_example : demo_killed demo_two demo_f0 true (demo_half demo_first_done) /\
  lookup (lit "books/.out/t/b.md") (demo_half demo_first_done) = Some (lit "t/") /\
  exists g, demo_continued demo_two (demo_half demo_first_done) = Some (Ret (DIFF, [(lit "t/a", OK, tt); (lit "t/b", DIFF, tt)], []) g) /\
    lookup (lit "books/.out/t/b.md") g = Some (lit "t/a" ++ [NL]) /\ lookup (lit "books/.out/t/b/part") g = None.
Proof. split; [exact demo_went_down|]. split; [reflexivity|]. eexists. split; [vm_compute; reflexivity|]. split; vm_compute; reflexivity. Qed.

(** What is not true: that the results of the tests that were not selected survive. The report is opened with "w", and empty
    until the earlier records have been written again. *)
Definition demo_other : fs := write_file (report_file demo_O) (report_text (fun _ : unit => lit "7") [(lit "t/b", OK, tt)]) demo_f0.
Lemma demo_other_ready n : In n [lit "t/a"] -> ready demo_E demo_O n demo_other.
Proof. intros [<-|[]]. apply readyb_ok. vm_compute. reflexivity. Qed.
Theorem C133_killed_and_continued_refuted :
  exists cc refloat E o c body (D : Type) (show_dur : D -> str) parse_dur sp dur all_names metrics names deps selected f rv recs rest g,
  let O := E ++ SLASH :: o in
  plain_dir E /\ plain o /\ starts_with [DOT] o = true /\ hands_off c /\ durations_ok show_dur parse_dur /\ space_ok sp /\
  separate names /\ ~ In (lit "output") names /\
  (forall n, In n names -> field_ok n /\ incl (deps n) names /\ reads_fresh E O deps n (body n)) /\
  NoDup selected /\ incl selected names /\ deps_first deps selected /\ (forall n, In n selected -> ready E O n f) /\
  run_async cc refloat E O O (unattended c) body show_dur parse_dur sp dur all_names metrics selected [] f = Some (Ret (rv, recs, rest) g) /\
  exists h c2, (exists whole, killed cc refloat E O O c body show_dur parse_dur sp dur selected [] f whole h) /\
  hands_off c2 /\ cont c2 = true /\ fail_fast c2 = false /\ point_error_pos c2 = point_error_pos c /\
  exists recs2 g2, run_async cc refloat E O O c2 body show_dur parse_dur sp dur all_names metrics selected [] h = Some (Ret (rv, recs2, []) g2) /\
    exists n r d, In (n, r, d) recs /\ ~ (exists d', In (n, r, d') recs2).
Proof.
  exists ascii_class, no_float, demo_E, demo_o, (demo_conf false), demo_using, unit, (fun _ : unit => lit "7"), (fun _ => Some tt), (fun c => N.eqb c SP), (fun _ => tt), demo_two, (lit "{}"), demo_two, demo_deps, [lit "t/a"], demo_other.
  do 4 eexists. cbv zeta. split; [exact (proj1 demo_dirs)|]. split; [exact (proj1 (proj2 demo_dirs))|]. split; [reflexivity|]. split; [split; [exact (demo_conf_batch false)|split; reflexivity]|].
  split; [exact demo_durations|]. split; [exact demo_space|]. split; [exact demo_separate|]. split; [exact demo_not_output|]. split; [exact demo_fresh|].
  split; [constructor; [intros []|constructor]|]. split; [intros n [<-|[]]; now left|]. split.
  { intros a n b EQ d Hd _. destruct a as [|x a]; [injection EQ as <- _; vm_compute in Hd; contradiction|destruct a; discriminate EQ]. }
  split; [exact demo_other_ready|]. split; [vm_compute; reflexivity|].
  exists (write_file (report_file demo_O) [] demo_other), demo_again. split.
  { exists false. unfold killed. cbv zeta iota. exists []. eexists. split; [cbn [app]; reflexivity|reflexivity]. }
  split; [split; [split; reflexivity|split; reflexivity]|]. split; [reflexivity|]. split; [reflexivity|]. split; [reflexivity|].
  do 2 eexists. split; [vm_compute; reflexivity|]. exists (lit "t/b"), OK, tt. split; [now left|]. intros [d [X|[]]]. discriminate X.
Qed.
Print Assumptions C133_killed_and_continued_refuted.
