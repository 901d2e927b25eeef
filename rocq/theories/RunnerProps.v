(** Properties of sequential runs (booktest/testrun.py) and of histories of runs. *)
From Verif Require Import RunnerProofs ReviewLoop ReportsProps.
From Coq Require Import Lia.

(** C25. [exec name w] is what executing a case does to the world [w]. *)
Theorem C25_sequential_run :
  forall D W (exec : str -> W -> result * request * D * W) c old selected w rv new executed w',
  run_cases exec c old selected w = (rv, new, executed, w') ->
  let todo := snd (cases_to_done_and_todo old (cont c) selected) in
  exists l rest,
    executed = map fst l /\ executions exec w l w' /\
    todo = map rec_name executed ++ rest /\
    (exit_ok rv = true <-> Forall (fun r => rec_result r = OK) executed) /\
    (rv = FAIL <-> Exists (fun r => rec_result r = FAIL) executed) /\
    (rest <> [] -> exists l' x, l = l' ++ [x] /\ stops (fail_fast c) x) /\
    (forall l1 x l2, l = l1 ++ x :: l2 -> l2 <> [] -> ~ stops (fail_fast c) x).
Proof.
  intros D W exec c old selected w rv new executed w' H. cbv zeta. unfold run_cases in H.
  set (todo := snd (cases_to_done_and_todo old (cont c) selected)) in *.
  destruct (run_loop exec (fail_fast c) todo OK false w) as [[rv1 recs] w1] eqn:El.
  injection H as <- <- <- <-.
  destruct (run_loop_ret exec _ _ _ _ _ _ _ _ (fun _ => eq_refl) El) as (l & rest & -> & Hex & Ht & -> & H1 & H2).
  exists l, rest. split; [reflexivity|]. split; [exact Hex|]. split; [exact Ht|].
  split; [|split; [|split; [exact H1|exact H2]]].
  - unfold exit_ok. rewrite ok_iff, worst_OK. tauto.
  - rewrite worst_FAIL. split; [intros [?|?]; [discriminate|assumption]|now right].
Qed.
Print Assumptions C25_sequential_run.

(** nothing stops the run: every case is executed, once, in order *)
Theorem C25_all_executed :
  forall D W (exec : str -> W -> result * request * D * W) c old selected w rv new executed w',
  run_cases exec c old selected w = (rv, new, executed, w') ->
  fail_fast c = false -> (forall n v, snd (fst (fst (exec n v))) <> ABORT) ->
  map rec_name executed = snd (cases_to_done_and_todo old (cont c) selected).
Proof.
  intros D W exec c old selected w rv new executed w' H Hff Hab.
  destruct (C25_sequential_run _ _ _ _ _ _ _ _ _ _ _ H) as (l & rest & He & Hx & -> & _ & _ & Hs & _).
  destruct rest as [|n rest]; [now rewrite app_nil_r|]. exfalso.
  destruct Hs as (l' & x & -> & [Ha|[Ha _]]); [discriminate| |congruence].
  clear -Hx Ha Hab. revert w Hx. induction l' as [|y l' IH]; intros w Hx; cbn [app] in Hx; inversion Hx; subst.
  - cbn [snd] in Ha. subst. specialize (Hab name w).
    match goal with E : exec name w = _ |- _ => rewrite E in Hab end. now apply Hab.
  - eapply IH; eauto.
Qed.
Print Assumptions C25_all_executed.

(** C24. *)
Theorem C24_one_latest_record :
  forall D W (exec : str -> W -> result * request * D * W) c old selected w rv new executed w',
  run_cases exec c old selected w = (rv, new, executed, w') ->
  NoDup (map rec_name old) -> NoDup selected ->
  let todo := snd (cases_to_done_and_todo old (cont c) selected) in
  NoDup (map rec_name new) /\
  incl executed new /\
  (forall r, ~ In (rec_name r) todo -> (In r new <-> In r old)) /\
  (forall r, In r new -> In (rec_name r) todo -> In r executed).
Proof.
  intros D W exec c old selected w rv new executed w' H Hold Hsel. cbv zeta.
  destruct (C25_sequential_run _ _ _ _ _ _ _ _ _ _ _ H) as (l & rest & _ & _ & Ht & _).
  unfold run_cases in H. set (todo := snd (cases_to_done_and_todo old (cont c) selected)) in *.
  destruct (run_loop exec (fail_fast c) todo OK false w) as [[rv1 recs] w1] eqn:El.
  injection H as <- <- <- <-.
  assert (Hinc : incl (map rec_name recs) todo) by (rewrite Ht; apply incl_appl, incl_refl).
  assert (Hnd : NoDup (map rec_name recs)).
  { pose proof (todo_NoDup old (cont c) selected Hsel) as Hd. fold todo in Hd. rewrite Ht in Hd.
    clear -Hd. induction (map rec_name recs) as [|x a IH]; [constructor|]. cbn [app] in Hd.
    apply NoDup_cons_iff in Hd as [H1 H2]. constructor; [|auto]. intros Hi. apply H1, in_or_app. now left. }
  split; [now apply report_NoDup|]. split; [apply incl_appr, incl_refl|]. split.
  - intros r Hr. rewrite in_app_iff, kept_In. split; [|auto].
    intros [[Hi _]|Hi]; [exact Hi|]. exfalso. apply Hr, Hinc. now apply in_map.
  - intros r Hr Hi. apply in_app_iff in Hr as [Hr|Hr]; [|exact Hr]. apply kept_In in Hr. tauto.
Qed.
Print Assumptions C24_one_latest_record.

(** C23. Which cases -c skips. *)
Theorem C23_skip_iff_recorded_ok :
  forall D (parse_dur : str -> option D) sp file c selected n,
  skipped parse_dur sp file c selected n <->
  In n selected /\ c = true /\
  exists before r after, of_file parse_dur sp file = before ++ r :: after /\ rec_name r = n /\ rec_result r = OK /\
    forall x, In x before -> rec_name x <> n.
Proof.
  intros D parse_dur sp file c selected n. rewrite (skipped_iff parse_dur sp). generalize (of_file parse_dur sp file). intros recs.
  assert (B : (exists r l, by_name n recs = r :: l /\ rec_result r = OK) <->
    exists before r after, recs = before ++ r :: after /\ rec_name r = n /\ rec_result r = OK /\ forall x, In x before -> rec_name x <> n).
  { unfold by_name. induction recs as [|x recs IH]; cbn [filter].
    - split; [intros (r & l & E & _); discriminate|intros (b & r & a & E & _); destruct b; discriminate].
    - destruct (str_eqb_spec (rec_name x) n) as [E|N].
      + split.
        * intros (r & l & [= <- _] & HR). exists [], x, recs. repeat split; auto.
        * intros ([|y b] & r & a & [= <- ER] & HN & HR & HB); [eauto|]. exfalso. apply (HB x); [now left|exact E].
      + rewrite IH. split; intros (b & r & a & ER & HN & HR & HB).
        * exists (x :: b), r, a. rewrite ER. repeat split; auto. intros y [<-|I]; [exact N|now apply HB].
        * destruct b as [|y b]; injection ER as <- ER; [contradiction|]. exists b, r, a. repeat split; auto. intros y I. apply HB. now right. }
  now rewrite B.
Qed.
Print Assumptions C23_skip_iff_recorded_ok.

(** over any history of runs, reviews, forgets and crashes, only cases whose latest result
    is OK are skipped *)
Theorem C23_skipped_were_ok :
  forall D (show_dur : D -> str) (parse_dur : str -> option D) sp,
  durations_ok show_dur parse_dur -> space_ok sp ->
  forall h file c selected n,
  history show_dur parse_dur sp h file -> skipped parse_dur sp file c selected n -> latest h n OK.
Proof. intros D show_dur parse_dur sp H1 H2. exact (skip_only_ok show_dur parse_dur sp H1 H2). Qed.
Print Assumptions C23_skipped_were_ok.

(** the sequential run is such an event, complete or cut short *)
Theorem C23_run_is_event :
  forall D W (show_dur : D -> str) parse_dur sp (exec : str -> W -> result * request * D * W)
    c file selected w rv new executed w' k,
  NoDup selected -> Forall field_ok selected ->
  run_cases exec c (of_file parse_dur sp file) selected w = (rv, new, executed, w') ->
  step show_dur parse_dur sp file (ERun (cont c) selected executed k)
    (Some (firstn k (report_text show_dur new))).
Proof.
  intros D W show_dur parse_dur sp exec c file selected w rv new executed w' k Hsel Hf H.
  destruct (C25_sequential_run _ _ _ _ _ _ _ _ _ _ _ H) as (l & rest & _ & _ & Ht & _).
  unfold run_cases in H.
  destruct (run_loop exec (fail_fast c) _ OK false w) as [[rv1 recs] w1] eqn:El in H.
  injection H as <- <- <- <-. apply step_run; auto.
  - pose proof (todo_NoDup (of_file parse_dur sp file) (cont c) selected Hsel) as Hd. rewrite Ht in Hd.
    clear -Hd. induction (map rec_name recs) as [|x a IH]; [constructor|]. cbn [app] in Hd.
    apply NoDup_cons_iff in Hd as [H1 H2]. constructor; [|auto]. intros Hi. apply H1, in_or_app. now left.
  - rewrite Ht. apply incl_appl, incl_refl.
Qed.
Print Assumptions C23_run_is_event.

(** ... and so is --review *)
Theorem C23_review_is_event :
  forall D (show_dur : D -> str) parse_dur sp exp out c passed_arg cases answers f ok f',
  review show_dur parse_dur sp exp out c passed_arg cases answers f = Ret ok f' ->
  let report := path_join out (lit "cases.txt") in
  exists reviews text, lookup report f' = Some text /\
    forall k, step show_dur parse_dur sp (lookup report f) (EReview reviews k) (Some (firstn k text)).
Proof.
  intros D show_dur parse_dur sp exp out c passed_arg cases answers f ok f' H. cbv zeta.
  unfold review in H. destruct (is_file _ f); [|discriminate].
  set (rt := path_join out (lit "cases.txt")) in *. set (recs := of_file parse_dur sp (lookup rt f)) in *.
  set (p := match passed_arg with Some p => p | None => passed recs end) in *.
  destruct (review_loop exp out c p cases recs false answers f) as [[ok1 news] f1|f1] eqn:El; [|discriminate].
  cbn [io_bind fst snd] in H. injection H as <- <-.
  destruct (review_loop_ret _ _ _ _ _ _ _ _ _ _ _ _ El) as (os & Htr & _ & _).
  pose proof (trace_same_cases _ _ _ _ _ _ Htr) as T1. pose proof (trace_results _ _ _ _ _ _ Htr) as T2.
  clearbody p. clear El Htr. exists (combine recs news), (report_text show_dur news).
  split; [now rewrite lookup_write, str_eqb_refl|]. intros k.
  assert (Hl : length recs = length news) by (clear -T1; induction T1; cbn; congruence).
  assert (E1 : map fst (combine recs news) = recs).
  { clear -Hl. revert news Hl. induction recs as [|a l IH]; intros [|b m] Hl; try easy. cbn. f_equal. apply IH. now injection Hl. }
  assert (E2 : map snd (combine recs news) = news).
  { clear -Hl. revert news Hl. induction recs as [|a l IH]; intros [|b m] Hl; try easy. cbn. f_equal. apply IH. now injection Hl. }
  rewrite <- E2 at 2. apply step_review; [exact E1|].
  clear -T1 T2. revert T2. induction T1 as [|a b l m [H1 _] _ IH]; intros T2; [constructor|].
  inversion T2; subst. cbn [combine]. constructor; [split; assumption|]. now apply IH.
Qed.
Print Assumptions C23_review_is_event.

(** examples *)
Definition demo_exec (n : str) (w : list str) : result * request * nat * list str :=
  (if str_eqb n (lit "bad") then DIFF else OK, NONE, length w, n :: w).
Definition demo_config (ff c : bool) : config := {|
  always_interactive := false; interactive := false; update := false; accept := false;
  cont := c; fail_fast := ff; point_error_pos := false |}.

Example C25_example :
  run_cases demo_exec (demo_config true true) [(lit "a", OK, 7); (lit "bad", FAIL, 8); (lit "z", FAIL, 9)]
    [lit "a"; lit "b"; lit "bad"; lit "c"] [] =
  (DIFF, [(lit "a", OK, 7); (lit "z", FAIL, 9); (lit "b", OK, 0); (lit "bad", DIFF, 1)],
   [(lit "b", OK, 0); (lit "bad", DIFF, 1)], [lit "bad"; lit "b"]).
Proof. reflexivity. Qed.

Example C24_example :
  NoDup (map rec_name [(lit "a", OK, 7); (lit "bad", FAIL, 8); (lit "z", FAIL, 9)]) /\
  NoDup [lit "a"; lit "b"; lit "bad"; lit "c"].
Proof. split; repeat constructor; cbn; intuition discriminate. Qed.

Example C23_example :
  let sp := cc_space ascii_class in
  exists h file,
    history ones read_ones sp h file /\ length h = 2 /\
    skipped read_ones sp file true [lit "a"; lit "bad"; lit "b"] (lit "a") /\
    ~ skipped read_ones sp file true [lit "a"; lit "bad"; lit "b"] (lit "bad") /\
    ~ skipped read_ones sp file true [lit "a"; lit "bad"; lit "b"] (lit "b").
Proof.
  cbv zeta. set (sp := cc_space ascii_class).
  pose (sel := [lit "a"; lit "bad"; lit "b"]).
  assert (Hs : NoDup sel) by (repeat constructor; cbn; intuition discriminate).
  assert (Hf : Forall field_ok sel) by (repeat constructor; vm_compute; intuition discriminate).
  destruct (run_cases demo_exec (demo_config false false) (of_file read_ones sp None) sel []) as [[[rv1 new1] ex1] w1] eqn:E1.
  pose proof (C23_run_is_event _ _ ones read_ones sp demo_exec _ _ _ _ _ _ _ _ 100 Hs Hf E1) as S1.
  vm_compute in E1. injection E1 as <- <- <- <-.
  set (f1 := firstn 100 _) in S1. vm_compute in f1.
  destruct (run_cases demo_exec (demo_config false true) (of_file read_ones sp (Some f1)) sel [lit "x"]) as [[[rv2 new2] ex2] w2] eqn:E2.
  pose proof (C23_run_is_event _ _ ones read_ones sp demo_exec _ _ _ _ _ _ _ _ 7 Hs Hf E2) as S2.
  vm_compute in E2. injection E2 as <- <- <- <-.
  eexists. eexists. split; [|split].
  - eapply hist_snoc; [eapply (hist_snoc _ _ _ []); [constructor|exact S1]|exact S2].
  - reflexivity.
  - set (f2 := firstn 7 _). vm_compute in f2. subst f2.
    unfold skipped. change (In (lit "a") sel) with (In (lit "a") sel).
    repeat split; vm_compute; intuition discriminate.
Qed.
