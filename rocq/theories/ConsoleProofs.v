(** Facts about the printed text: forgetting it gives back the runs of RunCaseModel and ReviewModel. *)
From Verif Require Import ConsoleModel.
From Coq Require Import Lia.

Definition run_map {A B} (h : A -> B) (x : run A) : run B :=
  match x with None => None | Some (Raise f) => Some (Raise f) | Some (Ret a f) => Some (Ret (h a) f) end.
Definition io_map {A B} (h : A -> B) (x : io A) : io B := match x with Raise f => Raise f | Ret a f => Ret (h a) f end.

Section Erase.
Context {D : Type} (show_dur : D -> str) (parse_dur : str -> option D) (sp : char -> bool).
Variable show_ms : D -> str.
Variable show_nat : nat -> str.
Variable read_took : str -> option str.
Variable sh : shown.
Variable cc : CharClass.
Variable refloat : str -> option str.
Variables E O R : str.
Variable c : config.
Variable body : str -> fs -> body_run.
Variable dur : str -> D.

Lemma erase_case name answers f :
  run_map fst (run_case_out show_ms sh cc refloat E O c body dur name answers f) = run_case cc refloat E O c body name answers f.
Proof.
  unfold run_case_out, run_case. destruct (case_start E O name f) as [snap f1|f1]; [|reflexivity]. cbn [run_bind].
  destruct (run_body _ _ _ _ _) as [s|]; [|reflexivity]. cbv zeta.
  destruct (case_review _ _ _ _ _ _ _) as [[[res req] ans] f3|f3]; [|reflexivity]. cbn [run_bind].
  destruct res; cbn [run_map fst]; try reflexivity; destruct (save_value _ _ _ _); reflexivity.
Qed.
Lemma erase_todo todo : forall rv fails tests recs answers text f,
  run_map fst (run_todo_out show_dur show_ms sh cc refloat E O R c body dur todo rv fails tests recs answers text f) =
  run_todo cc refloat E O R c body show_dur dur todo rv (match fails with [] => false | _ => true end) recs answers f.
Proof.
  induction todo as [|n todo IH]; intros rv fails tests recs answers text f; [reflexivity|]. cbn [run_todo_out run_todo].
  rewrite <- erase_case. destruct (run_case_out _ _ _ _ _ _ _ _ _ _ _ _) as [[[[[res req] ans] t] f1|f1]|]; [|reflexivity|reflexivity]. cbn [run_map run_bind fst].
  assert (F : match (if is_ok res then fails else fails ++ [n]) with [] => false | _ => true end = match fails with [] => false | _ => true end || negb (is_ok res)).
  { destruct res, fails; reflexivity. }
  rewrite F. destruct (is_abort req || _); [reflexivity|]. rewrite IH, F. reflexivity.
Qed.
Lemma erase_run all_names took selected answers f :
  run_map fst (run_async_out show_dur parse_dur sp show_ms show_nat sh cc refloat E O R c body dur all_names took selected answers f) =
  run_async cc refloat E O R c body show_dur parse_dur sp dur all_names (metrics_json took) selected answers f.
Proof.
  unfold run_async_out, run_async. cbv zeta.
  match goal with |- run_map fst (run_bind (run_todo_out _ _ _ _ _ _ _ _ _ _ _ ?T _ _ _ ?RC ?A ?X ?F) _) = _ =>
    pose proof (erase_todo T OK [] 0 RC A X F) as H; cbn beta iota in H; rewrite <- H; clear H;
    destruct (run_todo_out show_dur show_ms sh cc refloat E O R c body dur T OK [] 0 RC A X F) as [[[[[rv recs] ans] [[fails tests] text]] f1|f1]|] end; reflexivity.
Qed.

Lemma erase_review_loop passed cases records : forall abort answers f,
  io_map fst (review_loop_out show_ms sh E O c passed cases records abort answers f) = review_loop E O c passed cases records abort answers f.
Proof.
  induction records as [|[[n res] d] rest IH]; intros abort answers f; [reflexivity|]. cbn [review_loop_out review_loop]. cbv zeta.
  destruct (negb abort && _).
  - destruct (case_review _ _ _ _ _ _ _) as [[[res' req] ans] f1|f1]; [|reflexivity]. cbn [io_bind]. rewrite <- IH.
    destruct (review_loop_out _ _ _ _ _ _ _ _ _ _ _) as [[[ok recs] t] f2|f2]; reflexivity.
  - rewrite <- IH. destruct (review_loop_out _ _ _ _ _ _ _ _ _ _ _) as [[[ok recs] t] f2|f2]; reflexivity.
Qed.
Lemma erase_review passed cases answers f : (forall m, lookup (path_join O (lit "metrics.json")) f = Some m -> read_took m <> None) ->
  io_map fst (review_out show_dur parse_dur sp show_ms show_nat read_took sh E O c passed cases answers f) = review show_dur parse_dur sp E O c passed cases answers f.
Proof.
  intros HM. unfold review_out, review, is_file. destruct (lookup (path_join O (lit "metrics.json")) f) as [m|]; [|reflexivity].
  destruct (read_took m) as [took|] eqn:ET; [|now elim (HM m)]. cbv zeta. rewrite <- erase_review_loop.
  destruct (review_loop_out _ _ _ _ _ _ _ _ _ _ _) as [[[ok recs] t] f2|f2]; reflexivity.
Qed.
End Erase.
