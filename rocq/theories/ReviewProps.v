(** Properties of booktest/review.py. *)
From Verif Require Import ReviewLoop RunnerProofs ReportsProps.
From Coq Require Import Lia.

(** C17. Reviewing without -a, -u, -i, -I. *)
Theorem C17_ci_review_changes_nothing :
  forall exp out n res c answers f,
  accept c = false -> update c = false -> interactive c = false -> always_interactive c = false ->
  case_review exp out n res c answers f = Ret (res, NONE, answers) f.
Proof.
  intros exp out n res c answers f H1 H2 H3 H4.
  unfold case_review. rewrite H1, H2, H3, H4. destruct res; reflexivity.
Qed.
Print Assumptions C17_ci_review_changes_nothing.

(** ... and so for a whole --review: only the report file is rewritten. *)
Theorem C17_ci_review_command :
  forall D (show_dur : D -> str) parse_dur sp exp out c passed cases answers f ok f',
  accept c = false -> update c = false -> interactive c = false -> always_interactive c = false ->
  review show_dur parse_dur sp exp out c passed cases answers f = Ret ok f' ->
  (forall p, p <> path_join out (lit "cases.txt") -> lookup p f' = lookup p f) /\
  lookup (path_join out (lit "cases.txt")) f' =
    Some (report_text show_dur (of_file parse_dur sp (lookup (path_join out (lit "cases.txt")) f))).
Proof.
  intros D show_dur parse_dur sp exp out c passed0 cases answers f ok f' H1 H2 H3 H4 H.
  unfold review in H. destruct (is_file _ f); [|discriminate].
  set (rt := path_join out (lit "cases.txt")) in *. set (recs := of_file parse_dur sp (lookup rt f)) in *.
  set (p := match passed0 with Some p => p | None => passed recs end) in H. clearbody p.
  assert (HL : forall (l : list (case_rec D)) a ans g, review_loop exp out c p cases l a ans g =
             Ret (forallb (fun r => is_ok (rec_result r)) l, l) g).
  { induction l as [|[[n r] d] l IH]; intros a ans g; [reflexivity|]. cbn [review_loop].
    destruct (negb a && _); [rewrite C17_ci_review_changes_nothing by assumption; cbn [io_bind]|];
      rewrite IH; reflexivity. }
  rewrite HL in H. cbn [io_bind snd] in H. injection H as _ <-. split.
  - intros q Hq. rewrite lookup_write. apply not_eq_sym, str_eqb_neq in Hq. now rewrite Hq.
  - now rewrite lookup_write, str_eqb_refl.
Qed.
Print Assumptions C17_ci_review_command.
Example C17_example :
  let c := {| always_interactive := false; interactive := false; update := false; accept := false; cont := false; fail_fast := false; point_error_pos := false |} in
  let f := [(lit "books/.out/cases.txt", lit "a" ++ TAB :: lit "DIFF" ++ TAB :: lit "7" ++ [NL]); (lit "books/.out/metrics.json", lit "{}");
    (lit "books/.out/a.md", lit "new"); (lit "books/a.md", lit "old")] in
  exists f', review (fun d : str => d) Some (fun c => N.eqb c SP) (lit "books") (lit "books/.out") c None (Some [lit "a"]) [] f = Ret false f' /\
    lookup (lit "books/a.md") f' = Some (lit "old") /\ lookup (lit "books/.out/a.md") f' = Some (lit "new").
Proof. eexists. split; [vm_compute; reflexivity|]. vm_compute. split; reflexivity. Qed.

(** C18. A FAIL result is never accepted. *)
Theorem C18_fail_never_accepted :
  forall exp out n c answers f,
  case_review exp out n FAIL c answers f = Raise f \/
  exists r rest, case_review exp out n FAIL c answers f = Ret (FAIL, r, rest) f /\ r <> FREEZE.
Proof. exact fail_untouched. Qed.
Print Assumptions C18_fail_never_accepted.

Definition all_flags : config := {|
  always_interactive := true; interactive := true; update := true; accept := true;
  cont := false; fail_fast := false; point_error_pos := false |}.

Example C18_example : forall f,
  case_review (lit "books") (lit "books/.out") (lit "t") FAIL all_flags [lit "a"; lit "x"; lit "q"; lit "a"] f
  = Ret (FAIL, ABORT, [lit "a"]) f.
Proof. reflexivity. Qed.

(** C19. What accepting does: [exp] is the snapshot directory, [exp/o] the output directory
    (o = ".out"), [n] the case. The hypotheses on [f] say that the output exists and that no
    file stands where a directory is to be, or the other way round. *)
Theorem C19_accept_replaces_snapshot :
  forall exp o n f c,
  plain_dir exp -> plain o -> plain n -> ~ path_prefix o n -> ~ path_prefix n o ->
  let out := exp ++ SLASH :: o in
  lookup (out ++ SLASH :: n ++ lit ".md") f = Some c ->
  lookup (exp ++ SLASH :: n) f = None -> lookup (out ++ SLASH :: n) f = None ->
  is_dir (exp ++ SLASH :: n ++ lit ".md") f = false ->
  exists f', freeze_case exp out n f = Ret tt f' /\ accepted exp out n f f'.
Proof.
  intros exp o n f c H1 H2 H3 H4 H5 out H6 H7 H8 H9.
  exact (freeze_accepts exp o n H1 H2 H3 H4 H5 f H7 H9 H8 c H6).
Qed.
Print Assumptions C19_accept_replaces_snapshot.

(** The review accepts exactly when the user says so or the automatic flags do, and the result
    is then OK. *)
Theorem C19_accepted_result :
  forall exp out n res c answers f res' r rest f',
  case_review exp out n res c answers f = Ret (res', r, rest) f' ->
  (r = FREEZE \/ automatic c res) /\ res' = OK /\ res <> FAIL /\ freeze_case exp out n f = Ret tt f' \/
  r <> FREEZE /\ ~ automatic c res /\ res' = res /\ f' = f.
Proof.
  intros exp out n res c answers f res' r rest f' H.
  exact (proj2 (case_review_ret _ _ _ _ _ _ _ _ _ _ _ H)).
Qed.
Print Assumptions C19_accepted_result.

(** "No file of another test is changed" is false: *)
Theorem C19_others_untouched_refuted :
  exists f f' n m, n <> m /\
    freeze_case (lit "books") (lit "books/.out") n f = Ret tt f' /\
    case_file (lit "books") m (lit "books/a/b.md") /\
    lookup (lit "books/a/b.md") f <> None /\ lookup (lit "books/a/b.md") f' = None.
Proof.
  exists [(lit "books/.out/a.md", lit "new"); (lit "books/a.md", lit "old"); (lit "books/a/b.md", lit "b")].
  eexists. exists (lit "a"), (lit "a/b"). split; [discriminate|]. split; [vm_compute; reflexivity|].
  split; [now left|]. split; [discriminate|reflexivity].
Qed.
Print Assumptions C19_others_untouched_refuted.

(** True for a case whose name is no path prefix of the other and vice versa. *)
Theorem C19_others_untouched_partial :
  forall exp o n m f f' p,
  plain_dir exp -> plain o -> plain n ->
  n <> m -> ~ path_prefix n m -> ~ path_prefix m n -> ~ path_prefix o m -> ~ path_prefix m o ->
  ~ path_prefix o n -> ~ path_prefix n o -> n <> m ++ lit ".md" ->
  freeze_case exp (exp ++ SLASH :: o) n f = Ret tt f' ->
  case_file exp m p -> lookup p f' = lookup p f.
Proof.
  intros exp o n m f f' p HE Ho Hn Hnm H1 H2 H3 H4 H5 H6 Hmdn Hf Hp.
  pose proof (plain_O exp o n HE Ho H5 H6) as HO.
  destruct (plain_join exp n HE Hn) as [J1 J2]. destruct (plain_join _ n HO Hn) as [J3 J4].
  pose proof (freeze_frame exp (exp ++ SLASH :: o) n f p) as F. rewrite Hf in F. apply F; clear F.
  - unfold case_area. rewrite J1, J2. rewrite below_iff.
    destruct Hp as [->|[r ->]]; intros [E|[E|[q E]]]; rewrite <- ?app_assoc in E;
      apply app_inv_head in E; injection E as E.
    + apply md_inj in E. congruence.
    + congruence.
    + apply md_slash_inv in E as [r ->]. apply H1. right. eauto.
    + symmetry in E. apply md_slash_inv in E as [q ->]. apply H2. right. eauto.
    + apply H2. right. eauto.
    + destruct (app_slash_inv _ _ _ _ E); contradiction.
  - unfold case_area. rewrite J3, J4. rewrite below_iff. rewrite <- !app_assoc. cbn [app].
    destruct Hp as [->|[r ->]]; intros [E|[E|[q E]]]; rewrite <- ?app_assoc in E;
      apply app_inv_head in E; injection E as E.
    all: rewrite <- ?app_assoc in E; cbn [app] in E; rewrite <- ?app_assoc in E; cbn [app] in E.
    1-3: apply md_slash_inv in E as [r ->]; apply H3; right; eauto.
    all: destruct (app_slash_inv _ _ _ _ E); contradiction.
Qed.
Print Assumptions C19_others_untouched_partial.

Example C19_example :
  let f := [(lit "books/.out/t/a.md", lit "new"); (lit "books/.out/t/a/pic", lit "p2");
            (lit "books/t/a.md", lit "old"); (lit "books/t/a/stale", lit "s"); (lit "books/t/ab.md", lit "other")] in
  plain_dir (lit "books") /\ plain (lit ".out") /\ plain (lit "t/a") /\
  ~ path_prefix (lit ".out") (lit "t/a") /\ ~ path_prefix (lit "t/a") (lit ".out") /\
  ~ path_prefix (lit "t/a") (lit "t/ab") /\ ~ path_prefix (lit "t/ab") (lit "t/a") /\
  exists f', freeze_case (lit "books") (lit "books/.out") (lit "t/a") f = Ret tt f' /\
    lookup (lit "books/t/a.md") f' = Some (lit "new") /\ lookup (lit "books/t/a/pic") f' = Some (lit "p2") /\
    lookup (lit "books/t/a/stale") f' = None /\ lookup (lit "books/t/ab.md") f' = Some (lit "other").
Proof.
  assert (P : forall a b : str, starts_with (a ++ [SLASH]) b = false -> str_eqb b a = false -> ~ path_prefix a b).
  { intros a b H1 H2 [H|[r H]]; subst.
    - rewrite str_eqb_refl in H2. discriminate.
    - assert (starts_with (a ++ [SLASH]) (a ++ SLASH :: r) = true)
        by (apply starts_with_iff; exists r; now rewrite <- app_assoc). congruence. }
  repeat (split; [first [apply P; reflexivity|repeat split; discriminate]|]).
  eexists. split; [vm_compute; reflexivity|repeat split].
Qed.

(** C20. The answers. *)
Theorem C20_answers :
  forall res answers r rest, interact res answers = Some (r, rest) <-> decision res answers r rest.
Proof. exact interact_iff. Qed.
Print Assumptions C20_answers.

(** A snapshot changes only if the deciding answer was 'a' or the automatic flags say so;
    if no answer decides, the review does not return and changes nothing. *)
Theorem C20_only_accept_changes :
  forall exp out n res c answers f,
  (exists r rest, reviewed c res answers r rest /\
     ((r = FREEZE \/ automatic c res) \/ case_review exp out n res c answers f = Ret (res, r, rest) f)) \/
  (asked c res /\ (forall r rest, ~ decision res answers r rest) /\
     case_review exp out n res c answers f = Raise f).
Proof.
  intros exp out n res c answers f.
  destruct (case_review_cases exp out n res c answers f) as [(r & rest & Hr & [[Hc He]|(H1 & H2 & H3)])|H].
  - left. exists r, rest. auto.
  - left. exists r, rest. auto.
  - now right.
Qed.
Print Assumptions C20_only_accept_changes.

Theorem C20_quit_changes_nothing :
  forall exp out n res c answers rest f,
  asked c res -> decision res answers ABORT rest -> ~ automatic c res ->
  case_review exp out n res c answers f = Ret (res, ABORT, rest) f.
Proof.
  intros exp out n res c answers rest f Ha Hd Hn.
  destruct (case_review_cases exp out n res c answers f) as [(r & rest' & Hr & [[Hc He]|(H1 & H2 & H3)])|(_ & H & _)].
  - exfalso. destruct Hr as [[_ Hd']|(Hna & _)]; [|contradiction].
    apply interact_iff in Hd, Hd'. rewrite Hd in Hd'. injection Hd' as <- <-.
    destruct Hc as [Hc|Hc]; [discriminate|contradiction].
  - destruct Hr as [[_ Hd']|(Hna & _)]; [|contradiction].
    apply interact_iff in Hd, Hd'. rewrite Hd in Hd'. injection Hd' as <- <-. exact H3.
  - exfalso. exact (H _ _ Hd).
Qed.
Print Assumptions C20_quit_changes_nothing.

Example C20_example :
  decision DIFF [lit "v"; lit "A"; []; lit "a"; lit "q"] FREEZE [lit "q"] /\
  decision FAIL [lit "a"; lit "q"] ABORT [] /\
  asked all_flags DIFF /\ ~ automatic {| always_interactive := true; interactive := false; update := true;
    accept := false; cont := false; fail_fast := false; point_error_pos := false |} DIFF.
Proof.
  split; [apply interact_iff; reflexivity|]. split; [apply interact_iff; reflexivity|].
  split; [now left|]. intros [[H _]|[_ H]]; discriminate.
Qed.

(** C26. --review. [os] tells for each recorded case whether it was passed over or which
    request its review ended with. *)
Theorem C26_review_command :
  forall D (show_dur : D -> str) parse_dur sp exp out c passed_arg cases answers f ok f',
  review show_dur parse_dur sp exp out c passed_arg cases answers f = Ret ok f' ->
  let report := path_join out (lit "cases.txt") in
  let old := of_file parse_dur sp (lookup report f) in
  let left_out := match passed_arg with Some p => p | None => passed old end in
  let chosen n := match cases with None => true | Some cs => str_mem n cs end
                  && (negb (cont c) || negb (str_mem n left_out)) in
  exists new os,
    lookup report f' = Some (report_text show_dur new) /\
    review_trace c chosen false old new os /\
    Forall2 (fun o n => rec_name n = rec_name o /\ rec_dur n = rec_dur o) old new /\
    Forall2 (fun o n => rec_result n = rec_result o \/ (rec_result o = DIFF /\ rec_result n = OK)) old new /\
    Forall2 (fun o n => chosen (rec_name o) = false -> n = o) old new /\
    (ok = true <-> Forall (fun n => rec_result n = OK) new) /\
    forall p, p <> report ->
      (forall o r, In (o, Some r) (combine old os) -> r = FREEZE \/ automatic c (rec_result o) ->
         ~ case_area exp (rec_name o) p /\ ~ case_area out (rec_name o) p) ->
      lookup p f' = lookup p f.
Proof.
  intros D show_dur parse_dur sp exp out c passed_arg cases answers f ok f' H. cbv zeta.
  unfold review in H. destruct (is_file _ f); [|discriminate].
  set (rt := path_join out (lit "cases.txt")) in *. set (recs := of_file parse_dur sp (lookup rt f)) in *.
  set (p := match passed_arg with Some p => p | None => passed recs end) in *.
  destruct (review_loop exp out c p cases recs false answers f) as [[ok1 news] f1|f1] eqn:El; [|discriminate].
  cbn [io_bind fst snd] in H. injection H as <- <-.
  destruct (review_loop_ret _ _ _ _ _ _ _ _ _ _ _ _ El) as (os & Ht & -> & Hf).
  exists news, os. split; [now rewrite lookup_write, str_eqb_refl|]. split; [exact Ht|].
  split; [exact (trace_same_cases _ _ _ _ _ _ Ht)|]. split; [exact (trace_results _ _ _ _ _ _ Ht)|].
  split; [exact (trace_not_chosen _ _ _ _ _ _ Ht)|]. split.
  - rewrite forallb_forall, Forall_forall. split; intros Hx x Hin; apply is_ok_iff; auto.
  - intros q Hq Hp. rewrite lookup_write. apply not_eq_sym, str_eqb_neq in Hq. rewrite Hq. now apply Hf.
Qed.
Print Assumptions C26_review_command.

Example C26_example :
  let f := [(lit "b/.out/metrics.json", lit "{}");
            (lit "b/.out/cases.txt", report_text ones [(lit "x", FAIL, 1); (lit "y", DIFF, 2); (lit "z", DIFF, 3)]);
            (lit "b/.out/y.md", lit "new y"); (lit "b/.out/z.md", lit "new z")] in
  exists f', review ones read_ones (cc_space ascii_class) (lit "b") (lit "b/.out")
      {| always_interactive := false; interactive := true; update := false; accept := false;
         cont := false; fail_fast := false; point_error_pos := false |}
      None None [lit "a"; lit "c"; lit "a"; lit "q"] f = Ret false f' /\
    lookup (lit "b/.out/cases.txt") f' =
      Some (report_text ones [(lit "x", FAIL, 1); (lit "y", OK, 2); (lit "z", DIFF, 3)]) /\
    lookup (lit "b/y.md") f' = Some (lit "new y") /\ lookup (lit "b/z.md") f' = None.
Proof. eexists. split; [vm_compute; reflexivity|]. repeat split. Qed.
