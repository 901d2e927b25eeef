(** Proofs about testrun.py and histories of runs. *)
From Verif Require Export RunnerSpec ReportsProofs.
From Coq Require Import Lia.

Lemma ok_iff r : is_ok r = true <-> r = OK.
Proof. destruct r; simpl; split; congruence. Qed.
Lemma ok_false_iff r : is_ok r = false <-> r <> OK.
Proof. destruct r; simpl; split; congruence. Qed.

Section Runner.
Context {D W : Type} (exec : str -> W -> result * request * D * W).

Definition worst (rv : result) (l : list (case_rec D)) : result :=
  fold_left (fun rv c => add_result rv (rec_result c)) l rv.

Lemma run_loop_ret ff : forall todo rv fails w rv' recs w',
  (ff = true -> fails = false) ->
  run_loop exec ff todo rv fails w = (rv', recs, w') ->
  exists l rest, recs = map fst l /\ executions exec w l w' /\
    todo = map rec_name recs ++ rest /\ rv' = worst rv recs /\
    (rest <> [] -> exists l' x, l = l' ++ [x] /\ stops ff x) /\
    (forall l1 x l2, l = l1 ++ x :: l2 -> l2 <> [] -> ~ stops ff x).
Proof.
  induction todo as [|name todo IH]; intros rv fails w rv' recs w' Hff H.
  - cbn in H. injection H as <- <- <-. exists [], []. repeat split; try constructor; try easy.
    intros l1 x l2 E. destruct l1; discriminate.
  - cbn [run_loop] in H. destruct (exec name w) as [[[res req] dur] w1] eqn:Ex.
    destruct (is_abort req || (ff && (fails || negb (is_ok res)))) eqn:Es.
    + injection H as <- <- <-. exists [((name, res, dur), req)], todo.
      split; [reflexivity|]. split; [econstructor; [exact Ex|constructor]|].
      split; [reflexivity|]. split; [reflexivity|]. split.
      * intros _. exists [], ((name, res, dur), req). split; [reflexivity|].
        unfold stops. cbn [fst snd rec_result].
        apply orb_true_iff in Es as [Ea|Ea]; [left; now destruct req|right].
        apply andb_true_iff in Ea as [-> Ea]. rewrite (Hff eq_refl) in Ea. cbn [orb] in Ea.
        apply negb_true_iff, ok_false_iff in Ea. auto.
      * intros [|? [|? ?]] x l2 E Hl2; injection E; intros; subst; try easy; try discriminate.
    + destruct (run_loop exec ff todo (add_result rv res) (fails || negb (is_ok res)) w1)
        as [[rv2 recs2] w2] eqn:El.
      injection H as <- <- <-.
      apply orb_false_iff in Es as [Ea Eb].
      assert (Hff' : ff = true -> fails || negb (is_ok res) = false)
        by (intros ->; exact Eb).
      destruct (IH _ _ _ _ _ _ Hff' El) as (l & rest & -> & Hex & -> & -> & Hst & Hno).
      exists (((name, res, dur), req) :: l), rest.
      split; [reflexivity|]. split; [econstructor; eauto|]. split; [reflexivity|]. split; [reflexivity|].
      split.
      * intros Hr. destruct (Hst Hr) as (l' & x & -> & Hx). exists (((name, res, dur), req) :: l'), x. auto.
      * intros [|y l1] x l2 E Hl2.
        -- injection E as <- <-. unfold stops. cbn [fst snd rec_result]. intros [->|[-> Hn]]; [discriminate|].
           specialize (Hff' eq_refl). apply orb_false_iff in Hff' as [_ Hf].
           apply negb_false_iff, ok_iff in Hf. contradiction.
        -- injection E as <- E. eapply Hno; eauto.
Qed.

Lemma worst_FAIL recs : forall rv, worst rv recs = FAIL <->
  rv = FAIL \/ Exists (fun c => rec_result c = FAIL) recs.
Proof.
  induction recs as [|c recs IH]; intros rv; cbn [worst fold_left].
  - split; [auto|]. intros [H|H]; [exact H|]. inversion H.
  - unfold worst in IH. rewrite IH, Exists_cons. destruct rv, (rec_result c); cbn; intuition congruence.
Qed.

Lemma worst_OK recs : forall rv, worst rv recs = OK <->
  rv = OK /\ Forall (fun c => rec_result c = OK) recs.
Proof.
  induction recs as [|c recs IH]; intros rv; cbn [worst fold_left].
  - split; [auto|]. now intros [H _].
  - unfold worst in IH. rewrite IH, Forall_cons_iff. destruct rv, (rec_result c); cbn; intuition congruence.
Qed.

Lemma executions_det l : forall w w1 w2, executions exec w l w1 -> executions exec w l w2 -> w1 = w2.
Proof.
  induction l as [|x l IH]; intros w w1 w2 H1 H2; inversion H1; inversion H2; subst; [congruence|].
  match goal with E : (_, _) = (_, _) |- _ => injection E as ? ? ? ? end. subst.
  match goal with A : exec ?n w = _, B : exec ?n w = _ |- _ => rewrite A in B; injection B as -> end.
  eapply IH; eauto.
Qed.
End Runner.

(** ** -c *)
Section Todo.
Context {D : Type}.

Lemma todo_iff (old : list (case_rec D)) cases n :
  In n (snd (done_and_todo old cases)) <->
  In n cases /\ ~ (exists r l, by_name n old = r :: l /\ rec_result r = OK).
Proof.
  induction cases as [|i cases IH]; [cbn; tauto|]. cbn [done_and_todo].
  destruct (done_and_todo old cases) as [done todo]. cbn [snd] in IH.
  destruct (by_name i old) as [|r l] eqn:Eb.
  - cbn [snd In]. rewrite IH. split.
    + intros [<-|[H1 H2]]; [|auto]. split; [auto|]. rewrite Eb. now intros (? & ? & ? & _).
    + intros [[<-|H1] H2]; auto.
  - destruct (is_ok (rec_result r)) eqn:Er; cbn [snd In]; rewrite IH.
    + apply ok_iff in Er. split; [tauto|]. intros [[<-|H1] H2]; [|auto]. exfalso. apply H2. eauto.
    + apply ok_false_iff in Er. split.
      * intros [<-|[H1 H2]]; [|auto]. split; [auto|]. rewrite Eb. intros (r' & l' & [= <- _] & H). contradiction.
      * intros [[<-|H1] H2]; auto.
Qed.

Lemma todo_NoDup (old : list (case_rec D)) c cases : NoDup cases ->
  NoDup (snd (cases_to_done_and_todo old c cases)).
Proof.
  unfold cases_to_done_and_todo. destruct c; [|auto]. induction 1 as [|i cases Hi _ IH]; [constructor|].
  cbn [done_and_todo]. pose proof (todo_iff old cases i) as Ht.
  destruct (done_and_todo old cases) as [done todo]. cbn [snd] in *.
  destruct (by_name i old) as [|r l]; [|destruct (is_ok (rec_result r))]; cbn [snd]; auto;
    constructor; tauto.
Qed.

Lemma todo_incl (old : list (case_rec D)) c cases : incl (snd (cases_to_done_and_todo old c cases)) cases.
Proof.
  unfold cases_to_done_and_todo. destruct c; [|apply incl_refl]. intros n H. now apply todo_iff in H.
Qed.

Lemma by_name_In (n : str) (l : list (case_rec D)) r : In r (by_name n l) <-> In r l /\ rec_name r = n.
Proof. unfold by_name. rewrite filter_In, str_eqb_eq. tauto. Qed.

Lemma kept_In (old : list (case_rec D)) todo r : In r (kept old todo) <-> In r old /\ ~ In (rec_name r) todo.
Proof. unfold kept. rewrite filter_In, negb_true_iff, str_mem_not_In. tauto. Qed.

Lemma NoDup_map_filter {A B} (g : A -> B) h (l : list A) : NoDup (map g l) -> NoDup (map g (filter h l)).
Proof.
  induction l as [|a l IH]; intros H; [constructor|]. cbn [map] in H. apply NoDup_cons_iff in H as [Ha Hl].
  cbn [filter]. destruct (h a); [|auto]. cbn [map]. constructor; [|auto]. intros Hi. apply Ha.
  apply in_map_iff in Hi as (b & Eb & Hb). apply filter_In in Hb as [Hb _]. apply in_map_iff. eauto.
Qed.

Lemma NoDup_app {A} (a b : list A) : NoDup a -> NoDup b -> (forall x, In x a -> ~ In x b) -> NoDup (a ++ b).
Proof.
  intros Ha Hb H. induction Ha as [|x a Hx _ IH]; [exact Hb|]. cbn [app]. constructor.
  - rewrite in_app_iff. intros [Hi|Hi]; [contradiction|]. apply (H x); [now left|exact Hi].
  - apply IH. intros y Hy. apply H. now right.
Qed.

Lemma report_NoDup (old executed : list (case_rec D)) todo :
  NoDup (map rec_name old) -> NoDup (map rec_name executed) -> incl (map rec_name executed) todo ->
  NoDup (map rec_name (kept old todo ++ executed)).
Proof.
  intros H1 H2 H3. rewrite map_app. apply NoDup_app; [now apply NoDup_map_filter|exact H2|].
  intros n Hn He. apply in_map_iff in Hn as (r & <- & Hr). apply kept_In in Hr as [_ Hr]. apply Hr. now apply H3.
Qed.

End Todo.

(** ** histories *)
Section History.
Context {D : Type} (show_dur : D -> str) (parse_dur : str -> option D) (sp : char -> bool).
Hypothesis DUR : durations_ok show_dur parse_dur.
Hypothesis SPC : space_ok sp.

Let read := of_file parse_dur sp.

Lemma univ_split_no_CR text l : In l (split_on NL (univ_newlines text)) -> ~ In CR l /\ ~ In NL l.
Proof.
  intros H. split.
  - intros Hc. apply (univ_newlines_no_CR text). rewrite <- (join_split NL (univ_newlines text)).
    clear -H Hc. induction (split_on NL (univ_newlines text)) as [|a ls IH]; [easy|].
    destruct ls as [|b ls]; [destruct H as [->|[]]; exact Hc|].
    rewrite join_cons by discriminate. rewrite !in_app_iff. destruct H as [->|H]; auto.
  - pose proof (split_on_parts NL (univ_newlines text)) as Hp. rewrite Forall_forall in Hp. now apply Hp.
Qed.

Lemma removelast_In {A} (x : A) l : In x (removelast l) -> In x l.
Proof.
  induction l as [|a l IH]; [easy|]. cbn. destruct l; [easy|]. intros [->|H]; [now left|right; auto].
Qed.

Lemma read_names_ok file : names_ok (read file).
Proof.
  unfold names_ok, read, of_file. apply Forall_forall. intros c Hc. apply in_flat_map in Hc as (j & Hj & Hc).
  destruct file as [text|]; [|destruct Hj].
  assert (Hl : ~ In CR j /\ ~ In NL j).
  { apply (univ_split_no_CR text). unfold read_lines in Hj. match type of Hj with In _ (match ?x with _ => _ end) => destruct x end; [now apply removelast_In|exact Hj]. }
  unfold parse_case in Hc. destruct (strip sp j); [destruct Hc|].
  pose proof (split_on_parts TAB j) as Hp. pose proof (join_split TAB j) as Hjoin.
  destruct (split_on TAB j) as [|n [|r [|d ps]]]; try (now destruct Hc).
  destruct (result_of_name r), (parse_dur d); try (now destruct Hc).
  destruct Hc as [<-|[]]. cbn [rec_name fst]. apply Forall_cons_iff in Hp as [Hp _].
  rewrite join_cons in Hjoin by discriminate. destruct Hl as [H1 H2].
  repeat split; [exact Hp| |]; intros Hi; [apply H2|apply H1]; rewrite <- Hjoin, !in_app_iff; auto.
Qed.

(** what is read after saving *)
Lemma read_saved recs k : names_ok recs ->
  forall n r d, In (n, r, d) (read (Some (firstn k (report_text show_dur recs)))) ->
  exists d', In (n, r, d') recs.
Proof.
  intros H n r d Hin.
  destruct (of_file_prefix show_dur parse_dur sp DUR SPC recs (firstn k (report_text show_dur recs))
             (skipn k (report_text show_dur recs)) H) as (i & tl & E & Ht).
  { symmetry. apply firstn_skipn. }
  unfold read in Hin. rewrite E, in_app_iff in Hin. destruct Hin as [Hin|Hin].
  - exists d. rewrite <- (firstn_skipn i recs), in_app_iff. now left.
  - destruct Ht as [->|(n0 & r0 & d0 & d1 & Hn & ->)]; [destruct Hin|].
    destruct Hin as [[= <- <- <-]|[]]. exists d0. now apply nth_error_In in Hn.
Qed.

Lemma latest_snoc_hit (h : list (event D)) e n r : gets e n r -> latest (h ++ [e]) n r.
Proof. intros H. exists h, e, []. repeat split; auto. Qed.

Lemma latest_snoc_miss (h : list (event D)) e n r : (forall r', ~ gets e n r') -> latest h n r -> latest (h ++ [e]) n r.
Proof.
  intros H (h1 & e1 & h2 & -> & Hg & Hn). exists h1, e1, (h2 ++ [e]). split; [now rewrite <- app_assoc|].
  split; [exact Hg|]. intros e' r' Hi. apply in_app_iff in Hi as [Hi|[<-|[]]]; [now apply Hn|apply H].
Qed.

(** the names in the report stay distinct *)
Lemma of_file_saved_NoDup recs k : names_ok recs -> NoDup (map rec_name recs) ->
  NoDup (map rec_name (read (Some (firstn k (report_text show_dur recs))))).
Proof.
  intros H Hnd.
  destruct (of_file_prefix show_dur parse_dur sp DUR SPC recs (firstn k (report_text show_dur recs))
             (skipn k (report_text show_dur recs)) H) as (i & tl & E & Ht).
  { symmetry. apply firstn_skipn. }
  unfold read. rewrite E, map_app.
  assert (Hf : exists t, map rec_name recs = map rec_name (firstn i recs) ++ map rec_name tl ++ t).
  { destruct Ht as [->|(n & r & d & d' & Hn & ->)].
    - exists (map rec_name (skipn i recs)). rewrite <- (firstn_skipn i recs) at 1. now rewrite map_app.
    - exists (map rec_name (skipn (S i) recs)).
      assert (Hsk : skipn i recs = (n, r, d) :: skipn (S i) recs).
      { clear -Hn. revert i Hn. induction recs as [|a recs IH]; intros [|i] Hn; try discriminate.
        - cbn in Hn. injection Hn as ->. reflexivity.
        - cbn in Hn. cbn [skipn]. now apply IH. }
      rewrite <- (firstn_skipn i recs) at 1. now rewrite map_app, Hsk. }
  destruct Hf as [t Hf]. rewrite Hf, app_assoc in Hnd. clear -Hnd.
  revert Hnd. generalize (map rec_name (firstn i recs) ++ map rec_name tl). intros a H.
  induction a as [|x a IH]; [constructor|]. cbn [app] in H. apply NoDup_cons_iff in H as [H1 H2].
  constructor; [|auto]. intros Hi. apply H1. apply in_or_app. now left.
Qed.

Lemma review_names (l : list (case_rec D * case_rec D)) :
  Forall (fun x => rec_name (snd x) = rec_name (fst x) /\
       (rec_result (snd x) = rec_result (fst x) \/
        (rec_result (fst x) = DIFF /\ rec_result (snd x) = OK))) l ->
  map rec_name (map snd l) = map rec_name (map fst l).
Proof.
  induction 1 as [|x l [H _] _ IH]; [reflexivity|]. cbn [map]. now rewrite H, IH.
Qed.

Lemma names_ok_map (a b : list (case_rec D)) : map rec_name a = map rec_name b -> names_ok b -> names_ok a.
Proof. unfold names_ok. rewrite <- !(Forall_map rec_name field_ok). now intros ->. Qed.

Lemma NoDup_map_eq {A B} (g : A -> B) l x y : NoDup (map g l) -> In x l -> In y l -> g x = g y -> x = y.
Proof.
  induction l as [|a l IH]; [easy|]. cbn [map]. intros H Hx Hy E. apply NoDup_cons_iff in H as [Ha Hl].
  destruct Hx as [->|Hx], Hy as [->|Hy]; auto.
  - exfalso. apply Ha. rewrite E. now apply in_map.
  - exfalso. apply Ha. rewrite <- E. now apply in_map.
Qed.

Lemma history_inv h file : history show_dur parse_dur sp h file ->
  NoDup (map rec_name (read file)) /\
  forall n r d, In (n, r, d) (read file) -> latest h n r.
Proof.
  induction 1 as [|h e file file' Hh [IHd IH] Hs]; [split; [constructor|easy]|].
  inversion Hs as [? with_c selected executed k todo Htodo Hnd Hincl Hsel|? reviews k Hrev Hrec|? cases k];
    clear Hs; subst; try fold read in Hincl; try fold read in Hrev; fold read.
  - set (todo := snd (cases_to_done_and_todo (read file) with_c selected)) in *.
    assert (Hok : names_ok (kept (read file) todo ++ executed)).
    { apply Forall_app. split.
      - pose proof (read_names_ok file) as Hr. unfold names_ok in Hr. rewrite Forall_forall in Hr.
        apply Forall_forall. intros c Hc. apply Hr. now apply kept_In in Hc.
      - apply Forall_forall. intros c Hc. rewrite Forall_forall in Hsel. apply Hsel.
        apply (todo_incl (read file) with_c). apply Hincl. now apply in_map. }
    split; [apply of_file_saved_NoDup; [exact Hok|now apply report_NoDup]|]. intros n r d Hin.
    destruct (read_saved _ k Hok _ _ _ Hin) as [d' Hi]. apply in_app_iff in Hi as [Hi|Hi].
    + apply kept_In in Hi as [Hi Hno]. apply latest_snoc_miss; [|eapply IH; eauto].
      intros r' [d'' Hd]. apply Hno. apply Hincl. apply (in_map rec_name) in Hd. exact Hd.
    + apply latest_snoc_hit. exists d'. exact Hi.
  - pose proof (review_names _ Hrec) as Hn. rewrite Hrev in Hn.
    assert (Hok : names_ok (map snd reviews)) by (eapply names_ok_map; [exact Hn|apply read_names_ok]).
    split; [apply of_file_saved_NoDup; [exact Hok|now rewrite Hn]|]. intros n r d Hin.
    destruct (read_saved _ k Hok _ _ _ Hin) as [d' Hi]. apply in_map_iff in Hi as ([o nw] & E & Hi).
    cbn [snd] in E. subst nw.
    rewrite Forall_forall in Hrec. destruct (Hrec _ Hi) as [Hname Hres]. cbn [fst snd] in Hname, Hres.
    destruct Hres as [Hres|[Ho Hnew]].
    + apply latest_snoc_miss.
      * intros r' (o' & d'' & Hi' & Hne). destruct (Hrec _ Hi') as [Hname' _]. cbn [fst snd] in Hname'.
        assert (o = o').
        { apply (NoDup_map_eq rec_name (read file)); [exact IHd| | |].
          - rewrite <- Hrev. apply (in_map fst) in Hi. exact Hi.
          - rewrite <- Hrev. apply (in_map fst) in Hi'. exact Hi'.
          - rewrite <- Hname, <- Hname'. reflexivity. }
        subst o'.
        assert (E : (o, (n, r, d')) = (o, (n, r', d''))).
        { apply (NoDup_map_eq (fun x => rec_name (fst x)) reviews); auto.
          rewrite <- (map_map fst rec_name), Hrev. exact IHd. }
        injection E as <- _. apply Hne. rewrite <- Hres. reflexivity.
      * apply (IH n r (rec_dur o)). rewrite <- Hrev. apply (in_map fst) in Hi. cbn [fst] in Hi.
        destruct o as [[n0 r0] d0]. cbn in Hname, Hres |- *. now subst.
    + apply latest_snoc_hit. exists o, d'. split; [exact Hi|]. cbn in Hnew. rewrite Ho, Hnew. discriminate.
  - assert (Hok : names_ok (forget cases (read file))).
    { pose proof (read_names_ok file) as Hr. unfold names_ok in *. rewrite Forall_forall in *.
      intros c Hc. apply Hr. unfold forget in Hc. now apply filter_In in Hc. }
    split; [apply of_file_saved_NoDup; [exact Hok|now apply NoDup_map_filter]|]. intros n r d Hin.
    destruct (read_saved _ k Hok _ _ _ Hin) as [d' Hi]. unfold forget in Hi. apply filter_In in Hi as [Hi _].
    apply latest_snoc_miss; [now intros r' []|eapply IH; eauto].
Qed.

Lemma skipped_iff file c selected n :
  skipped parse_dur sp file c selected n <->
  In n selected /\ c = true /\ exists r l, by_name n (read file) = r :: l /\ rec_result r = OK.
Proof.
  unfold skipped, cases_to_done_and_todo. fold read. destruct c.
  - rewrite todo_iff. split.
    + intros [H1 H2]. split; [exact H1|]. split; [reflexivity|].
      destruct (by_name n (read file)) as [|r l] eqn:Eb.
      * exfalso. apply H2. split; [exact H1|]. now intros (? & ? & ? & _).
      * exists r, l. split; [reflexivity|]. destruct (is_ok (rec_result r)) eqn:Eo; [now apply ok_iff|].
        exfalso. apply H2. split; [exact H1|]. intros (r' & l' & [= <- _] & Hr). apply ok_iff in Hr. congruence.
    + intros (H1 & _ & H2). tauto.
  - cbn [snd]. split; [tauto|]. intros (_ & H & _). discriminate.
Qed.

Lemma skip_only_ok h file c selected n : history show_dur parse_dur sp h file ->
  skipped parse_dur sp file c selected n -> latest h n OK.
Proof.
  intros Hh Hs. apply skipped_iff in Hs as (_ & _ & r & l & Hb & Hr).
  assert (Hi : In r (by_name n (read file))) by (rewrite Hb; now left).
  apply by_name_In in Hi as [Hi Hn]. destruct r as [[n' r'] d]. cbn in Hn, Hr. subst.
  eapply (proj2 (history_inv h file Hh)); eauto.
Qed.

End History.
