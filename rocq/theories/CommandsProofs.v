(** Lemmas about the commands of the command line. *)
From Verif Require Import PyStrFacts FsFacts ReviewSpec ReviewProofs ReviewProps FormatProofs FormatProps RunnerProofs SelectProofs SelectProps ReportsProofs ReportsProps
  RunCaseProofs RunCaseProps ConsoleProofs ConsoleProps CommandsSpec.
From Verif Require ConfigModel.
From Coq Require Import Lia ZArith.

Lemma app_lines_inj (a b : list str) : Forall (fun n => ~ In NL n) a -> Forall (fun n => ~ In NL n) b -> lines_text a = lines_text b -> a = b.
Proof.
  revert b. induction a as [|x a IH]; intros [|y b] Fa Fb; cbn [lines_text flat_map]; intros H; [reflexivity| | |].
  - destruct y; discriminate.
  - destruct x; discriminate.
  - inversion Fa as [|? ? Xa Fa']; subst. inversion Fb as [|? ? Xb Fb']; subst. rewrite <- !app_assoc in H. cbn [app] in H.
    assert (E : forall (u v s t : str), ~ In NL u -> ~ In NL v -> u ++ NL :: s = v ++ NL :: t -> u = v /\ s = t).
    { clear. induction u as [|c u IHu]; intros [|d v] s t Hu Hv; cbn [app]; intros E.
      - injection E as E. auto.
      - injection E as E1 E2. elim Hv. left. congruence.
      - injection E as E1 E2. elim Hu. left. congruence.
      - injection E as <- E2. destruct (IHu v s t) as [-> ->]; auto; intros X; [apply Hu|apply Hv]; now right. }
    apply E in H as [<- H]; auto. f_equal. apply IH; auto.
Qed.
Lemma listing_inj a b : Forall (fun n => ~ In NL n) a -> Forall (fun n => ~ In NL n) b -> listing a = listing b -> a = b.
Proof.
  intros Fa Fb H. apply app_lines_inj in H.
  - revert b Fa Fb H. clear. induction a as [|x a IH]; intros [|y b]; cbn [map]; intros Fa Fb H; try discriminate; [reflexivity|]. inversion Fb as [|? ? _ Fb2]; subst. inversion Fa as [|? ? _ Fa2]; subst.
    injection H as H1 H2. f_equal; auto. 
  - apply Forall_map. eapply Forall_impl; [|exact Fa]. intros n Hn [X|[X|X]]; try discriminate. now apply Hn.
  - apply Forall_map. eapply Forall_impl; [|exact Fb]. intros n Hn [X|[X|X]]; try discriminate. now apply Hn.
Qed.

Section Commands.
Context {D : Type} (show_dur : D -> str) (parse_dur : str -> option D) (sp : char -> bool).
Variable show_ms : D -> str.
Variable show_nat : nat -> str.
Variable read_took : str -> option str.
Variable cc : CharClass.
Variable refloat : str -> option str.
Variable o : objects.
Variable tests : list (str * meth).
Variable fuel : nat.
Variable body : ConfigModel.config -> str -> fs -> body_run.
Variable dur : str -> D.
Variable took : str.
Variable shell : str -> fs -> str * Z.
Variable parallel_run : ConfigModel.config -> list str -> list str -> fs -> run (option Z * str).
Variable root : str.

Notation exec := (exec_parsed show_dur parse_dur sp show_ms show_nat read_took cc refloat o tests fuel body dur took shell parallel_run root).
Notation names := (map fst tests).
Notation chosen := (chosen parse_dur sp o tests fuel root).
Notation report := (outputs root ++ SLASH :: lit "cases.txt").

Hypothesis HR : plain_dir root.
Hypothesis HS : separate names.
Hypothesis ND : NoDup names.

Lemma Hdot : starts_with [DOT] (lit ".out") = true. Proof. reflexivity. Qed.
Lemma Hout : plain (lit ".out"). Proof. repeat split; discriminate. Qed.
Lemma out_eq : out_of_root root = outputs root.
Proof. unfold out_of_root, outputs. apply path_join_name; [exact HR|reflexivity]. Qed.
Lemma out_plain : plain_dir (outputs root). Proof. apply (HO root (lit ".out") HR Hout). Qed.
Lemma report_eq : report_file (outputs root) = report. Proof. apply path_join_name; [exact out_plain|reflexivity]. Qed.
Lemma name_case n : In n names -> case_name n.
Proof. intros H. destruct HS as [F _]. rewrite Forall_forall in F. auto. Qed.
Lemma bin_eq n : In n names -> path_join (outputs root) (n ++ lit ".bin") = outputs root ++ SLASH :: n ++ lit ".bin".
Proof.
  intros H. destruct (name_case n H) as [P _]. apply path_join_name; [exact out_plain|].
  pose proof (proper_start _ P) as S. pose proof (proper_nonempty _ P) as NE. destruct n; [easy|exact S].
Qed.

Lemma chosen_some c arg f cases todo : chosen c arg f = Some (Some (cases, todo)) -> exists sel, selection_of c arg = Some sel /\
  selected_names o tests fuel sel (stored root c f) = Some cases /\
  todo = snd (cases_to_done_and_todo (of_file parse_dur sp (lookup report f)) (cont (run_config c)) cases) /\
  NoDup cases /\ incl cases names /\ incl todo cases.
Proof.
  unfold CommandsModel.chosen. destruct (selection_of c arg) as [sel|]; [|discriminate]. destruct (selected_names _ _ _ _ _) as [l|] eqn:E; [|discriminate].
  rewrite out_eq, report_eq. intros H. injection H as <- <-. exists sel. split; [reflexivity|]. split; [exact E|]. split; [reflexivity|].
  destruct (C28_run_list_any_fuel o tests fuel sel (stored root c f) l ND E) as (N & _ & I). split; [exact N|]. split; [|apply todo_incl].
  intros d Hd. apply I in Hd as (n & Hn & _ & [->|NT]); [exact Hn|]. clear - NT ND. induction NT as [n d N|n e d N _ IH]; [|exact IH]. now apply needs_case in N.
Qed.

Lemma batch_same c n res answers f E O : batch c -> accept c = false -> update c = false -> case_review E O n res c answers f = Ret (res, NONE, answers) f.
Proof. intros HB HA HU. rewrite batch_review by exact HB. unfold auto. rewrite HA, HU. destruct res; reflexivity. Qed.
Lemma review_quiet sh c E O passed cases records : hands_off c -> forall abort answers f, exists y, 
  review_loop_out show_ms sh E O c passed cases records abort answers f = Ret y f /\ snd (fst y) = records.
Proof.
  intros (HB & HA & HU). induction records as [|[[n res] d] records IH]; intros abort answers f; [now eexists; split|]. cbn [review_loop_out]. cbv zeta.
  destruct (negb abort && _).
  - rewrite batch_same by assumption. cbn [io_bind].
    match goal with |- context[review_loop_out _ _ _ _ _ _ _ _ ?A ?B ?C] => destruct (IH A B C) as (y & -> & EY) end. cbn [io_bind]. eexists. split; [reflexivity|]. cbn [fst snd]. now rewrite EY.
  - destruct (IH abort answers f) as (y & -> & EY). cbn [io_bind]. eexists. split; [reflexivity|]. cbn [fst snd]. now rewrite EY.
Qed.

Lemma commands_change c arg cmd answers f x : (cmd = CRun \/ cmd = CReview -> hands_off (run_config c)) -> (cmd = CRun -> ConfigModel.is_parallel c = false) ->
  exec c arg cmd answers f = Some x -> forall p, ~ may_change root names cmd p -> lookup p (fs_of x) = lookup p f.
Proof.
  intros HH HP H p NC. unfold exec_parsed in H. fold chosen in H. destruct (chosen c arg f) as [[[cases todo]|]|] eqn:CH; [|injection H as <-; reflexivity|discriminate].
  destruct (chosen_some _ _ _ _ _ CH) as (sel & _ & _ & _ & _ & IC & _). unfold all_names in H. rewrite ?out_eq, ?report_eq in H.
  destruct cmd; cbn [may_change] in NC; unfold says in H; try (injection H as <-; reflexivity).
  - destruct (filter _ _); [injection H as <-; reflexivity|]. destruct (run_tool _ _ _ _ _ _ _). injection H as <-. reflexivity.
  - injection H as <-. cbn [fs_of].
    destruct (C50_clean root names f p (proj1 HR) (proj2 HR)) as (G1 & _ & G3).
    { apply Forall_forall. intros n Hn. destruct (name_case n Hn) as [P _]. split; [now apply proper_nonempty|now apply proper_start]. }
    apply G3. intros G. apply G1 in G as (_ & (r & Er) & NI & G). apply NC. split; [right; exists r; exact Er|]. split; [exact NI|].
    intros n Hn [X|[r' X]]; destruct (G n Hn) as [G4 G5]; [now apply G4|]. apply G5. now exists r'.
  - injection H as <-. unfold review_out. destruct (lookup _ f) as [m|]; [|reflexivity]. destruct (read_took m); [|reflexivity]. cbv zeta.
    match goal with |- context[review_loop_out ?A ?B ?C ?D ?E ?F ?G ?H ?I ?J ?K] =>
      destruct (review_quiet B E C D F G H (HH (or_intror eq_refl)) I J K) as (y & -> & EY) end. destruct y as [[ok recs] text]. cbn [io_bind fs_of].
    assert (R : path_join (outputs root) (lit "cases.txt") = report) by exact report_eq. rewrite R, lookup_write. destruct (str_eqb_spec report p) as [E|_]; [|reflexivity]. now elim NC.
  - injection H as <-. cbn [fs_of]. rewrite lookup_write. destruct (str_eqb_spec report p) as [E|_]; [|reflexivity]. now elim NC.
  - rewrite (HP eq_refl) in H. destruct (HH (or_introl eq_refl)) as (HB & HA & HU).
    pose proof (erase_run show_dur parse_dur sp show_ms show_nat (shown_config show_nat c) cc refloat root (outputs root) (outputs root) (run_config c) (body c) dur names took cases answers f) as ER.
    destruct (run_async_out _ _ _ _ _ _ _ _ _ _ _ _ _ _ _ _ _ _ _) as [y|]; [|discriminate]. cbn [run_bind] in H.
    assert (X : lookup p (fs_of y) = lookup p f).
    { cbn [run_map] in ER. symmetry in ER.
      assert (PF : Forall proper cases) by (apply Forall_forall; intros n Hn; now apply name_case, IC).
      assert (X : exists z, run_async cc refloat root (outputs root) (outputs root) (run_config c) (body c) show_dur parse_dur sp dur names (metrics_json took) cases answers f = Some z /\ fs_of z = fs_of y)
        by (destruct y; rewrite ER; eexists; split; reflexivity).
      destruct X as (z & EZ & <-).
      apply (C75_plain_run_only_writes_outputs cc refloat root (outputs root) (run_config c) (body c) D show_dur parse_dur sp dur names (metrics_json took) cases answers f z HR out_plain HB HA HU PF EZ p).
      - destruct (below (outputs root) p) eqn:B; [|reflexivity]. elim NC. left. now apply prefix_below.
      - intros ->. apply NC. now right. }
    destruct y as [[[[rv recs] rest] text] g|g]; injection H as <-; exact X.
Qed.

Lemma snapshot_kept n p cmd : In n names -> snapshot_file root n p -> ~ may_change root names cmd p.
Proof.
  intros Hn HP. destruct (name_case n Hn) as (P & NDt & NC & NI). pose proof (proper_nonempty n P) as NE.
  assert (NO : forall y, p <> outputs root ++ y).
  { intros y. unfold outputs. destruct HP as [->|[r ->]]; apply (name_vs_out root (lit ".out") Hdot); assumption. }
  assert (NX : p <> root ++ SLASH :: lit "index.md").
  { destruct HP as [->|[r ->]]; intros X; apply app_inv_head in X; injection X as X.
    - apply NI. exact (md_inj n (lit "index") X).
    - assert (S : In SLASH (lit "index.md")) by (rewrite <- X; apply in_or_app; right; now left). cbn in S. repeat (destruct S as [S|S]; [discriminate|]). exact S. }
  destruct cmd; cbn [may_change]; try (intros X; exact X).
  - intros (_ & _ & X). exact (X n Hn HP).
  - apply NO.
  - apply NO.
  - intros [X|X]; [|now apply NX]. destruct X as [X|[r X]]; [now apply (NO []); rewrite app_nil_r|now apply (NO (SLASH :: r))].
Qed.

(** ** What is stored *)
Lemma stored_same c1 c2 f g n : In n names -> ConfigModel.dget (lit "refresh_sources") c1 = ConfigModel.dget (lit "refresh_sources") c2 ->
  (forall p, path_prefix (outputs root ++ SLASH :: n ++ lit ".bin") p -> lookup p f = lookup p g) -> stored root c1 f n = stored root c2 g n.
Proof.
  intros Hn HC HP. unfold stored, on. rewrite HC, out_eq, bin_eq by exact Hn. f_equal. unfold path_exists, is_file. rewrite HP by apply prefix_refl. f_equal.
  apply is_dir_ext. intros p B. apply HP. now apply prefix_below.
Qed.
Lemma report_not_bin n p : In n names -> path_prefix (outputs root ++ SLASH :: n ++ lit ".bin") p -> report <> p.
Proof.
  intros Hn HP X. subst p. destruct HP as [HP|[r HP]].
  - apply app_inv_head in HP. injection HP as HP. assert (Y : rev (lit "cases.txt") = rev (lit ".bin") ++ rev n) by (rewrite HP, rev_app_distr; reflexivity). discriminate Y.
  - rewrite <- app_assoc in HP. apply app_inv_head in HP. injection HP as HP. rewrite <- app_assoc in HP.
    assert (S : In SLASH (lit "cases.txt")) by (rewrite HP; apply in_or_app; right; apply in_or_app; right; now left). cbn in S. repeat (destruct S as [S|S]; [discriminate|]). exact S.
Qed.

(** the list depends only on what is stored about the tests *)
Lemma mdeps_ext m selection (c1 c2 : str -> bool) : (forall n, In n names -> c1 n = c2 n) -> method_dependencies o tests m selection c1 = method_dependencies o tests m selection c2.
Proof.
  intros H. unfold method_dependencies. induction (declared o m) as [|d ds IH]; [reflexivity|]. cbn [flat_map]. rewrite IH. f_equal.
  destruct (case_by_method tests (bind_dependent o m d)) as [n|] eqn:E; [|reflexivity]. apply case_by_method_In in E. now rewrite (H n E).
Qed.
Lemma deps_loop_ext (a b : meth -> option (list str)) ds : (forall m, a m = b m) -> deps_loop tests a ds = deps_loop tests b ds.
Proof. intros H. induction ds as [|d ds IH]; [reflexivity|]. cbn [deps_loop]. rewrite IH. destruct (get_case tests d); [now rewrite H|reflexivity]. Qed.
Lemma all_deps_ext k : forall m selection (c1 c2 : str -> bool), (forall n, In n names -> c1 n = c2 n) ->
  all_method_dependencies o tests k m selection c1 = all_method_dependencies o tests k m selection c2.
Proof.
  induction k as [|k IH]; intros m selection c1 c2 H; [reflexivity|]. cbn [all_method_dependencies]. rewrite (mdeps_ext m selection c1 c2 H). apply deps_loop_ext. intros x. now apply IH.
Qed.
Lemma selected_ext selection (c1 c2 : str -> bool) : (forall n, In n names -> c1 n = c2 n) -> selected_names o tests fuel selection c1 = selected_names o tests fuel selection c2.
Proof.
  intros H. unfold selected_names. generalize (@nil str). enough (X : forall cs l, selected_loop o tests fuel selection c1 cs l = selected_loop o tests fuel selection c2 cs l) by (intros; apply X).
  induction cs as [|[n m] cs IH]; intros l; [reflexivity|]. cbn [selected_loop]. rewrite (all_deps_ext fuel m selection c1 c2 H).
  destruct (is_selected n selection); [destruct (all_method_dependencies _ _ _ _ _ _)|]; auto.
Qed.
Lemma selection_same c1 c2 arg : same_selection c1 c2 -> selection_of c1 arg = selection_of c2 arg.
Proof. intros H. unfold selection_of. rewrite (H (lit "default_tests")); [reflexivity|now left]. Qed.

(** ** -l *)
Lemma list_chosen c arg answers f s t g : exec c arg CList answers f = Some (Ret (s, t) g) ->
  exists cases todo, chosen c arg f = Some (Some (cases, todo)) /\ s = Some 0%Z /\ t = listing todo /\ g = f.
Proof.
  unfold exec_parsed. fold chosen. destruct (chosen c arg f) as [[[cases todo]|]|]; [|discriminate|discriminate]. intros H. injection H as <- <- <-. exists cases, todo. do 2 (split; [reflexivity|]). split; [|reflexivity].
  unfold print_lines, listing, lines_text. reflexivity.
Qed.
Lemma lists_todo c arg f L cases todo : Forall (fun n => ~ In NL n) names -> chosen c arg f = Some (Some (cases, todo)) -> lists exec c arg f L -> L = todo.
Proof.
  intros HN CH [F H]. destruct (list_chosen _ _ _ _ _ _ _ (H [])) as (cases' & todo' & CH' & _ & T & _). rewrite CH in CH'. injection CH' as <- <-.
  apply listing_inj in T; [exact T|exact F|]. destruct (chosen_some _ _ _ _ _ CH) as (_ & _ & _ & _ & _ & I1 & I2).
  rewrite Forall_forall in *. intros n Hn. apply HN. apply I1. now apply I2.
Qed.
Lemma lists_iff c arg f L : Forall (fun n => ~ In NL n) names -> lists exec c arg f L <-> exists cases, chosen c arg f = Some (Some (cases, L)).
Proof.
  intros HN. split.
  - intros H. pose proof H as [F E]. destruct (list_chosen _ _ _ _ _ _ _ (E [])) as (cases & todo & CH & _). exists cases. rewrite CH. do 3 f_equal. symmetry. now apply (lists_todo c arg f L cases todo).
  - intros [cases CH]. split.
    + destruct (chosen_some _ _ _ _ _ CH) as (_ & _ & _ & _ & _ & I1 & I2). rewrite Forall_forall in *. intros n Hn. apply HN. apply I1. now apply I2.
    + intros answers. unfold exec_parsed. fold chosen. rewrite CH. reflexivity.
Qed.
End Commands.
