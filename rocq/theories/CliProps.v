(** C106: which tests the command runs without arguments. C107: the setup around them. *)
From Verif Require Import PyStrFacts SuiteModel SuiteProofs SelectModel SelectSpec SelectProofs SelectProps CommandsModel CliModel.
From Verif Require ConfigModel.
From Coq Require Import Lia.

Section Facts.
  Variable cc : CharClass.
  Context {M G : Type}.
  Notation walked := (walked M G).

  Lemma collect_tests (walk : str -> walked) : forall paths s ts s', collect cc walk paths s = Some (ts, s') ->
    ts = flat_map (fun p => detect_tests cc (test_files (walk p))) paths.
  Proof.
    induction paths as [|p r IH]; intros s ts s' E; cbn [collect flat_map] in *; [now injection E as <- _|].
    destruct (detect_setup (walk p)) as [x|]; [|discriminate]. destruct (collect cc walk r _) as [[t u]|] eqn:C; [|discriminate]. injection E as <- <-. now rewrite (IH _ _ _ C).
  Qed.

  Lemma suite_In c (walk : str -> walked) cs s n m : setup_test_suite cc c walk = Some (cs, s) ->
    In (n, m) cs <-> exists paths p, test_paths c = Some paths /\ In p paths /\ In (n, m) (detect_test_suite cc (test_files (walk p))).
  Proof.
    unfold setup_test_suite. destruct (test_paths c) as [paths|]; [|discriminate]. destruct (collect cc walk paths None) as [[t s']|] eqn:C; [|discriminate]. intros [= <- <-].
    rewrite (collect_tests _ _ _ _ _ C), merge_eq. cbn [cases_of]. unfold detect_test_suite. rewrite in_flat_map. setoid_rewrite in_flat_map. split.
    - intros (t0 & (p & I & D) & J). exists paths, p. split; [reflexivity|]. split; [exact I|]. rewrite merge_eq. cbn [cases_of]. apply in_flat_map. eauto.
    - intros (paths' & p & [= <-] & I & J). rewrite merge_eq in J. cbn [cases_of] in J. apply in_flat_map in J as (t0 & A & B). eauto.
  Qed.

  (** *** the setup *)
  Definition setup_files_of (w : walked) : list (list (str * setup_member G)) :=
    flat_map (fun d => flat_map (fun f => if str_eqb (fst f) (lit "__booktest__.py") then [snd (snd f)] else []) (snd d)) w.
  Definition after_files (l : list (list (str * setup_member G))) (acc : option (option (option G))) : option (option (option G)) :=
    fold_left (fun acc ms => match acc with None => None | Some _ => match parse_booktest_setup ms with Some x => Some (Some x) | None => None end end) l acc.

  Lemma detect_setup_eq (w : walked) : detect_setup w = after_files (setup_files_of w) (Some None).
  Proof.
    unfold detect_setup. generalize (Some (@None (option G))) as acc. unfold setup_files_of.
    induction w as [|[root files] w IH]; intros acc; [reflexivity|]. cbn [fold_left flat_map snd]. rewrite IH. unfold after_files at 2. rewrite fold_left_app. fold (after_files (flat_map (fun d : str * list (str * (list (str * mod_member M) * list (str * setup_member G))) => flat_map (fun f => if str_eqb (fst f) (lit "__booktest__.py") then [snd (snd f)] else []) (snd d)) w)).
    f_equal. clear IH. revert acc. induction files as [|[f [a b]] files IH]; intros acc; [reflexivity|]. unfold detect_setup_in in *. cbn [fold_left flat_map fst snd]. rewrite IH.
    destruct (str_eqb f (lit "__booktest__.py")); cbn [app fold_left]; [reflexivity|]. now destruct acc.
  Qed.

  Lemma after_none l : after_files l None = None.
  Proof. induction l; [reflexivity|]. exact IHl. Qed.
  Lemma after_last l acc s : after_files l acc = Some s ->
    match rev l with [] => acc = Some s | ms :: _ => exists x, parse_booktest_setup ms = Some x /\ s = Some x end.
  Proof.
    intros E. destruct l as [|ms l] using rev_ind; [exact E|]. rewrite rev_app_distr. cbn [rev app]. unfold after_files in E. rewrite fold_left_app in E. cbn [fold_left] in E.
    destruct (fold_left _ l acc) as [y|]; [|discriminate]. destruct (parse_booktest_setup ms) as [x|]; [|discriminate]. injection E as <-. eauto.
  Qed.

  Lemma collect_setup (walk : str -> walked) : forall paths s ts s', collect cc walk paths s = Some (ts, s') ->
    match rev (flat_map (fun p => setup_files_of (walk p)) paths) with [] => s' = s | ms :: _ => exists x, parse_booktest_setup ms = Some x /\ s' = Some x end.
  Proof.
    induction paths as [|p r IH]; intros s ts s' E; cbn [collect flat_map] in *; [now injection E as _ <-|].
    destruct (detect_setup (walk p)) as [x|] eqn:D; [|discriminate]. destruct (collect cc walk r _) as [[t u]|] eqn:C; [|discriminate]. injection E as <- <-.
    specialize (IH _ _ _ C). rewrite rev_app_distr. destruct (rev (flat_map _ r)) as [|ms l]; cbn [app]; [|exact IH].
    rewrite detect_setup_eq in D. apply after_last in D. destruct (rev (setup_files_of (walk p))) as [|ms l]; [injection D as <-; exact IH|]. destruct D as (y & Y & ->). eauto.
  Qed.

  Lemma parse_setup_iff (ms : list (str * setup_member G)) x (g : G) : NoDup (map fst ms) -> parse_booktest_setup ms = Some x -> (x = Some g <-> In (lit "process_setup_teardown", SFunc 0 g) ms).
  Proof.
    assert (NF : forall ms x, ~ In (lit "process_setup_teardown") (map fst ms) -> @parse_booktest_setup G ms = Some x -> x = None).
    { induction ms0 as [|[k m] ms0 IH]; intros y N E; cbn [parse_booktest_setup] in E; [congruence|]. cbn [map fst In] in N.
      destruct (str_eqb_spec k (lit "process_setup_teardown")) as [->|]; [tauto|]. apply IH; tauto. }
    induction ms as [|[k m] ms IH]; intros ND E; cbn [parse_booktest_setup] in E.
    - injection E as <-. split; [discriminate|intros []].
    - cbn [map fst] in ND. inversion ND as [|? ? NI ND']; subst. destruct (str_eqb_spec k (lit "process_setup_teardown")) as [->|NK].
      + assert (NO : forall q, ~ In (lit "process_setup_teardown", q) ms) by (intros q I; apply NI; now apply (in_map fst) in I).
        destruct m as [[|j] g'|]; [|discriminate|].
        * destruct (parse_booktest_setup ms) as [y|] eqn:P; [|discriminate]. rewrite (NF _ _ NI P) in E. injection E as <-. split.
          -- intros [= ->]. now left.
          -- intros [[= ->]|I]; [reflexivity|]. now apply NO in I.
        * rewrite (NF _ _ NI E). split; [discriminate|]. intros [I|I]; [discriminate|now apply NO in I].
      + rewrite (IH ND' E). split; [now right|]. intros [[= -> _]|I]; [now elim NK|exact I].
  Qed.
End Facts.

(** ** C106 *)

(** names of detected test functions are below their directory *)
Lemma lower_no_slash cc : (forall ch, ch <> SLASH -> ~ In SLASH (cc_lower cc ch)) -> forall s, ~ In SLASH s -> ~ In SLASH (str_lower cc s).
Proof. intros H s N I. unfold str_lower in I. apply in_flat_map in I as (ch & A & B). apply (H ch); [congruence|exact B]. Qed.
Lemma in_firstn {A} n : forall (l : list A) x, In x (firstn n l) -> In x l.
Proof. induction n as [|n IH]; intros [|y l] x; cbn [firstn In]; try tauto. intros [->|I]; [now left|right; now apply IH]. Qed.
Lemma clean_no_slash cc : (forall ch, ch <> SLASH -> ~ In SLASH (cc_lower cc ch)) -> forall s, ~ In SLASH s -> ~ In SLASH (clean_test_postfix cc s).
Proof.
  intros H s N. pose proof (lower_no_slash cc H s N) as L. unfold clean_test_postfix, cut_end. 
  repeat match goal with |- context[if ?b then _ else _] => destruct b; [intros I; apply in_firstn in I; tauto|] end. exact L.
Qed.
Lemma join_below p a b : p <> [] -> covers p a -> ends_with [SLASH] p = false -> ~ In SLASH b -> covers p (path_join a b).
Proof.
  intros NE C EW NB. unfold path_join. assert (SB : starts_with [SLASH] b = false).
  { destruct (starts_with [SLASH] b) eqn:S; [|reflexivity]. apply starts_with_iff in S as [r ->]. exfalso. apply NB. now left. }
  rewrite SB. right. right. destruct C as [->|[->|[r ->]]]; [now elim NE| |].
  - destruct p as [|x p]; [now elim NE|]. rewrite EW. exists b. reflexivity.
  - destruct (p ++ SLASH :: r) as [|x q] eqn:E; [destruct p; discriminate|]. rewrite <- E. destruct (ends_with [SLASH] (p ++ SLASH :: r)).
    + exists (r ++ b). now rewrite <- app_assoc.
    + exists (r ++ [SLASH] ++ b). now rewrite <- app_assoc.
Qed.

(** Without arguments, exactly those detected tests that are below a path of default_tests, and what they need, are run. In particular a
    test function in a test file below a path that is in test_paths and in default_tests is run. *)
Theorem C106_default_tests cc G c (walk : str -> walked meth G) cs s sel o fuel cached :
  (forall ch, ch <> SLASH -> ~ In SLASH (cc_lower cc ch)) ->
  setup_test_suite cc c walk = Some (cs, s) -> selection_of c None = Some sel -> Forall (fun x => ~ is_skip x) sel ->
  NoDup (map fst cs) -> acyclic o cs sel cached -> length cs <= fuel ->
  exists l, selected_names o cs fuel sel cached = Some l /\ NoDup l /\
    (forall n, In n l <-> exists n', In n' (map fst cs) /\ (exists p, In p sel /\ (p = lit "*" \/ covers p n')) /\ (n = n' \/ needs_trans o cs sel cached n' n)) /\
    (forall paths p root files f ms sm name x m, test_paths c = Some paths -> In p paths -> In p sel -> p <> [] -> ends_with [SLASH] p = false ->
       In (root, files) (walk p) -> covers p root -> In (f, (ms, sm)) files -> ~ In SLASH f -> is_test_file f = true ->
       In (name, MFunc m) ms -> name = lit "test_" ++ x -> ~ In SLASH x ->
       exists n, In (n, m) cs /\ In n l /\ covers p n).
Proof.
  intros LO E SEL NSK ND AC F. destruct (C28_run_list o cs fuel sel cached ND AC F) as (l & L & NDl & ALL & _ & ONLY).
  assert (SI : forall n, is_selected n sel = true <-> exists p, In p sel /\ (p = lit "*" \/ covers p n)).
  { intros n. rewrite selected_iff. split.
    - intros [_ [A|A]]; [|exact A]. unfold selection_of in SEL. exfalso.
      assert (NE : sel <> []). { destruct (ConfigModel.dget (lit "default_tests") c) as [[b|q|k]|]; try discriminate; injection SEL as <-; first [apply split_on_nonempty|discriminate]. }
      destruct sel as [|y sel]; [now elim NE|]. apply Forall_inv in A. apply Forall_inv in NSK. tauto.
    - intros A. split; [|now right]. intros p I. exfalso. rewrite Forall_forall in NSK. apply (NSK _ I). now exists p. }
  exists l. split; [exact L|]. split; [exact NDl|]. split.
  - pose proof (C28_run_list_any_fuel o cs fuel sel cached l ND L) as (_ & _ & IFF). intros n. rewrite IFF. split.
    + intros (n' & I & S & R). exists n'. split; [exact I|]. split; [now apply SI|exact R].
    + intros (n' & I & S & R). exists n'. split; [exact I|]. split; [now apply SI|exact R].
  - intros paths p root files f ms sm name x m TP IP IS NE EW IW CV IF NF TF IM EN NX.
    exists (path_join (path_join root (clean_test_postfix cc (firstn (length f - 3) f))) x).
    assert (C : covers p (path_join (path_join root (clean_test_postfix cc (firstn (length f - 3) f))) x)).
    { apply join_below; try assumption. apply join_below; try assumption. apply clean_no_slash; [exact LO|]. intros I. now apply in_firstn in I. }
    assert (IC : In (path_join (path_join root (clean_test_postfix cc (firstn (length f - 3) f))) x, m) cs).
    { apply (suite_In cc c walk cs s _ _ E). exists paths, p. split; [exact TP|]. split; [exact IP|]. apply detect_In. exists root, (map (fun f => (fst f, fst (snd f))) files), f, ms.
      split; [exact (in_map (fun d => (fst d, map (fun f => (fst f, fst (snd f))) (snd d))) _ _ IW)|]. split; [exact (in_map (fun f => (fst f, fst (snd f))) _ _ IF)|]. split; [exact TF|].
      apply parse_file_In. exists name, (MFunc m). split; [exact IM|]. left. split; [reflexivity|]. exists x. auto. }
    split; [exact IC|]. split; [|exact C]. apply ALL; [now apply (in_map fst) in IC|]. apply SI. exists p. auto.
Qed.
Print Assumptions C106_default_tests.

(** test_paths is a text, the paths separated by commas, or is not configured; booktest raises before it looks for tests if it is
    anything else. *)
Theorem C106_test_paths cc G c (walk : str -> walked meth G) :
  (forall v, ConfigModel.dget (lit "test_paths") c = Some v -> (forall s, v <> ConfigModel.VStr s) -> setup_test_suite cc c walk = None) /\
  (ConfigModel.dget (lit "test_paths") c = None -> test_paths c = Some [lit "test"; lit "book"; lit "run"]) /\
  (forall s paths, ConfigModel.dget (lit "test_paths") c = Some (ConfigModel.VStr s) ->
     (test_paths c = Some paths <-> paths <> [] /\ join_with (lit ",") paths = s /\ Forall (fun p => ~ In CommandsModel.COMMA p) paths)).
Proof.
  unfold setup_test_suite, test_paths. split; [|split].
  - intros v -> N. destruct v as [b|s|k]; try reflexivity. now elim (N s).
  - now intros ->.
  - intros s paths ->. split.
    + intros [= <-]. split; [apply split_on_nonempty|]. split; [exact (join_split CommandsModel.COMMA s)|exact (split_on_parts CommandsModel.COMMA s)].
    + intros (NE & <- & F). f_equal. induction F as [|p ps Np F IH]; [now elim NE|]. destruct ps as [|q ps].
      * cbn [join_with]. now apply split_on_no_sep.
      * change (join_with (lit ",") (p :: q :: ps)) with (p ++ CommandsModel.COMMA :: join_with (lit ",") (q :: ps)). rewrite split_on_app by exact Np. f_equal. apply IH. discriminate.
Qed.
Print Assumptions C106_test_paths.

(** With the defaults, a test below run/ is detected but not run. *)
Definition run_walk : str -> walked meth nat := fun p =>
  if str_eqb p (lit "run") then [(lit "run", [(lit "a_test.py", ([(lit "test_x", MFunc (Fn 1))], []))])]
  else if str_eqb p (lit "test") then
    [(lit "test", [(lit "b_test.py", ([(lit "test_y", MFunc (Fn 2))], [])); (lit "__booktest__.py", ([], [(lit "process_setup_teardown", SFunc 0 7)]))]);
     (lit "test/sub", [(lit "c_test.py", ([(lit "test_z", MFunc (Fn 3))], []))])]
  else [].
Definition no_deps : objects := {| o_deps := fun _ => []; o_resources := fun _ => []; o_self_type := fun _ => None; o_isinstance := fun _ _ => false |}.
Theorem C106_run_is_not_a_default : exists (walk : str -> walked meth nat) cs s o n m,
  setup_test_suite ascii_class [] walk = Some (cs, s) /\ In (n, m) cs /\
  exists sel l, selection_of [] None = Some sel /\ selected_names o cs 5 sel (fun _ => false) = Some l /\ ~ In n l.
Proof.
  exists run_walk, [(lit "test/b/y", Fn 2); (lit "test/sub/c/z", Fn 3); (lit "run/a/x", Fn 1)], (Some (Some 7)), no_deps, (lit "run/a/x"), (Fn 1).
  split; [vm_compute; reflexivity|]. split; [now right; right; left|]. exists [lit "test"; lit "book"], [lit "test/b/y"; lit "test/sub/c/z"].
  split; [reflexivity|]. split; [vm_compute; reflexivity|]. intros [E|[E|[]]]; discriminate E.
Qed.
Print Assumptions C106_run_is_not_a_default.

(** the hypotheses of the theorem hold of it *)
Example C106_example : exists l, selected_names no_deps [(lit "test/b/y", Fn 2); (lit "test/sub/c/z", Fn 3); (lit "run/a/x", Fn 1)] 3 [lit "test"; lit "book"] (fun _ => false) = Some l /\
  In (lit "test/sub/c/z") l.
Proof.
  destruct (C106_default_tests ascii_class nat [] run_walk [(lit "test/b/y", Fn 2); (lit "test/sub/c/z", Fn 3); (lit "run/a/x", Fn 1)] (Some (Some 7)) [lit "test"; lit "book"] no_deps 3 (fun _ => false)) as (l & L & _ & _ & H).
  - intros ch N I. cbn [cc_lower ascii_class] in I. destruct (in_range 65 90 ch) eqn:R; destruct I as [I|[]]; [|congruence]. unfold in_range in R. apply andb_true_iff in R as [R _]. apply N.leb_le in R. unfold SLASH in I. apply (N.lt_irrefl 47). rewrite <- I at 2. apply N.lt_le_trans with (m := 97%N); [reflexivity|]. now apply (N.add_le_mono_r 65 ch 32).
  - vm_compute. reflexivity.
  - reflexivity.
  - repeat constructor; intros [p E]; discriminate E.
  - repeat constructor; cbn [map fst In]; intuition discriminate.
  - intros n T. assert (N : forall a b, needs no_deps [(lit "test/b/y", Fn 2); (lit "test/sub/c/z", Fn 3); (lit "run/a/x", Fn 1)] [lit "test"; lit "book"] (fun _ => false) a b -> False).
    { intros a b (m & d & I & D & _). cbn [In] in I. destruct I as [[= _ <-]|[[= _ <-]|[[= _ <-]|[]]]]; destruct D. }
    inversion T; subst; eauto.
  - cbn [length]. lia.
  - exists l. split; [exact L|].
    destruct (H [lit "test"; lit "book"; lit "run"] (lit "test") (lit "test/sub") [(lit "c_test.py", ([(lit "test_z", MFunc (Fn 3))], []))] (lit "c_test.py") [(lit "test_z", MFunc (Fn 3))] []
      (lit "test_z") (lit "z") (Fn 3)) as (n & I & J & _); try reflexivity; try discriminate; try (now left); try (now right; left).
    + right. right. exists (lit "sub"). reflexivity.
    + vm_compute. intuition discriminate.
    + vm_compute. intuition discriminate.
    + cbn [In] in I. destruct I as [[= <-]|[[= <-]|[[= <-]|[]]]]; exact J.
Qed.

(** ** C107 *)

(** The setup that is used for all tests is the one of the last file __booktest__.py that the walks below the test paths list, in this order;
    none is used if that file defines none, or if there is no such file. *)
Theorem C107_setup_partial cc M G c (walk : str -> walked M G) cs s paths : setup_test_suite cc c walk = Some (cs, s) -> test_paths c = Some paths ->
  (forall p root files f ms sm, In p paths -> In (root, files) (walk p) -> In (f, (ms, sm)) files -> NoDup (map fst sm)) ->
  let files := flat_map (fun p => flat_map snd (walk p)) paths in
  forall g, process_setup s = Some g <->
    exists before ms sm after, files = before ++ (lit "__booktest__.py", (ms, sm)) :: after /\ (forall f x, In (f, x) after -> f <> lit "__booktest__.py") /\
      In (lit "process_setup_teardown", SFunc 0 g) sm.
Proof.
  intros E TP ND files g. unfold setup_test_suite in E. rewrite TP in E. destruct (collect cc walk paths None) as [[t s']|] eqn:C; [|discriminate]. injection E as _ <-.
  apply collect_setup in C.
  assert (EQ : flat_map (fun p => setup_files_of (walk p)) paths = flat_map (fun f => if str_eqb (fst f) (lit "__booktest__.py") then [snd (snd f)] else []) files).
  { unfold files, setup_files_of. clear. induction paths as [|p r IH]; [reflexivity|]. cbn [flat_map]. rewrite IH, flat_map_app. f_equal.
    induction (walk p) as [|d w IHw]; [reflexivity|]. cbn [flat_map]. now rewrite IHw, flat_map_app. }
  rewrite EQ in C.
  assert (NDF : forall f ms sm, In (f, (ms, sm)) files -> NoDup (map fst sm)).
  { intros f ms sm I. unfold files in I. apply in_flat_map in I as (p & IP & I). apply in_flat_map in I as ([root fs] & IW & I). exact (ND p root fs f ms sm IP IW I). }
  clearbody files. clear EQ ND TP paths walk.
  assert (LAST : (forall f x, In (f, x) files -> f <> lit "__booktest__.py") \/
     exists before ms sm after, files = before ++ (lit "__booktest__.py", (ms, sm)) :: after /\ (forall f x, In (f, x) after -> f <> lit "__booktest__.py")).
  { clear. induction files as [|[f [ms sm]] r IH]; [left; intros f x []|]. destruct IH as [IH|(b & ms' & sm' & a & -> & H)].
    - destruct (str_eqb_spec f (lit "__booktest__.py")) as [->|N]; [right; exists [], ms, sm, r; auto|left; intros f' x [[= <- _]|I]; [exact N|exact (IH _ _ I)]].
    - right. exists ((f, (ms, sm)) :: b), ms', sm', a. auto. }
  assert (NONE : forall l : list (str * (list (str * mod_member M) * list (str * setup_member G))), (forall f x, In (f, x) l -> f <> lit "__booktest__.py") ->
     flat_map (fun f => if str_eqb (fst f) (lit "__booktest__.py") then [snd (snd f)] else []) l = []).
  { induction l as [|[f x] l IH]; intros H; [reflexivity|]. cbn [flat_map fst]. rewrite (proj2 (str_eqb_neq f (lit "__booktest__.py"))) by (apply (H f x); now left). apply IH. intros f' x' I. apply (H f' x'). now right. }
  destruct LAST as [N|(b & ms & sm & a & -> & N)].
  - rewrite (NONE _ N) in C. cbn [rev] in C. subst s'. cbn [process_setup]. split; [discriminate|]. intros (b & ms & sm & a & -> & _). exfalso.
    apply (N (lit "__booktest__.py") (ms, sm)); [apply in_or_app; right; now left|reflexivity].
  - rewrite flat_map_app in C. cbn [flat_map fst snd] in C. rewrite str_eqb_refl, (NONE _ N), rev_app_distr in C. cbn [app rev] in C. destruct C as (x & P & ->). cbn [process_setup].
    rewrite (parse_setup_iff sm x g (NDF _ _ _ ltac:(apply in_or_app; right; now left)) P). split.
    + intros I. exists b, ms, sm, a. auto.
    + intros (b' & ms' & sm' & a' & E & N' & I).
      assert (G' : sm' = sm); [|now rewrite <- G']. clear - E N N'. revert b' E. induction b as [|y b IH]; intros [|y' b'] E; cbn [app] in E.
      * now injection E as -> -> ->.
      * injection E as _ E. exfalso. apply (N (lit "__booktest__.py") (ms', sm')); [|reflexivity]. rewrite E. apply in_or_app. right. now left.
      * injection E as _ E. exfalso. apply (N' (lit "__booktest__.py") (ms, sm)); [|reflexivity]. rewrite <- E. apply in_or_app. right. now left.
      * injection E as _ E. exact (IH _ E).
Qed.
Print Assumptions C107_setup_partial.

(** Two directories with a setup: the tests of the first are run with the setup of the second. *)
Definition two_walk : str -> walked meth nat := fun p =>
  if str_eqb p (lit "test") then [(lit "test", [(lit "b_test.py", ([(lit "test_y", MFunc (Fn 2))], [])); (lit "__booktest__.py", ([], [(lit "process_setup_teardown", SFunc 0 7)]))])]
  else if str_eqb p (lit "book") then [(lit "book", [(lit "__booktest__.py", ([], [(lit "os", SOther); (lit "process_setup_teardown", SFunc 0 8)]))])] else [].
Theorem C107_setup_refuted : exists (walk : str -> walked meth nat) cs s n m root f,
  setup_test_suite ascii_class [] walk = Some (cs, s) /\ In (n, m) cs /\ covers root n /\
  In (root, f) (walk root) /\ (exists ms sm g, In (lit "__booktest__.py", (ms, sm)) f /\ In (lit "process_setup_teardown", SFunc 0 g) sm /\ process_setup s <> Some g).
Proof.
  exists two_walk, [(lit "test/b/y", Fn 2)], (Some (Some 8)), (lit "test/b/y"), (Fn 2), (lit "test"). eexists.
  split; [vm_compute; reflexivity|]. split; [now left|]. split; [right; right; exists (lit "b/y"); reflexivity|]. split; [now left|].
  exists [], [(lit "process_setup_teardown", SFunc 0 7)], 7. split; [now right; left|]. split; [now left|]. cbn [process_setup]. discriminate.
Qed.
Print Assumptions C107_setup_refuted.

Example C107_example : exists cs, setup_test_suite ascii_class [] run_walk = Some (cs, Some (Some 7)) /\ process_setup (Some (Some 7)) = Some 7 /\
  (forall p root files f ms sm, In p [lit "test"; lit "book"; lit "run"] -> In (root, files) (run_walk p) -> In (f, (ms, sm)) files -> NoDup (map fst sm)).
Proof.
  eexists. split; [vm_compute; reflexivity|]. split; [reflexivity|]. intros p root files f ms sm IP IW IF. cbn [In] in IP.
  destruct IP as [<-|[<-|[<-|[]]]]; cbv in IW; repeat destruct IW as [IW|IW]; try injection IW as <- <-; try destruct IW; cbn [In] in IF;
    repeat destruct IF as [IF|IF]; try (injection IF; clear IF; intros; subst); try destruct IF; repeat constructor; intros [].
Qed.
