(** C86-C90: the commands of the command line. *)
From Verif Require Import CaseRunProps PyStrFacts FsFacts ReviewSpec FormatProofs FormatProps RunnerProofs SelectProofs SelectProps ReportsProofs ReportsProps
  RunCaseProofs RunCaseProps ConsoleProofs ConsoleProps CommandsSpec CommandsProofs.
From Verif Require ConfigModel.
From Coq Require Import Lia ZArith.

Section Commands.
Context {D : Type} (show_dur : D -> str) (parse_dur : str -> option D) (sp : char -> bool).
Variable show_ms : D -> str.
Variable show_nat : nat -> str.
Variable read_took : str -> option str.
Variable cc : CharClass.
Variable refloat : str -> option str.
Variable o : objects.
Variable tests : list (str * meth).
Variable fuel : nat.
Variable dur : str -> D.
Variable took : str.
Variable shell : str -> fs -> str * Z.
Variable parallel_run : ConfigModel.config -> list str -> list str -> fs -> run (option Z * str).
Variable root : str.

(** the command line *)
Let exec_of (body : ConfigModel.config -> str -> fs -> body_run) : executor :=
  exec_parsed show_dur parse_dur sp show_ms show_nat read_took cc refloat o tests fuel body dur took shell parallel_run root.
Variable body : ConfigModel.config -> str -> fs -> body_run.
Let exec : executor := exec_of body.
Let names : list str := map fst tests.

(** C86. A command changes only the files that it may change. *)
Theorem C86_commands_change_only :
  forall c arg cmd answers f x, project root tests ->
  (cmd = CRun \/ cmd = CReview -> hands_off (run_config c)) -> (cmd = CRun -> ConfigModel.is_parallel c = false) ->
  exec c arg cmd answers f = Some x -> forall p, ~ may_change root names cmd p -> lookup p (fs_of x) = lookup p f.
Proof. intros c arg cmd answers f x (HR & HS & ND). eapply commands_change; eassumption. Qed.

(** Hence no sequence of commands that accepts nothing changes any file of a snapshot, whatever the code of the tests does. *)
Theorem C86_snapshots_kept :
  forall is f g, project root tests ->
  Forall (fun i => (i_cmd i = CRun \/ i_cmd i = CReview -> hands_off (run_config (i_config i))) /\ (i_cmd i = CRun -> ConfigModel.is_parallel (i_config i) = false)) is ->
  session exec_of is f g ->
  forall n p, In n names -> snapshot_file root n p -> lookup p g = lookup p f.
Proof.
  intros is f g (HR & HS & ND) F S n p Hn HP. induction S as [f|i is f x g E S IH]; [reflexivity|]. inversion F as [|? ? [H1 H2] F']; subst.
  rewrite (IH F'). exact (commands_change show_dur parse_dur sp show_ms show_nat read_took cc refloat o tests fuel (i_body i) dur took shell parallel_run root HR HS ND
    (i_config i) (i_arg i) (i_cmd i) (i_answers i) f x H1 H2 E p (snapshot_kept tests root HS n p (i_cmd i) Hn HP)).
Qed.

Lemma shot_eq n : plain_dir root -> separate names -> In n names -> shot root n = root ++ SLASH :: n ++ lit ".md".
Proof.
  intros HR HS Hn. destruct HS as [F _]. rewrite Forall_forall in F. destruct (F n Hn) as [P _]. apply path_join_name; [exact HR|].
  pose proof (proper_start _ P) as S. pose proof (proper_nonempty _ P) as NE. destruct n; [easy|exact S].
Qed.
Lemma map_in {A B} (f g : A -> B) l : (forall x, In x l -> f x = g x) -> map f l = map g l.
Proof. apply map_ext_in. Qed.

(** C87. -l lists the tests, --path and --print show their snapshots, and a run with the same options runs them, in this order; it
    stops before the end of the list only with -f, after a test that did not end with OK. *)
Theorem C87_list_is_what_runs :
  forall c arg answers f s t g, project root tests ->
  exec c arg CList answers f = Some (Ret (s, t) g) ->
  exists L, t = listing L /\ s = Some 0%Z /\ g = f /\ NoDup L /\ incl L names /\
    (forall a, exec c arg CPath a f = Some (Ret (Some 0%Z, lines_text (map (fun n => root ++ SLASH :: n ++ lit ".md") L)) f)) /\
    (forall a, exec c arg CPrint a f = Some (Ret (Some 0%Z, concat (map (fun n => fst (shell (lit "cat " ++ root ++ SLASH :: n ++ lit ".md") f))
       (filter (fun n => path_exists (root ++ SLASH :: n ++ lit ".md") f) L))) f)) /\
    (forall a s' text h, batch (run_config c) -> ConfigModel.is_parallel c = false -> all_ready root (lit ".out") names f ->
     exec c arg CRun a f = Some (Ret (s', text) h) ->
     exists ran blocks left, L = map rc_name ran ++ left /\
       (left = [] \/ (fail_fast (run_config c) = true /\ failing ran <> [])) /\
       Forall2 (fun r t => exists short report log, t = case_shown (shown_config show_nat c) (rc_name r) short report log (rc_verdict r) (show_ms (dur (rc_name r)))) ran blocks /\
       text = heading_shown ++ concat blocks ++ summary_shown show_nat (failing ran) (length ran) took /\
       s' = Some (match failing ran with [] => 0 | _ => -1 end)%Z).
Proof.
  intros c arg answers f s t g (HR & HS & ND) H.
  destruct (list_chosen show_dur parse_dur sp show_ms show_nat read_took cc refloat o tests fuel body dur took shell parallel_run root c arg answers f s t g H) as (cases & L & CH & -> & -> & ->).
  destruct (chosen_some parse_dur sp o tests fuel root HR ND c arg f cases L CH) as (sel & _ & _ & EL & NC & IC & IL).
  exists L. do 3 (split; [reflexivity|]).
  split; [rewrite EL; now apply todo_NoDup|]. assert (IN : incl L names) by (intros n Hn; apply IC; now apply IL). split; [exact IN|]. split; [|split].
  - intros a. unfold exec, exec_of, exec_parsed. rewrite CH. unfold says, print_lines, lines_text. do 4 f_equal. apply map_in. intros n Hn. apply shot_eq; auto.
  - intros a. unfold exec, exec_of, exec_parsed. rewrite CH. unfold says. do 3 f_equal. clear - IN HR HS. induction L as [|n L IH]; [reflexivity|]. cbn [flat_map filter].
    rewrite shot_eq by (auto; apply IN; now left). rewrite IH by (intros m Hm; apply IN; now right). destruct (path_exists _ f); reflexivity.
  - intros a s' text h HB HP AR R. unfold exec, exec_of, exec_parsed in R. rewrite CH, HP, out_eq in R by exact HR.
    destruct (run_async_out _ _ _ _ _ _ _ _ _ _ _ _ _ _ _ _ _ _ _) as [[[[[rv recs] rest] text'] h'|h']|] eqn:RA in R; [|discriminate|discriminate]. cbn [run_bind] in R. injection R as <- <- <-.
    destruct (run_exact show_dur parse_dur sp show_ms show_nat (shown_config show_nat c) cc refloat root (lit ".out") HR Hout Hdot (run_config c) HB (body c) dur names HS
      (all_names tests) took cases a f rv recs rest text' h' IC NC AR RA) as (old & ran & blocks & left & E1 & [E2 _] & _ & _ & E3 & E4 & E5 & _).
    change (root ++ SLASH :: lit ".out") with (outputs root) in E1. rewrite report_eq in E1 by exact HR. rewrite <- EL in E1.
    exists ran, blocks, left. split; [exact E1|]. split; [exact E2|]. split; [|split; [exact E4|]].
    + clear - E3. induction E3 as [|r t ran blocks T _ IH]; constructor; [|exact IH].
      destruct (told_text _ _ _ _ _ _ _ _ _ _ _ T) as (s & report & lg & file & point & ops & _ & _ & _ & _ & TX). rewrite TX. eauto.
    + f_equal. destruct (failing ran); [rewrite (proj2 E5) by reflexivity; reflexivity|]. destruct rv; try reflexivity. destruct E5 as [E5 _]. now specialize (E5 eq_refl).
Qed.

Lemma todo_list old b cases n : In n (snd (cases_to_done_and_todo (D := D) old b cases)) <-> In n cases /\ (b = true -> ~ (exists r l, by_name n old = r :: l /\ rec_result r = OK)).
Proof.
  unfold cases_to_done_and_todo. destruct b; [rewrite todo_iff; intuition|]. cbn [snd]. intuition discriminate.
Qed.
Lemma by_name_forget n cases (old : list (case_rec D)) : by_name n (forget cases old) = if str_mem n cases then [] else by_name n old.
Proof.
  unfold by_name, forget. induction old as [|r old IH]; [now destruct (str_mem n cases)|]. cbn [filter].
  destruct (str_eqb_spec (rec_name r) n) as [E|N].
  - rewrite E. destruct (str_mem n cases) eqn:M; cbn [negb filter]; [exact IH|]. rewrite E, str_eqb_refl, IH. reflexivity.
  - destruct (str_mem (rec_name r) cases); cbn [negb filter]; [exact IH|]. destruct (str_eqb_spec (rec_name r) n); [now elim N|exact IH].
Qed.
Lemma on_key k c1 c2 : ConfigModel.dget k c1 = ConfigModel.dget k c2 -> on k c1 = on k c2.
Proof. unfold on. now intros ->. Qed.

(** C88. After --forget with the arguments [argX], -l -c with the arguments [argY] lists, of the tests that -l lists with them, those that
    --forget forgot and those that it listed before. *)
Theorem C88_forget :
  durations_ok show_dur parse_dur -> space_ok sp -> project root tests -> Forall (fun n => ~ In NL n) names ->
  forall cX argX cY cY' argY answers f x LX LY before after,
  cont (run_config cX) = false -> cont (run_config cY) = false -> cont (run_config cY') = true -> same_selection cY cY' ->
  lists exec cX argX f LX -> lists exec cY argY f LY -> lists exec cY' argY f before ->
  exec cX argX CForget answers f = Some x -> lists exec cY' argY (fs_of x) after ->
  forall n, In n after <-> In n LY /\ (In n LX \/ In n before).
Proof.
  intros DO SO (HR & HS & ND) HN cX argX cY cY' argY answers f x LX LY before after CX CY CY' SAME HX HY HB HF HA n.
  pose proof (fun c arg f L => lists_iff show_dur parse_dur sp show_ms show_nat read_took cc refloat o tests fuel body dur took shell parallel_run root HR ND c arg f L HN) as LI.
  apply LI in HX as [casesX HX]. apply LI in HY as [casesY HY]. apply LI in HB as [casesB HB]. apply LI in HA as [casesA HA].
  pose proof (chosen_some parse_dur sp o tests fuel root HR ND) as CS.
  unfold exec, exec_of, exec_parsed in HF. rewrite HX in HF. unfold says in HF. injection HF as <-. cbn [fs_of] in HA. rewrite out_eq, report_eq in HA by exact HR.
  set (old := of_file parse_dur sp (lookup _ f)) in HA. set (R := outputs root ++ SLASH :: lit "cases.txt") in *.
  destruct (CS _ _ _ _ _ HX) as (selX & _ & _ & EX & _). rewrite CX in EX. cbn in EX. subst LX.
  destruct (CS _ _ _ _ _ HY) as (selY & SY1 & SY2 & EY & _ & IY & _). rewrite CY in EY. cbn in EY. subst LY.
  destruct (CS _ _ _ _ _ HB) as (selB & SB1 & SB2 & EB & _). destruct (CS _ _ _ _ _ HA) as (selA & SA1 & SA2 & EA & _).
  rewrite <- (selection_same _ _ argY SAME) in SB1, SA1. rewrite SY1 in SB1, SA1. injection SB1 as <-. injection SA1 as <-.
  assert (XB : casesB = casesY).
  { rewrite (selected_ext o tests fuel selY _ (stored root cY f)) in SB2; [congruence|]. intros m Hm. apply (stored_same tests root); auto. symmetry. apply SAME. right. now left. }
  assert (XA : casesA = casesY).
  { rewrite (selected_ext o tests fuel selY _ (stored root cY f)) in SA2; [congruence|]. intros m Hm. apply (stored_same tests root); auto.
    - symmetry. apply SAME. right. now left.
    - intros p HP. rewrite lookup_write. destruct (str_eqb_spec R p) as [E|_]; [|reflexivity]. now apply (report_not_bin tests root m p) in HP. }
  subst casesB casesA. rewrite EA, EB, CY'. fold R. fold old. rewrite lookup_write, str_eqb_refl.
  rewrite (C21_report_roundtrip D show_dur parse_dur sp DO SO).
  2:{ unfold forget, names_ok. apply Forall_forall. intros r Hr. apply filter_In in Hr as [Hr _]. revert r Hr. apply Forall_forall. apply (read_names_ok parse_dur sp). }
  rewrite !todo_list, by_name_forget. destruct (str_mem n casesX) eqn:M.
  - apply str_mem_In in M. split; [tauto|]. intros [A _]. split; [exact A|]. intros _ (r & l & X & _). discriminate.
  - apply str_mem_not_In in M. tauto.
Qed.

(** C89. After --clean, --garbage finds nothing, no output is left, and -c makes no difference: all selected tests and all tests that
    they need, directly or not, are listed, however many results there were before. *)
Theorem C89_clean :
  project root tests -> Forall (fun n => ~ In NL n) names ->
  forall c arg answers f s t g, exec c arg CClean answers f = Some (Ret (s, t) g) ->
  (forall c' arg' a s' t' g', exec c' arg' CGarbage a g = Some (Ret (s', t') g') -> t' = []) /\
  (forall p, path_prefix (outputs root) p -> lookup p g = None) /\
  (forall c' arg' L, lists exec c' arg' g L -> exists selection, selection_of c' arg' = Some selection /\
   forall d, In d L <-> exists n, In n names /\ is_selected n selection = true /\ (d = n \/ needs_trans o tests selection (fun _ => false) n d)).
Proof.
  intros (HR & HS & ND) HN c arg answers f s t g H. unfold exec, exec_of, exec_parsed in H.
  destruct (chosen _ _ _ _ _ _ _ _ _) as [[[cases todo]|]|]; [|discriminate|discriminate]. unfold says in H. injection H as <- <- <-. change (all_names tests) with names.
  assert (PN : Forall (fun n => n <> [] /\ starts_with [SLASH] n = false) names).
  { apply Forall_forall. intros n Hn. destruct (proj1 (Forall_forall _ _) (proj1 HS) n Hn) as [P _]. split; [now apply proper_nonempty|now apply proper_start]. }
  pose proof (fun f p => C50_clean root names f p (proj1 HR) (proj2 HR) PN) as CL.
  assert (GN : garbage root names (clean root names f) = []).
  { destruct (garbage root names (clean root names f)) as [|p l] eqn:E; [reflexivity|]. exfalso.
    destruct (CL (clean root names f) p) as (G1 & _). rewrite E in G1. destruct G1 as [G1 _]. destruct (G1 (or_introl eq_refl)) as ((x & L) & C).
    destruct (CL f p) as (F1 & F2 & F3). destruct (in_dec (list_eq_dec N.eq_dec) p (garbage root names f)) as [I|NI].
    - rewrite (F2 I) in L. discriminate.
    - rewrite (F3 NI) in L. apply NI. apply F1. split; [now exists x|exact C]. }
  assert (NO : forall p, path_prefix (outputs root) p -> lookup p (clean root names f) = None).
  { intros p HP. destruct (CL f p) as (F1 & F2 & F3). destruct (lookup p f) as [y|] eqn:L.
    - apply F2. apply F1. split; [now exists y|].
      assert (EP : exists z, p = outputs root ++ z) by (destruct HP as [->|[r ->]]; [exists []; now rewrite app_nil_r|now exists (SLASH :: r)]).
      destruct EP as [z ->]. unfold outputs. split; [exists (lit ".out" ++ z); now rewrite <- app_assoc|]. split.
      + rewrite <- app_assoc. cbn [app]. intros X. apply app_inv_head in X. discriminate X.
      + intros n Hn. destruct (proj1 (Forall_forall _ _) (proj1 HS) n Hn) as (P & NDt & _). pose proof (proper_nonempty n P) as NE.
        pose proof (fun x => name_vs_out root (lit ".out") Hdot n x z NE NDt) as NV.
        split; [intros X; exact (NV (lit ".md") (eq_sym X))|intros [r X]; exact (NV (SLASH :: r) (eq_sym X))].
    - destruct (in_dec (list_eq_dec N.eq_dec) p (garbage root names f)) as [I|NI]; [now apply F2|]. now rewrite F3. }
  split; [|split; [exact NO|]].
  - intros c' arg' a s' t' g' H. unfold exec, exec_of, exec_parsed in H. destruct (chosen _ _ _ _ _ _ _ _ _) as [[[cases' todo']|]|]; [|discriminate|discriminate].
    unfold says in H. change (all_names tests) with names in H. rewrite GN in H. injection H as _ <- _. reflexivity.
  - intros c' arg' L HL.
    apply (lists_iff show_dur parse_dur sp show_ms show_nat read_took cc refloat o tests fuel body dur took shell parallel_run root HR ND c' arg' _ L HN) in HL as [cases' HL].
    destruct (chosen_some parse_dur sp o tests fuel root HR ND _ _ _ _ _ HL) as (sel & S1 & S2 & EL & _). exists sel. split; [exact S1|].
    assert (EC : L = cases').
    { rewrite EL, NO by (right; eexists; reflexivity). unfold cases_to_done_and_todo. destruct (cont (run_config c')); [|reflexivity].
      clear. induction cases' as [|i l IH]; [reflexivity|]. cbn [done_and_todo]. destruct (done_and_todo _ l) as [dn td] eqn:E. cbn [snd] in IH. subst td. reflexivity. }
    subst cases'. rewrite (selected_ext o tests fuel sel _ (fun _ => false)) in S2.
    + exact (proj2 (proj2 (C28_run_list_any_fuel o tests fuel sel _ L ND S2))).
    + intros n Hn. unfold stored. rewrite out_eq, (bin_eq tests root HR HS n Hn) by exact HR. unfold path_exists, is_file.
      assert (PB : forall p, path_prefix (outputs root ++ SLASH :: n ++ lit ".bin") p -> path_prefix (outputs root) p).
      { intros p [->|[r ->]]; right; [eexists; reflexivity|]. exists ((n ++ lit ".bin") ++ SLASH :: r). rewrite <- app_assoc. reflexivity. }
      rewrite NO by (apply PB, prefix_refl).
      destruct (is_dir _ _) eqn:ID; [|now rewrite andb_false_r]. apply is_dir_iff in ID as (p & y & L1 & B). rewrite NO in L1; [discriminate|]. apply PB. now apply prefix_below.
Qed.

(** C90. After a run without -c that nobody was asked about and that ended with exit code 0, nothing is left to do: with -c and otherwise
    the same options, -l lists nothing and a run runs no test and ends with 0. *)
Theorem C90_green_run_leaves_nothing :
  durations_ok show_dur parse_dur -> space_ok sp -> project root tests -> Forall field_ok names ->
  forall c c' arg answers f text g,
  batch (run_config c) -> cont (run_config c) = false -> ConfigModel.is_parallel c = false -> all_ready root (lit ".out") names f ->
  exec c arg CRun answers f = Some (Ret (Some 0%Z, text) g) ->
  same_selection c c' -> cont (run_config c') = true ->
  (forall L, lists exec c' arg g L -> L = []) /\
  (forall answers' x, ConfigModel.is_parallel c' = false -> exec c' arg CRun answers' g = Some x ->
   exists g', x = Ret (Some 0%Z, heading_shown ++ summary_shown show_nat [] 0 took) g' /\
     forall p, p <> outputs root ++ SLASH :: lit "cases.txt" -> p <> outputs root ++ SLASH :: lit "metrics.json" -> p <> root ++ SLASH :: lit "index.md" ->
     lookup p g' = lookup p g).
Proof.
  intros DO SO (HR & HS & ND) HN c c' arg answers f text g HB HC HP AR H SAME HC'.
  assert (NN : Forall (fun n => ~ In NL n) names) by (eapply Forall_impl; [|exact HN]; intros n Hn; apply Hn).
  unfold exec, exec_of, exec_parsed in H. destruct (chosen parse_dur sp o tests fuel root c arg f) as [[[cases todo]|]|] eqn:CH; [|discriminate|discriminate].
  destruct (chosen_some parse_dur sp o tests fuel root HR ND c arg f cases todo CH) as (sel & S1 & S2 & ET & NC & IC & _). rewrite HP, out_eq in H by exact HR.
  destruct (run_async_out _ _ _ _ _ _ _ _ _ _ _ _ _ _ _ _ _ _ _) as [[[[[rv recs] rest] text'] h'|h']|] eqn:RA in H; [|discriminate|discriminate]. cbn [run_bind] in H.
  destruct rv; try discriminate H. injection H as -> ->.
  destruct (run_exact show_dur parse_dur sp show_ms show_nat (shown_config show_nat c) cc refloat root (lit ".out") HR Hout Hdot (run_config c) HB (body c) dur names HS
      (all_names tests) took cases answers f OK recs rest text g IC NC AR RA) as (old & ran & blocks & left & E1 & [EL _] & EO & ER & _ & _ & EF & ELk & _ & EFR & _).
  change (root ++ SLASH :: lit ".out") with (outputs root) in *. rewrite report_eq in * by exact HR.
  assert (F0 : failing ran = []) by now apply EF. destruct EL as [->|[_ X]]; [|now elim X]. rewrite app_nil_r in *.
  rewrite HC in E1. cbn [cases_to_done_and_todo snd] in E1.
  assert (RD : of_file parse_dur sp (lookup (outputs root ++ SLASH :: lit "cases.txt") g) = recs).
  { rewrite ELk. apply (C21_report_roundtrip D show_dur parse_dur sp DO SO). rewrite ER, EO. apply Forall_app. split.
    - apply Forall_forall. intros r Hr. apply kept_In in Hr as [Hr _]. revert r Hr. apply Forall_forall. apply (read_names_ok parse_dur sp).
    - apply Forall_forall. intros r Hr. apply in_map_iff in Hr as (q & <- & Hq). cbn. rewrite Forall_forall in HN. apply HN, IC. rewrite E1. exact (in_map rc_name ran q Hq). }
  assert (DN : forall n, In n cases -> exists r l, by_name n recs = r :: l /\ rec_result r = OK).
  { intros n Hn. destruct (by_name n recs) as [|r l] eqn:BN.
    - rewrite E1 in Hn. apply in_map_iff in Hn as (q & Eq & Hq). assert (X : In (ran_rec dur q) (by_name n recs)).
      { apply by_name_In. split; [rewrite ER; apply in_or_app; right; exact (in_map (ran_rec dur) ran q Hq)|exact Eq]. } rewrite BN in X. destruct X.
    - exists r, l. split; [reflexivity|]. assert (X : In r (by_name n recs)) by (rewrite BN; now left). apply by_name_In in X as [X XN].
      rewrite ER in X. apply in_app_or in X as [X|X].
      + rewrite EO in X. apply kept_In in X as [_ X]. elim X. rewrite XN, <- E1. exact Hn.
      + apply in_map_iff in X as (q & <- & Hq). cbn [ran_rec rec_result fst snd]. destruct (rc_result q) eqn:RQ; [reflexivity| |];
          assert (Z : In (rc_name q) (failing ran)) by (unfold failing; apply (in_map rc_name); apply filter_In; split; [exact Hq|unfold not_ok; now rewrite RQ]); rewrite F0 in Z; destruct Z. }
  assert (CG : forall c2 cases2 todo2, chosen parse_dur sp o tests fuel root c2 arg g = Some (Some (cases2, todo2)) -> same_selection c c2 -> incl cases2 cases).
  { intros c2 cases2 todo2 CH2 SAME2. destruct (chosen_some parse_dur sp o tests fuel root HR ND c2 arg g cases2 todo2 CH2) as (sel2 & T1 & T2 & _).
    rewrite <- (selection_same c c2 arg SAME2), S1 in T1. injection T1 as <-.
    destruct (C28_run_list_any_fuel o tests fuel sel _ cases ND S2) as (_ & B1 & I1). destruct (C28_run_list_any_fuel o tests fuel sel _ cases2 ND T2) as (_ & _ & I2).
    assert (ST : forall n d, In n cases -> needs o tests sel (stored root c2 g) n d -> In d cases).
    { intros n d Hn (m & dep & M1 & M2 & M3 & M4).
      assert (Hd : In d names) by (apply (needs_case o tests sel (stored root c2 g) n d); exists m, dep; auto).
      destruct (is_selected d sel) eqn:SD; [apply I1; exists d; auto|]. destruct M4 as [M4|M4]; [discriminate|].
      destruct (in_dec (list_eq_dec N.eq_dec) d cases) as [I|NI]; [exact I|].
      assert (S : stored root c f d = stored root c2 g d).
      { apply (stored_same tests root HR HS); auto; [apply SAME2; right; now left|]. intros p PP. symmetry. apply (EFR d p Hd NI).
        apply (own_O root (lit ".out") d (lit ".bin")); [unfold case_exts; cbn [In]; auto 10|exact PP]. }
      assert (N1 : needs o tests sel (stored root c f) n d) by (exists m, dep; repeat (split; [assumption|]); right; congruence).
      destruct (B1 n d Hn N1) as (x & y & z & EQ). rewrite EQ. apply in_or_app. right. now left. }
    assert (ST2 : forall n d, needs_trans o tests sel (stored root c2 g) n d -> In n cases -> In d cases).
    { intros n d NT. induction NT as [n d N|n e d N _ IH]; intros Hn; [now apply (ST n)|]. apply IH. now apply (ST n). }
    intros d Hd. apply I2 in Hd as (n & Hn & Sn & [->|NT]); [apply I1; exists n; auto|]. apply (ST2 n d NT). apply I1. exists n. auto. }
  assert (TG : forall cases2 todo2, chosen parse_dur sp o tests fuel root c' arg g = Some (Some (cases2, todo2)) -> todo2 = []).
  { intros cases2 todo2 CH2. destruct (chosen_some parse_dur sp o tests fuel root HR ND c' arg g cases2 todo2 CH2) as (_ & _ & _ & -> & _). rewrite HC', RD.
    destruct (snd (cases_to_done_and_todo recs true cases2)) as [|n l] eqn:E; [reflexivity|]. exfalso.
    assert (X : In n (snd (cases_to_done_and_todo recs true cases2))) by (rewrite E; now left). apply todo_list in X as [X1 X2]. apply X2; [reflexivity|].
    apply DN. exact (CG c' cases2 _ CH2 SAME n X1). }
  split.
  - intros L HL. apply (lists_iff show_dur parse_dur sp show_ms show_nat read_took cc refloat o tests fuel body dur took shell parallel_run root HR ND c' arg g L NN) in HL as [cases2 HL]. now apply (TG cases2).
  - intros answers' x HP' X. unfold exec, exec_of, exec_parsed in X. destruct (chosen parse_dur sp o tests fuel root c' arg g) as [[[cases2 todo2]|]|] eqn:CH2; [| |discriminate].
    2:{ exfalso. unfold chosen in CH2. rewrite <- (selection_same c c' arg SAME), S1 in CH2. destruct (selected_names o tests fuel sel (stored root c' g)); discriminate CH2. }
    pose proof (TG _ _ eq_refl) as T0. destruct (chosen_some parse_dur sp o tests fuel root HR ND c' arg g cases2 todo2 CH2) as (_ & _ & _ & ET2 & _). rewrite T0 in ET2.
    rewrite HP', out_eq in X by exact HR. unfold run_async_out in X. rewrite report_eq in X by exact HR. cbv zeta in X. rewrite <- ET2 in X. cbn [run_todo_out run_bind is_ok] in X. injection X as <-.
    eexists. split; [rewrite end_text_shown; reflexivity|]. intros p N1 N2 N3.
    assert (M : path_join (outputs root) (lit "metrics.json") = outputs root ++ SLASH :: lit "metrics.json") by (apply path_join_name; [now apply out_plain|reflexivity]).
    assert (I : path_join root (lit "index.md") = root ++ SLASH :: lit "index.md") by (apply path_join_name; [exact HR|reflexivity]).
    rewrite M, I, !lookup_write. destruct (str_eqb_spec (root ++ SLASH :: lit "index.md") p) as [E|_]; [now elim N3|].
    destruct (str_eqb_spec (outputs root ++ SLASH :: lit "metrics.json") p) as [E|_]; [now elim N2|].
    destruct (str_eqb_spec (outputs root ++ SLASH :: lit "cases.txt") p) as [E|_]; [now elim N1|]. reflexivity.
Qed.
End Commands.
Print Assumptions C86_commands_change_only.
Print Assumptions C86_snapshots_kept.
Print Assumptions C87_list_is_what_runs.
Print Assumptions C88_forget.
Print Assumptions C89_clean.
Print Assumptions C90_green_run_leaves_nothing.

(** ** Examples *)
Definition cmd_objects : objects :=
  {| o_deps := fun i => if Nat.eqb i 1 then [Fn 0] else []; o_resources := fun _ => []; o_self_type := fun _ => None; o_isinstance := fun _ _ => false |}.
Definition cmd_tests : list (str * meth) := [(lit "t/a", Fn 0); (lit "t/b", Fn 1)].
Definition cmd_dur (_ : unit) : str := lit "7".
Notation cmd_exec := (exec_parsed cmd_dur (fun _ => Some tt) (fun c => N.eqb c SP) cmd_dur dec demo_took ascii_class no_float cmd_objects cmd_tests 5
  (fun _ => demo_body) (fun _ => tt) (lit "12") (fun line _ => (line ++ [NL], 0%Z)) (fun _ _ _ _ => None) demo_E).
(** the options -a, -c *)
Definition cmd_config (acc con : bool) : ConfigModel.config := [(lit "accept", ConfigModel.VBool acc); (lit "continue", ConfigModel.VBool con)].
Definition cmd_after (x : run (option Z * str)) : fs := match x with Some y => fs_of y | None => [] end.
Definition cmd_said (x : run (option Z * str)) : option (option Z * str) := match x with Some (Ret a _) => Some a | _ => None end.

Example cmd_project : project demo_E cmd_tests /\ Forall field_ok (map fst cmd_tests) /\ durations_ok cmd_dur (fun _ => Some tt) /\ space_ok (fun c => N.eqb c SP) /\
  all_ready demo_E (lit ".out") (map fst cmd_tests) demo_f0.
Proof.
  split; [split; [split; [discriminate|reflexivity]|split; [exact demo_separate|repeat constructor; cbn [In]; intuition discriminate]]|].
  split; [repeat constructor; vm_compute; intuition discriminate|]. split; [intros []; split; [reflexivity|]; repeat constructor; vm_compute; intuition discriminate|].
  split; [intros c Hc; apply N.eqb_neq; intros ->; vm_compute in Hc; destruct Hc as [Hc _]; now apply Hc|]. intros n [<-|[<-|[]]]; apply readyb_ok; vm_compute; reflexivity.
Qed.

(** without arguments only tests below test/ and book/ are selected; t/b needs t/a *)
Example C87_example :
  cmd_said (cmd_exec (cmd_config false false) None CList [] demo_f0) = Some (Some 0%Z, []) /\
  cmd_said (cmd_exec (cmd_config false false) (Some [lit "t/b"]) CList [] demo_f0) = Some (Some 0%Z, listing [lit "t/a"; lit "t/b"]) /\
  cmd_said (cmd_exec (cmd_config false false) (Some [lit "t/b"]) CPath [] demo_f0) = Some (Some 0%Z, lines_text [lit "books/t/a.md"; lit "books/t/b.md"]) /\
  cmd_said (cmd_exec (cmd_config false false) (Some [lit "t/b"]) CRun [] demo_f0) = Some (Some (-1)%Z, lines_text
    [[]; lit "# test results:"; []; lit "  t/a..7 ms"; lit "  t/b..DIFFERED in 7 ms"; []; lit "1/2 test failed in 12 ms:"; []; lit "  t/b"; []]).
Proof. vm_compute. repeat split. Qed.

(** a run that leaves a difference, then -l -c; --forget of the other test, then -l -c *)
Example C88_example :
  let f1 := cmd_after (cmd_exec (cmd_config false false) (Some [lit "t"]) CRun [] demo_f0) in
  let f2 := cmd_after (cmd_exec (cmd_config false false) (Some [lit "t/a"]) CForget [] f1) in
  cmd_said (cmd_exec (cmd_config false true) (Some [lit "t"]) CList [] f1) = Some (Some 0%Z, listing [lit "t/b"]) /\
  cmd_said (cmd_exec (cmd_config false false) (Some [lit "t/a"]) CForget [] f1) = Some (None, []) /\
  cmd_said (cmd_exec (cmd_config false true) (Some [lit "t"]) CList [] f2) = Some (Some 0%Z, listing [lit "t/a"; lit "t/b"]).
Proof. vm_compute. repeat split. Qed.

(** a run with -a, so that the exit code is 0; then with -c; --clean *)
Example C90_example :
  let f1 := cmd_after (cmd_exec (cmd_config true false) (Some [lit "t"]) CRun [] demo_f0) in
  let f2 := cmd_after (cmd_exec (cmd_config true true) (Some [lit "t/b"]) CClean [] f1) in
  option_map fst (cmd_said (cmd_exec (cmd_config true false) (Some [lit "t"]) CRun [] demo_f0)) = Some (Some 0%Z) /\
  cmd_said (cmd_exec (cmd_config true true) (Some [lit "t"]) CList [] f1) = Some (Some 0%Z, []) /\
  cmd_said (cmd_exec (cmd_config true true) (Some [lit "t"]) CRun [] f1) = Some (Some 0%Z, lines_text
    [[]; lit "# test results:"; []; []; lit "0/0 test succeeded in 12 ms"; []]) /\
  length (garbage demo_E (map fst cmd_tests) f1) = 12 /\
  cmd_said (cmd_exec (cmd_config true true) (Some [lit "t/b"]) CGarbage [] f2) = Some (Some 0%Z, []) /\
  cmd_said (cmd_exec (cmd_config true true) (Some [lit "t/b"]) CList [] f2) = Some (Some 0%Z, listing [lit "t/a"; lit "t/b"]) /\
  lookup (lit "books/t/b.md") f2 = lookup (lit "books/t/b.md") f1.
Proof. vm_compute. repeat split. Qed.

(** a session: a run with a difference, --review, -c, --forget, --clean *)
Example C86_example :
  let i cmd con := {| i_body := fun _ => demo_body; i_config := cmd_config false con; i_arg := Some [lit "t"]; i_cmd := cmd; i_answers := [] |} in
  Forall (fun i => hands_off (run_config (i_config i)) /\ ConfigModel.is_parallel (i_config i) = false) [i CRun false; i CReview false; i CRun true; i CForget false; i CClean false] /\
  exists g, session (fun b => exec_parsed cmd_dur (fun _ => Some tt) (fun c => N.eqb c SP) cmd_dur dec demo_took ascii_class no_float cmd_objects cmd_tests 5
      b (fun _ => tt) (lit "12") (fun line _ => (line ++ [NL], 0%Z)) (fun _ _ _ _ => None) demo_E)
    [i CRun false; i CReview false; i CRun true; i CForget false; i CClean false] demo_f0 g /\
  map fst g = [lit "books/index.md"; lit "books/t/a.md"; lit "books/t/b.md"; lit "books/t/b/old.json"; lit "src/x.py"].
Proof.
  cbv zeta. split; [repeat constructor|]. eexists. split.
  - repeat (eapply session_cons; [vm_compute; reflexivity|cbn [fs_of]]). apply session_nil.
  - vm_compute. reflexivity.
Qed.
