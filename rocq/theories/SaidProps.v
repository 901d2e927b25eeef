(** What the recording blocks, the scheduler's resources, --forget, --review and --setup say and write, exactly. *)
From Verif Require Import RunCaseModel CommandsModel CommandsSpec ConsoleSpec ConsoleProps CommandsProps.
From Verif Require ConfigModel ConfigProps ArgsModel.
From Verif Require Import PyStrFacts FsFacts FuncTestModel EnvTestModel EnvModel EnvProofs EnvTestProps ResourceModel.
From Verif Require JsonFacts HttpModel HttpListModel HttpListProps HttpTestModel HttpTestProps.
From Coq Require Import ZArith Permutation Lia.

(** ** C121 *)
(** The list that snapshot_env adds to the output of a test: every variable with the value that the test saw. What else the test did,
    also the exception that it raised, stays. *)
Theorem C121_env_said refloat names refresh complete file (T : env_test) e b e' :
  NoDup names -> env_run refloat names refresh complete file T e b e' ->
  exists inside saved,
    b_ops b = b_ops (fst (T inside)) ++ OH 1 (lit "env snaphots:") ::
                map (fun n => OTln (lit " * " ++ n ++ lit "=" ++ match inside n with Some v => v | None => lit "None" end)) names /\
    b_exc b = b_exc (fst (T inside)) /\ b_value b = b_value (fst (T inside)) /\ b_log b = b_log (fst (T inside)) /\ b_tmp b = b_tmp (fst (T inside)) /\
    b_files b = b_files (fst (T inside)) ++ [(lit ".env.json", saved)] /\
    (forall n, ~ In n names -> inside n = e n).
Proof.
  intros ND (loaded & d & text & EL & ES & EF & ->).
  unfold snap_block in ES. destruct (s_ok (snap_start names loaded refresh complete e)) eqn:OK; [|discriminate].
  pose proof (enter_ok names (snap_load loaded refresh) (complete || refresh) e [] [] ND OK) as EO.
  destruct (snap_enter_spec names (snap_load loaded refresh) (complete || refresh) e [] []) as (_ & SO & SC & SI & SX); [exact ND|exact ND|intros n I; apply (EO n I)|intros n I; apply (EO n I)|].
  change (snap_enter names (snap_load loaded refresh) (complete || refresh) e [] []) with (snap_start names loaded refresh complete e) in *.
  destruct (snap_leave _ _) as [e1 ok] in ES. destruct ok; [|discriminate].
  assert (ED : s_capture (snap_start names loaded refresh complete e) = d) by congruence. clear ES.
  set (inside := s_env (snap_start names loaded refresh complete e)) in *. rewrite SC in ED. cbn [app] in ED.
  exists inside, text. unfold with_env. cbn [b_ops b_exc b_value b_log b_tmp b_files]. split; [|repeat split; auto].
  do 2 f_equal. rewrite <- ED. unfold env_lines. rewrite !map_map. apply map_ext_in. intros n I. cbn [fst snd]. now rewrite <- SI.
Qed.
Print Assumptions C121_env_said.

(** ** C120 *)
(** The list that snapshot_functions adds: a line for every file that it writes. *)
Theorem C120_functions_said sha1 refloat (X : Type) capture refresh listing (T : func_test X) cs os b used :
  func_run sha1 refloat X capture refresh listing T cs os b used ->
  exists calls : list (str * str * str),
    let b0 := f_does T os in
    b_ops b = b_ops b0 ++ OH 1 (lit "function call snapshots:") :: map (fun c => OTln (lit " * " ++ snd (fst c) ++ lit " - " ++ fst (fst c))) calls /\
    b_files b = b_files b0 ++ map (fun c => (lit ".functions/" ++ fst (fst c) ++ lit ".json", snd c)) calls /\
    b_exc b = b_exc b0 /\ b_value b = b_value b0 /\ b_log b = b_log b0 /\ b_tmp b = b_tmp b0.
Proof.
  intros (loaded & ks & calls & hos & lines & files & _ & _ & _ & _ & _ & EL & ES & ->).
  enough (X0 : exists cs' : list (str * str * str), lines = map (fun c => lit " * " ++ snd (fst c) ++ lit " - " ++ fst (fst c)) cs' /\
     files = map (fun c => (lit ".functions/" ++ fst (fst c) ++ lit ".json", snd c)) cs').
  { destruct X0 as (cs' & -> & ->). exists cs'. unfold with_calls. cbn [b_ops b_exc b_value b_log b_tmp b_files]. rewrite map_map. auto 10. }
  apply JsonFacts.all_of_some in EL, ES. clear -EL ES. revert files ES. induction EL as [|[h e] l calls lines HL _ IH]; intros files ES; inversion ES as [|? t ? files' HS HT]; subst.
  - now exists [].
  - cbn [fst snd] in HL, HS. destruct (IH files' HT) as (cs' & -> & ->). destruct (dict_get (lit "func") (fst e)) as [v|]; [|discriminate HL]. destruct v as [| | | |name| | | |]; try discriminate HL.
    destruct (held_file e) as [t0|]; [|discriminate HS]. cbn [option_map] in HS. assert (E1 : lit " * " ++ name ++ lit " - " ++ h = l) by congruence. assert (E2 : (lit ".functions/" ++ h ++ lit ".json", t0) = t) by congruence.
    subst l t. exists ((h, name, t0) :: cs'). split; reflexivity.
Qed.
Print Assumptions C120_functions_said.

(** ** C118 *)
(** The list that snapshot_requests and snapshot_httpx add. *)
Theorem C118_requests_said cc sha1 jfloat (R X : Type) rj ro ign hide title fname capture refresh file (T : HttpTestModel.http_test R X) cs os b used :
  HttpTestModel.http_run cc sha1 jfloat R X rj ro ign hide title fname capture refresh file T cs os b used ->
  exists keys saved, let b0 := HttpTestModel.t_does T os in
    b_ops b = b_ops b0 ++ OH 1 title :: map (fun k : str * str => OTln (lit " * " ++ fst k ++ lit " - " ++ snd k)) keys /\
    b_files b = b_files b0 ++ [(fname, saved)] /\
    b_exc b = b_exc b0 /\ b_value b = b_value b0 /\ b_log b = b_log b0 /\ b_tmp b = b_tmp b0.
Proof.
  intros (files & reqs & text & _ & _ & _ & _ & ->). destruct (HttpListProps.C101_lines R reqs) as (keys & E & _). cbv zeta in E. exists keys, text.
  unfold HttpTestModel.with_snapshots. cbv zeta. cbn [b_ops b_exc b_value b_log b_tmp b_files]. rewrite E, map_map. auto 10.
Qed.
Print Assumptions C118_requests_said.

(** ** C138 *)
Theorem C138_python_equal :
  (forall b z, (ident_eqb (IBool b) (IInt z) = true <-> z = if b then 1%Z else 0%Z) /\ (ident_eqb (IInt z) (IBool b) = true <-> z = if b then 1%Z else 0%Z)) /\
  (forall x y, ident_eqb (IInt x) (IInt y) = true <-> x = y) /\ (forall x y, ident_eqb (IBool x) (IBool y) = true <-> x = y) /\
  (forall s t, ident_eqb (IStr s) (IStr t) = true <-> s = t) /\
  (forall s z, ident_eqb (IStr s) (IInt z) = false /\ ident_eqb (IInt z) (IStr s) = false) /\ (forall s b, ident_eqb (IStr s) (IBool b) = false /\ ident_eqb (IBool b) (IStr s) = false) /\
  forall show_int p v t, resource_eqb (port show_int p) (new_resource v (Some (IStr t))) = true <-> t = lit "port=" ++ show_int p.
Proof.
  split; [|split; [|split; [|split; [|split; [|split]]]]].
  - intros b z. cbn [ident_eqb]. rewrite !Z.eqb_eq. destruct b; cbn [int_of]; split; split; congruence.
  - intros x y. apply Z.eqb_eq.
  - intros x y. destruct x, y; cbn; split; congruence.
  - intros s t. cbn [ident_eqb]. destruct (str_eqb_spec s t); split; congruence.
  - now split.
  - now split.
  - intros show_int p v t. unfold resource_eqb, port, new_resource. cbn [identifier ident_eqb]. destruct (str_eqb_spec (lit "port=" ++ show_int p) t); split; congruence.
Qed.
Print Assumptions C138_python_equal.

(** ** C87, C88 *)
(** where the selection comes from *)
Theorem C87_selection c :
  (forall s, selection_of c (Some s) = Some s) /\
  (ConfigModel.dget (lit "default_tests") c = None -> selection_of c None = Some [lit "test"; lit "book"]) /\
  (forall s, ConfigModel.dget (lit "default_tests") c = Some (ConfigModel.VStr s) ->
     exists parts, selection_of c None = Some parts /\ join_with [CommandsModel.COMMA] parts = s /\ Forall (fun p => ~ In CommandsModel.COMMA p) parts) /\
  (forall v, ConfigModel.dget (lit "default_tests") c = Some v -> (forall s, v <> ConfigModel.VStr s) -> selection_of c None = None).
Proof.
  split; [reflexivity|]. unfold selection_of. split; [intros ->; reflexivity|]. split.
  - intros s ->. exists (split_on CommandsModel.COMMA s). split; [reflexivity|]. split; [apply join_split|apply split_on_parts].
  - intros v -> N. destruct v; try reflexivity. now elim (N s).
Qed.
Print Assumptions C87_selection.

(** --forget forgets what is selected, with -c as without *)
Theorem C88_forget_with_continue
  {D : Type} (show_dur : D -> str) (parse_dur : str -> option D) sp show_ms show_nat read_took cc refloat o tests fuel body dur took shell parallel_run root c c' arg answers f :
  same_selection c c' ->
  let exec c := exec_parsed show_dur parse_dur sp show_ms show_nat read_took cc refloat o tests fuel body dur took shell parallel_run root c arg CForget answers f in
  exec c = exec c'.
Proof.
  intros S exec. assert (CH : option_map (option_map fst) (chosen parse_dur sp o tests fuel root c arg f) = option_map (option_map fst) (chosen parse_dur sp o tests fuel root c' arg f)).
  { unfold chosen, selection_of, CommandsModel.stored, on. rewrite (S (lit "default_tests")), (S (lit "refresh_sources")) by (cbn [In]; tauto).
    set (sel := match arg with Some s => Some s | None => _ end). destruct sel as [s|]; [|reflexivity]. destruct (selected_names _ _ _ _ _) as [cases|]; reflexivity. }
  unfold exec, exec_parsed. destruct (chosen _ _ _ _ _ _ c arg f) as [[[cases todo]|]|], (chosen _ _ _ _ _ _ c' arg f) as [[[cases' todo']|]|]; cbn in CH; try discriminate CH; try reflexivity.
  injection CH as ->. reflexivity.
Qed.
Print Assumptions C88_forget_with_continue.

(** ** C85 *)
(** the last lines of --review count the tests after it: those that were accepted are no longer failed *)
Theorem C85_review_summary
  {D : Type} (show_dur : D -> str) (parse_dur : str -> option D) sp show_ms show_nat read_took sh E O c passed cases answers f ok text g :
  review_out show_dur parse_dur sp show_ms show_nat read_took sh E O c passed cases answers f = Ret (ok, text) g ->
  exists recs m took middle,
    lookup (path_join O (lit "metrics.json")) f = Some m /\ read_took m = Some took /\
    lookup (path_join O (lit "cases.txt")) g = Some (report_text show_dur recs) /\
    text = heading_shown ++ middle ++ summary_shown show_nat (map rec_name (filter (fun r => negb (is_ok (rec_result r))) recs)) (length recs) took.
Proof.
  unfold review_out. destruct (lookup _ f) as [m|]; [|discriminate]. destruct (read_took m) as [took|] eqn:RT; [|discriminate].
  destruct (review_loop_out _ _ _ _ _ _ _ _ _ _ _) as [[[ok1 recs] t] f1|f1]; [|discriminate]. cbn [io_bind]. intros H. injection H as <- <- <-.
  exists recs, m, took, t. split; [reflexivity|]. split; [exact RT|]. split; [now rewrite lookup_write, str_eqb_refl|]. rewrite end_text_shown. reflexivity.
Qed.
Print Assumptions C85_review_summary.

(** ** C52 *)
(** what --setup prints *)
Theorem C52_setup_said show_nat c answers f s text g :
  ArgsModel.setup_booktest show_nat c answers f = Ret (s, text) g ->
  let value key answer := match answer with
                          | [] => match ConfigModel.dget key c with Some v => ConfigModel.show_cval show_nat v | None => ConfigModel.config_defaults key end
                          | _ => answer end in
  s = Some 0%Z /\ length ConfigModel.setup_keys <= length answers /\
  text = lines_text ([[]; lit "setup asks you to specify various tools and paths for booktest"; lit "=============================================================="; []] ++
    concat (map (fun ka : str * str => let (key, answer) := ka in
      ConfigModel.config_comments key ++ [[]; lit "specify " ++ key ++ lit " (default '" ++ value key [] ++ lit "'):"; key ++ lit "=" ++ value key answer; []])
      (combine ConfigModel.setup_keys answers)) ++ [lit "updated .booktest"]).
Proof.
  intros H value. revert H. unfold ArgsModel.setup_booktest. destruct (Nat.ltb_spec (length answers) (length ConfigModel.setup_keys)) as [|LE]; [discriminate|]. intros H.
  assert (RI : forall (A : Type) (x y : A) (a b : FsModel.fs), Ret x a = Ret y b -> x = y) by (intros A x y a b HH; now injection HH).
  apply RI in H. apply pair_equal_spec in H. destruct H as [<- <-].
  split; [reflexivity|]. split; [exact LE|].
  assert (PV : forall k a, ConfigModel.prompt_value show_nat c k a = value k a) by (intros k [|? ?]; reflexivity).
  assert (L4 : forall a b, lines_text [[]; a; b; []] = [NL] ++ a ++ [NL] ++ b ++ [NL; NL]) by (intros a b; unfold lines_text; cbn [flat_map app]; rewrite <- !app_assoc; reflexivity).
  rewrite lines_app, L4, <- !app_assoc. do 5 apply (f_equal (app _)). rewrite lines_app. apply f_equal2; [|symmetry; apply app_nil_r].
  generalize (combine ConfigModel.setup_keys answers). intros l. induction l as [|[k a] l IH]; [reflexivity|].
  cbn [flat_map map concat fst snd]. rewrite lines_app, <- IH. f_equal. unfold ArgsModel.setup_prompt. rewrite !PV, lines_app. fold (lines_text (ConfigModel.config_comments k)). f_equal.
  unfold lines_text. cbn [flat_map]. rewrite <- !app_assoc. reflexivity.
Qed.
Print Assumptions C52_setup_said.

(** ** C98 *)
(** An option of the command line is what the run works with: -i, -I, -u, -a, -c, -f, -v, -L and the two tools, whatever else is configured. *)
Theorem C98_options_reach_the_run cc global f environ extra p c show_nat :
  ConfigModel.exec_config cc global f environ extra p = Some c ->
  let r := run_config c in let s := shown_config show_nat c in
  (ConfigModel.f_i p = true -> interactive r = true) /\ (ConfigModel.f_I p = true -> always_interactive r = true) /\
  (ConfigModel.f_u p = true -> update r = true) /\ (ConfigModel.f_a p = true -> accept r = true) /\
  (ConfigModel.f_c p = true -> cont r = true) /\ (ConfigModel.f_f p = true -> fail_fast r = true) /\
  (ConfigModel.f_v p = true -> ConsoleModel.verbose s = true) /\ (ConfigModel.f_L p = true -> ConsoleModel.print_logs s = true) /\
  (ConfigModel.f_md_viewer p <> [] -> ConsoleModel.tool s (lit "md_viewer") = Some (ConfigModel.f_md_viewer p)) /\
  (ConfigModel.f_diff_tool p <> [] -> ConsoleModel.tool s (lit "diff_tool") = Some (ConfigModel.f_diff_tool p)).
Proof.
  intros E r s. assert (exists c0, ConfigModel.get_default_config cc global f environ = Some c0) as [c0 E0].
  { unfold ConfigModel.exec_config in E. destruct (ConfigModel.get_default_config cc global f environ); [eauto|discriminate]. }
  destruct (ConfigProps.C98_flags_win cc global f environ extra p c0 c E0 E) as [W _].
  assert (O : forall k, ConfigProps.flag_sets p k (ConfigModel.VBool true) -> on k c = true) by (intros k H; unfold on; now rewrite (W _ _ H)).
  assert (T : forall k v, ConfigProps.flag_sets p k (ConfigModel.VStr v) -> ConsoleModel.tool s k = Some v) by (intros k v H; unfold s, shown_config; cbn [ConsoleModel.tool]; now rewrite (W _ _ H)).
  unfold r, s, run_config, shown_config in *. cbn [interactive always_interactive update accept cont fail_fast ConsoleModel.verbose ConsoleModel.print_logs ConsoleModel.tool] in *.
  repeat split; intros H; solve [apply O; now constructor|apply T; now constructor].
Qed.
Print Assumptions C98_options_reach_the_run.
Example C98_options_example :
  let p := {| ConfigModel.f_i := false; ConfigModel.f_I := false; ConfigModel.f_v := true; ConfigModel.f_L := false; ConfigModel.f_f := true; ConfigModel.f_c := false;
              ConfigModel.f_r := false; ConfigModel.f_u := false; ConfigModel.f_a := true; ConfigModel.f_p := ConfigModel.VBool false; ConfigModel.f_s := false;
              ConfigModel.f_S := false; ConfigModel.f_cov := false; ConfigModel.f_md_viewer := lit "less"; ConfigModel.f_diff_tool := [] |} in
  match ConfigModel.exec_config PyStr.ascii_class None [] [] [(lit "verbose", ConfigModel.VBool false)] p with
  | Some c => (fail_fast (run_config c), accept (run_config c), update (run_config c),
               ConsoleModel.verbose (shown_config (fun _ => []) c), ConsoleModel.print_logs (shown_config (fun _ => []) c), ConsoleModel.tool (shown_config (fun _ => []) c) (lit "md_viewer"))
              = (true, true, false, true, false, Some (lit "less"))
  | None => False
  end.
Proof. vm_compute. reflexivity. Qed.

(** ** C87 *)
(** A command whose configuration can not be read, or whose default_tests is no text while no tests are given, raises before it does anything. *)
Theorem C87_raises {D : Type} (show_dur : D -> str) parse_dur sp show_ms show_nat read_took cc refloat o tests fuel body dur took shell parallel_run root
  global environ extra p arg cmd answers f :
  (ConfigModel.exec_config cc global f environ extra p = None \/
   exists c, ConfigModel.exec_config cc global f environ extra p = Some c /\ arg = None /\ exists v, ConfigModel.dget (lit "default_tests") c = Some v /\ forall s, v <> ConfigModel.VStr s) ->
  invoke show_dur parse_dur sp show_ms show_nat read_took cc refloat o tests fuel body dur took shell parallel_run root global environ extra p arg cmd answers f = Some (Raise f).
Proof.
  unfold invoke. intros [->|(c & -> & -> & v & E & N)]; [reflexivity|]. unfold exec_parsed, chosen, selection_of. rewrite E. destruct v; try reflexivity. now elim (N s).
Qed.
Print Assumptions C87_raises.
Example C87_raises_example :
  exists c, ConfigModel.exec_config PyStr.ascii_class None [] [] [(lit "default_tests", ConfigModel.VBool false)] ConfigProps.no_flags = Some c /\
    ConfigModel.dget (lit "default_tests") c = Some (ConfigModel.VBool false) /\
  ConfigModel.exec_config PyStr.ascii_class None [(lit ".booktest", [255%N])] [] [] ConfigProps.no_flags = None.
Proof. eexists. vm_compute. repeat split. Qed.
