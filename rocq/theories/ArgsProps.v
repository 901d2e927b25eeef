(** The command line: which lines are accepted, what they say, and --setup. *)
From Verif Require Import CaseRunProps PyStrFacts FsFacts RunCaseProps ConsoleProps CommandsProps MainProps ConfigProofs ConfigProps ArgsSpec ArgsProofs.
From Coq Require Import ZArith.

(** ** C135 *)

(** Exactly the lines of the grammar are accepted, with the settings in their order. *)
Theorem C135_accepted int_of digit choices argv : digit 46%N = false -> digit NL = false ->
  (forall l names, line int_of digit choices argv l names -> parse_args int_of digit choices argv = Parsed (put_all l []) names) /\
  (forall ns names, parse_args int_of digit choices argv = Parsed ns names -> exists l, line int_of digit choices argv l names /\ ns = put_all l []).
Proof. intros D1 D2. split; [intros l names; now apply line_parsed|intros ns names; now apply parsed_line]. Qed.
Print Assumptions C135_accepted.

(** Any other line is rejected, unless it asks for help. *)
Theorem C135_others int_of digit choices argv : digit 46%N = false -> digit NL = false ->
  (forall l names, ~ line int_of digit choices argv l names) ->
  parse_args int_of digit choices argv = Rejected \/ (parse_args int_of digit choices argv = Helped /\ exists w, In w argv /\ asks_help w).
Proof.
  intros D1 D2 N. destruct (parse_args int_of digit choices argv) as [ns names| | |] eqn:P.
  - destruct (parsed_line _ _ D1 D2 _ _ _ _ P) as (l & L & _). destruct (N _ _ L).
  - now left.
  - right. split; [reflexivity|]. exact (helped_asks _ _ _ _ P).
  - destruct (parse_ends _ _ _ _ P).
Qed.
Print Assumptions C135_others.

(** what an option can set *)
Definition switch (k : str) : Prop := In k (map lit ["i"; "I"; "v"; "L"; "f"; "c"; "r"; "u"; "a"; "s"; "S"; "cov"]%string).
Definition settable (dv : str * cval) : Prop :=
  (switch (fst dv) /\ snd dv = VBool true) \/
  (fst dv = lit "p" /\ (snd dv = VBool true \/ snd dv = VStr (lit "16") \/ exists n, snd dv = VInt n)) \/
  (fst dv = lit "cmd" /\ exists s, snd dv = VStr s) \/ (fst dv = lit "md_viewer" /\ exists s, snd dv = VStr s) \/ (fst dv = lit "diff_tool" /\ exists s, snd dv = VStr s).
Lemma names_in w a : names_option w a -> exists o, In (o, a) option_strings.
Proof. intros [I|(o & I & _)]; eauto. Qed.
Lemma const_settable o d v : In (o, Const d v) option_strings -> settable (d, v).
Proof.
  intros I. unfold option_strings in I. cbn [In] in I.
  repeat (destruct I as [I|I]; [first [discriminate I
    |(injection I; intros <- <- _; unfold settable, switch; cbn [fst snd map In]; first [left; tauto|right; left; split; [reflexivity|eauto; tauto]|do 2 right; left; eauto])]|]). destruct I.
Qed.
Lemma val_settable int_of o d int w v : In (o, Val d int) option_strings -> value int_of int w v -> settable (d, v).
Proof.
  intros I V. assert (K : (d = lit "p" /\ int = true) \/ (d = lit "md_viewer" /\ int = false) \/ (d = lit "diff_tool" /\ int = false)).
  { unfold option_strings in I. cbn [In] in I. repeat (destruct I as [I|I]; [first [discriminate I|(injection I; intros <- <- _; tauto)]|]). destruct I. }
  unfold settable. cbn [fst snd]. unfold value in V. destruct K as [[-> ->]|[[-> ->]|[-> ->]]].
  - destruct V as (n & _ & ->). right; left. eauto.
  - subst v. do 3 right; left. eauto.
  - subst v. do 4 right. eauto.
Qed.
Lemma item_settable int_of digit ws l : item int_of digit ws l -> Forall settable l.
Proof.
  intros H. destruct H as [w d v N|w d int x v N W V|w d int x v N L V|cs l L F].
  - destruct (names_in _ _ N) as (o & I). constructor; [exact (const_settable _ _ _ I)|constructor].
  - destruct (names_in _ _ N) as (o & I). constructor; [exact (val_settable _ _ _ _ _ _ I V)|constructor].
  - destruct (names_in _ _ N) as (o & I). constructor; [exact (val_settable _ _ _ _ _ _ I V)|constructor].
  - clear L. induction F as [|c [d v] cs l I _ IH]; constructor; [exact (const_settable _ _ _ I)|exact IH].
Qed.
Lemma items_settable int_of digit ws l : items int_of digit ws l -> Forall settable l.
Proof. intros H. induction H as [|a l b r I _ IH]; [constructor|]. apply Forall_app. split; [exact (item_settable _ _ _ _ I)|exact IH]. Qed.
Lemma line_settable int_of digit choices argv l names : line int_of digit choices argv l names -> Forall settable l.
Proof. intros H. destruct H as [a l ws b r Ia _ _ Ib|a l ws vs Ia _ _]; [apply Forall_app; split|]; eapply items_settable; eassumption. Qed.

(** What a line says: a switch is on iff it is given; of the others, what is given last counts. *)
Theorem C135_says int_of digit choices argv l names : line int_of digit choices argv l names ->
  (forall k, switch k -> (dget k (put_all l []) = Some (VBool true) /\ (exists v, In (k, v) l)) \/ (dget k (put_all l []) = None /\ forall v, ~ In (k, v) l)) /\
  (forall k, exists r, last_of (fun dv v => fst dv = k /\ snd dv = v) l r /\ dget k (put_all l []) = r).
Proof.
  intros L. apply line_settable in L. rewrite Forall_forall in L. split.
  - intros k S. destruct (put_all_last l [] k) as (r & R & D). rewrite D. destruct r as [v|].
    + left. destruct R as (l1 & [k' v'] & l2 & E & [<- <-] & _). assert (I : In (k', v') l) by (rewrite E; apply in_or_app; right; now left). cbn [fst snd] in *. split; [|exists v'; exact I].
      specialize (L _ I). unfold settable in L. cbn [fst snd] in L. destruct L as [[_ ->]|[[-> _]|[[-> _]|[[-> _]|[-> _]]]]]; [reflexivity| | | |];
        (exfalso; unfold switch in S; apply str_mem_In in S; vm_compute in S; discriminate).
    + right. split; [reflexivity|]. intros v I. apply (R (k, v) v I). auto.
  - intros k. destruct (put_all_last l [] k) as (r & R & D). exists r. split; [exact R|]. rewrite D. now destruct r.
Qed.
Print Assumptions C135_says.

(** The order of the options does not matter, unless two set the same thing to different values. *)
Lemma flags_ext a b : (forall k, dget k a = dget k b) -> flags_of a = flags_of b /\ command_of a = command_of b.
Proof. intros H. unfold flags_of, command_of, attr_on, attr_text. rewrite !H. auto. Qed.
Theorem C135_order int_of digit choices argv argv' l l' names : digit 46%N = false -> digit NL = false ->
  line int_of digit choices argv l names -> line int_of digit choices argv' l' names ->
  (forall dv, In dv l <-> In dv l') -> (forall d v v', In (d, v) l -> In (d, v') l -> v = v') ->
  exists ns ns', parse_args int_of digit choices argv = Parsed ns names /\ parse_args int_of digit choices argv' = Parsed ns' names /\
    flags_of ns = flags_of ns' /\ command_of ns = command_of ns'.
Proof.
  intros D1 D2 L L' E F. exists (put_all l []), (put_all l' []). split; [now apply line_parsed|]. split; [now apply line_parsed|]. apply flags_ext. intros k.
  destruct (put_all_last l [] k) as (r & R & ->). destruct (put_all_last l' [] k) as (r' & R' & ->).
  assert (G : forall l r, last_of (fun dv v => fst dv = k /\ snd dv = v) l r -> match r with Some v => In (k, v) l | None => forall v : cval, ~ In (k, v) l end).
  { clear. intros l [v|] R.
    - destruct R as (l1 & [k' v'] & l2 & E & [<- <-] & _). rewrite E. apply in_or_app. right. now left.
    - intros v I. apply (R (k, v) v I). auto. }
  apply G in R, R'. destruct r as [v|], r' as [v'|]; cbn [dget]; [|exfalso; apply (R' v), E, R|exfalso; apply (R v'), E, R'|reflexivity].
  f_equal. apply (F k); [exact R|]. now apply E.
Qed.
Print Assumptions C135_order.

(** The names have to stand together, though, and a number of processes cannot join other letters. *)
Definition ex_int (s : str) : option nat := if str_eqb s (lit "12") then Some 12 else if str_eqb s (lit "4") then Some 4 else None.
Definition ex_digit (c : char) : bool := N.leb 48 c && N.leb c 57.
Notation ex_parse := (parse_args ex_int ex_digit (test_choices [lit "test/a/x"; lit "test/a/y"])).
Theorem C135_names_apart :
  (exists ns, ex_parse [lit "-v"; lit "test/a/x"; lit "test/a/y"] = Parsed ns (Some [lit "test/a/x"; lit "test/a/y"])) /\
  ex_parse [lit "test/a/x"; lit "-v"; lit "test/a/y"] = Rejected /\
  (exists ns, ex_parse [lit "-v"; lit "-p4"] = Parsed ns None) /\ ex_parse [lit "-vp4"] = Rejected.
Proof. split; [eexists; vm_compute; reflexivity|]. split; [vm_compute; reflexivity|]. split; [eexists; vm_compute; reflexivity|vm_compute; reflexivity]. Qed.
Print Assumptions C135_names_apart.

(** what the options are, one by one *)
Definition no_flags : flags := flags_of [].
Theorem C135_options :
  map (fun w => match ex_parse [lit w] with Parsed ns None => (flags_of ns, command_of ns) | _ => (no_flags, None) end)
    ["-i"; "-I"; "-v"; "-L"; "-f"; "-c"; "-r"; "-u"; "-a"; "-s"; "-S"; "--cov"; "-p"; "-p1"; "-p2"; "-p3"; "-p4"; "-p6"; "-p8"; "-p16"; "--parallel-count=12"; "-md-viewer=a b"; "-diff-tool=x=y"]%string =
  map (fun f => (f, Some CRun))
    (let F i I v L f c r u a p s S cov m d := {| f_i := i; f_I := I; f_v := v; f_L := L; f_f := f; f_c := c; f_r := r; f_u := u; f_a := a; f_p := p; f_s := s; f_S := S; f_cov := cov; f_md_viewer := m; f_diff_tool := d |} in
     let o := false in let X := true in let P := VBool false in
     [F X o o o o o o o o P o o o [] []; F o X o o o o o o o P o o o [] []; F o o X o o o o o o P o o o [] []; F o o o X o o o o o P o o o [] [];
      F o o o o X o o o o P o o o [] []; F o o o o o X o o o P o o o [] []; F o o o o o o X o o P o o o [] []; F o o o o o o o X o P o o o [] [];
      F o o o o o o o o X P o o o [] []; F o o o o o o o o o P X o o [] []; F o o o o o o o o o P o X o [] []; F o o o o o o o o o P o o X [] [];
      F o o o o o o o o o (VBool true) o o o [] []; F o o o o o o o o o (VInt 1) o o o [] []; F o o o o o o o o o (VInt 2) o o o [] []; F o o o o o o o o o (VInt 3) o o o [] [];
      F o o o o o o o o o (VInt 4) o o o [] []; F o o o o o o o o o (VInt 6) o o o [] []; F o o o o o o o o o (VInt 8) o o o [] []; F o o o o o o o o o (VStr (lit "16")) o o o [] [];
      F o o o o o o o o o (VInt 12) o o o [] []; F o o o o o o o o o P o o o (lit "a b") []; F o o o o o o o o o P o o o [] (lit "x=y")]) /\
  map (fun w => match ex_parse [lit w] with Parsed ns None => Some (flags_of ns, command_of ns) | _ => None end)
    ["-l"; "--setup"; "--garbage"; "--clean"; "--config"; "--print"; "--view"; "--path"; "--review"; "-w"; "--forget"; "--rev"; "--cl"]%string =
  map (fun c => Some (no_flags, c)) [Some CList; None; Some CGarbage; Some CClean; Some CConfig; Some CPrint; Some CView; Some CPath; Some CReview; Some CReview; Some CForget; Some CReview; Some CClean] /\
  map ex_parse [[lit "-h"]; [lit "--he"]; [lit "-vh"]; [lit "--p"]; [lit "-x"]; [lit "--parallel-count"; lit "many"]; [lit "-md-viewer"; lit "-v"]; [lit "-v=1"]; [lit "a/x"]; [lit "-md-viewer"; lit "--"; lit "x"]] =
  [Helped; Helped; Helped; Rejected; Rejected; Rejected; Rejected; Rejected; Rejected; Rejected] /\
  ex_parse [lit "-vf"; lit "-md"; lit "- x"; lit "test/a"; lit "skip:test/a/x"; lit "--par"; lit "4"; lit "-p"] =
    Parsed [(lit "v", VBool true); (lit "f", VBool true); (lit "md_viewer", VStr (lit "- x")); (lit "p", VBool true)] (Some [lit "test/a"; lit "skip:test/a/x"]) /\
  ex_parse [lit "-c"; lit "test/a/x"; lit "--"; lit "test"] = Parsed [(lit "c", VBool true)] (Some [lit "test/a/x"; lit "test"]).
Proof. repeat split; vm_compute; reflexivity. Qed.
Print Assumptions C135_options.
(** the last two are lines of the grammar *)
Example C135_lines :
  line ex_int ex_digit (test_choices [lit "test/a/x"; lit "test/a/y"]) [lit "-vf"; lit "-md"; lit "- x"; lit "test/a"; lit "skip:test/a/x"; lit "--par"; lit "4"; lit "-p"]
    [(lit "v", VBool true); (lit "f", VBool true); (lit "md_viewer", VStr (lit "- x")); (lit "p", VInt 4); (lit "p", VBool true)] (Some [lit "test/a"; lit "skip:test/a/x"]) /\
  line ex_int ex_digit (test_choices [lit "test/a/x"; lit "test/a/y"]) [lit "-c"; lit "test/a/x"; lit "--"; lit "test"] [(lit "c", VBool true)] (Some [lit "test/a/x"; lit "test"]).
Proof.
  assert (IN : forall w, str_mem w (test_choices [lit "test/a/x"; lit "test/a/y"]) = true -> In w (test_choices [lit "test/a/x"; lit "test/a/y"])) by (intros w; apply str_mem_In).
  assert (OS : forall o a, dget o option_strings = Some a -> In (o, a) option_strings) by (intros o a; apply dget_in).
  assert (NO : forall w a n, parse_optional ex_digit w = Opt a n false None -> names_option w a) by (intros w a n P; exact (parse_none ex_digit w a n false P)).
  assert (W : forall w, parse_optional ex_digit w = Word -> word ex_digit w) by (intros w P; apply (parse_word ex_digit eq_refl eq_refl), P).
  split.
  - apply (L_names ex_int ex_digit _ [lit "-vf"; lit "-md"; lit "- x"] [(lit "v", VBool true); (lit "f", VBool true); (lit "md_viewer", VStr (lit "- x"))] [lit "test/a"; lit "skip:test/a/x"]
      [lit "--par"; lit "4"; lit "-p"] [(lit "p", VInt 4); (lit "p", VBool true)]).
    + apply (Is_cons ex_int ex_digit [lit "-vf"] [(lit "v", VBool true); (lit "f", VBool true)]).
      * apply (I_letters ex_int ex_digit (lit "vf")); [cbn; lia|]. repeat constructor; apply OS; reflexivity.
      * apply (Is_cons ex_int ex_digit [lit "-md"; lit "- x"] [(lit "md_viewer", VStr (lit "- x"))] [] []); [|constructor].
        apply (I_value ex_int ex_digit _ (lit "md_viewer") false); [apply (NO _ _ (lit "-md-viewer")); vm_compute; reflexivity|apply W; vm_compute; reflexivity|reflexivity].
    + repeat (apply Forall_cons; [apply W; vm_compute; reflexivity|]). apply Forall_nil.
    + repeat (apply Forall_cons; [apply IN; vm_compute; reflexivity|]). apply Forall_nil.
    + apply (Is_cons ex_int ex_digit [lit "--par"; lit "4"] [(lit "p", VInt 4)]).
      * apply (I_value ex_int ex_digit _ (lit "p") true); [apply (NO _ _ (lit "--parallel-count")); vm_compute; reflexivity|apply W; vm_compute; reflexivity|exists 4; split; reflexivity].
      * apply (Is_cons ex_int ex_digit [lit "-p"] [(lit "p", VBool true)] [] []); [|constructor]. apply I_flag. left. apply OS. reflexivity.
  - apply (L_dashes ex_int ex_digit _ [lit "-c"] [(lit "c", VBool true)] [lit "test/a/x"] [lit "test"]).
    + apply (Is_cons ex_int ex_digit [lit "-c"] [(lit "c", VBool true)] [] []); [|constructor]. apply I_flag. left. apply OS. reflexivity.
    + repeat (apply Forall_cons; [apply W; vm_compute; reflexivity|]). apply Forall_nil.
    + repeat (apply Forall_cons; [apply IN; vm_compute; reflexivity|]). apply Forall_nil.
Qed.

Lemma parse_lines_over cc ls : forall a b ch a', (forall k, dget k b = match dget k a with Some v => Some v | None => dget k ch end) -> parse_lines cc ls a = Some a' ->
  exists b', parse_lines cc ls b = Some b' /\ forall k, dget k b' = match dget k a' with Some v => Some v | None => dget k ch end.
Proof.
  induction ls as [|l ls IH]; intros a b ch a' H P; cbn [parse_lines] in *; [inversion P; subst; eauto|].
  unfold parse_line in *. destruct (_ || _); [eauto|]. destruct (split_eq _) as [[k v]|]; [|discriminate]. eapply IH; [|exact P].
  intros m. rewrite !dget_dput. destruct (str_eqb m k); [reflexivity|apply H].
Qed.
Lemma parse_over cc text a b a' : parse_config_file cc (Some text) a = Some a' -> (forall k, dget k a = None :> option cval) ->
  exists b', parse_config_file cc (Some text) b = Some b' /\ forall k, dget k b' = match dget k a' with Some v => Some v | None => dget k b end.
Proof. intros P H. apply (parse_lines_over cc _ a b b a'); [intros k; now rewrite H|exact P]. Qed.

(** From the command line to the process: an accepted line is the command of C123 with these options and names; any other line changes nothing, and ends with
    status 2, or 0 after the help; --setup is C136. *)
Section Main.
Context {D : Type} (show_dur : D -> str) (parse_dur : str -> option D) (sp : char -> bool).
Variable show_ms : D -> str.
Variable show_nat : nat -> str.
Variable read_took : str -> option str.
Variable cc : CharClass.
Variable refloat : str -> option str.
Variable o : objects.
Variable fuel : nat.
Variable body : config -> str -> fs -> body_run.
Variable dur : str -> D.
Variable took : str.
Variable shell : str -> fs -> str * Z.
Variable parallel_run : list (str * meth) -> str -> config -> list str -> list str -> fs -> run (option Z * str).
Context {G : Type}.
Variable walk : str -> walked meth G.
Variable int_of : str -> option nat.
Variable digit : char -> bool.
Variable help : list str -> str.
Hypothesis digit_dot : digit 46%N = false.
Hypothesis digit_nl : digit NL = false.
Notation booktest := (main show_dur parse_dur sp show_ms show_nat read_took cc refloat o fuel body dur took shell parallel_run walk).
Notation command_line := (main_argv show_dur parse_dur sp show_ms show_nat read_took cc refloat o fuel body dur took shell parallel_run walk int_of digit help).

Theorem C135_main environ argv answers f c0 tests s : get_default_config cc None f environ = Some c0 -> setup_test_suite cc c0 walk = Some (tests, s) ->
  (forall l names cmd, line int_of digit (test_choices (map fst tests)) argv l names -> command_of (put_all l []) = Some cmd ->
     command_line environ argv answers f = booktest environ (flags_of (put_all l [])) (match names with Some ws => ws | None => [] end) cmd answers f) /\
  ((forall l names, ~ line int_of digit (test_choices (map fst tests)) argv l names) ->
     command_line environ argv answers f = Some (2%Z, [], f) \/
     (command_line environ argv answers f = Some (0%Z, help (test_choices (map fst tests)), f) /\ exists w, In w argv /\ asks_help w)).
Proof.
  intros E1 E2. unfold main_argv, main. rewrite E1, E2. split.
  - intros l names cmd L C. rewrite (line_parsed _ _ digit_dot digit_nl _ _ _ _ L), C.
    assert (N : exists ws, names = named ws /\ Forall (fun w => In w (test_choices (map fst tests))) ws) by (destruct L; eauto). destruct N as (ws & -> & F).
    assert (X : match named ws with Some ws => ws | None => [] end = ws) by now destruct ws. rewrite X.
    assert (Y : forallb (fun a => str_mem a (test_choices (map fst tests))) ws = true) by (apply forallb_forall; intros a I; apply str_mem_In; rewrite Forall_forall in F; auto).
    rewrite Y. fold (named ws). reflexivity.
  - intros N. destruct (C135_others int_of digit _ argv digit_dot digit_nl N) as [->|[-> H]]; [now left|right; split; [reflexivity|exact H]].
Qed.

(** ** C136 *)

(** --setup: the answers, or where they are empty what the command works with (the options of the command line included), replace the file .booktest, and no other file
    changes. The next command, whatever it is, reads them, unless the environment says otherwise; what .booktest set before and --setup does not ask for is gone. *)
Theorem C136_setup environ argv (answers : list str) f c0 tests s root l names :
  get_default_config cc None f environ = Some c0 -> setup_test_suite cc c0 walk = Some (tests, s) -> books_dir c0 = Some root ->
  line int_of digit (test_choices (map fst tests)) argv l names -> command_of (put_all l []) = None ->
  let c := put_all (flag_settings (flags_of (put_all l []))) c0 in
  (exists cases, chosen parse_dur sp o tests fuel root c names f = Some (Some cases)) -> length answers = length setup_keys ->
  let value key answer := match answer with
                          | [] => match dget key c with Some v => show_cval show_nat v | None => config_defaults key end
                          | _ => answer end in
  cc_space cc NL = true -> (forall c, In c (lit "abcdefghijklmnopqrstuvwxyz_=") -> cc_space cc c = false) ->
  (forall key answer, In (key, answer) (combine setup_keys answers) ->
     let v := value key answer in
     ~ In NL v /\ ~ In CR v /\ v <> lit "0" /\ v <> lit "1" /\ (forall w s, v = w ++ [s] -> cc_space cc s = false)) ->
  exists text g next, command_line environ argv answers f = Some (0%Z, text, g) /\
    (forall p, p <> lit ".booktest" -> lookup p g = lookup p f) /\
    get_default_config cc None g environ = Some next /\
    (forall key answer, In (key, answer) (combine setup_keys answers) -> exists e, last_of (env_sets cc key) environ e /\
       match e with Some v => exists x, value_read v x /\ dget key next = Some x | None => dget key next = Some (VStr (value key answer)) end) /\
    (forall key, ~ In key setup_keys -> exists e h, last_of (env_sets cc key) environ e /\ last_of (line_sets cc key) (text_lines (lookup (lit "~/.booktest") f)) h /\
       match (match e with Some v => Some v | None => h end) with Some v => exists x, value_read v x /\ dget key next = Some x | None => dget key next = None end).
Proof.
  intros E1 E2 E3 L C c (cases & CH) LA value S1 S2 V. set (g := write_file (lit ".booktest") (setup_file show_nat c answers) f).
  assert (R : exists text, command_line environ argv answers f = Some (0%Z, text, g)).
  { unfold main_argv. rewrite E1, E2, (line_parsed _ _ digit_dot digit_nl _ _ _ _ L), E3. cbv zeta. rewrite C.
    unfold exec_config, get_default_config. cbn [put_all fold_left]. fold c. rewrite CH. unfold setup_booktest.
    destruct (Nat.ltb_spec (length answers) (length setup_keys)) as [X|_]; [lia|]. eexists. reflexivity. }
  destruct R as (text & R). destruct (C52_setup_reads_back_partial cc show_nat c answers S1 S2 LA V) as (cf & P & K1 & K2).
  assert (LG : forall p, p <> lit ".booktest" -> lookup p g = lookup p f) by (intros p N; unfold g; rewrite lookup_write; destruct (str_eqb_spec (lit ".booktest") p); congruence).
  assert (LB : lookup (lit ".booktest") g = Some (setup_file show_nat c answers)) by (unfold g; rewrite lookup_write, str_eqb_refl; reflexivity).
  unfold get_default_config, resolve_default_config in E1. destruct (parse_config_file cc (lookup (lit "~/.booktest") f) []) as [ch|] eqn:PH; [|discriminate].
  destruct (parse_over cc _ [] ch cf P) as (cb & PB & OV); [intros k; reflexivity|].
  exists text, g, (add_env cc environ cb). split; [exact R|]. split; [exact LG|].
  split; [unfold get_default_config, resolve_default_config; rewrite LG by discriminate; rewrite PH, LB, PB; reflexivity|].
  assert (RV : forall v k, dget k (add_env cc environ cb) = Some (parse_config_value v) -> exists x, value_read v x /\ dget k (add_env cc environ cb) = Some x) by (intros v k H; exists (parse_config_value v); split; [apply parse_value_read|exact H]).
  split.
  - intros key answer I. destruct (add_env_spec cc environ cb key) as (e & LE & DE). exists e. split; [exact LE|]. destruct e as [v|]; [apply RV, DE|]. rewrite DE, OV, (K1 key answer I). reflexivity.
  - intros key N. destruct (add_env_spec cc environ cb key) as (e & LE & DE). rewrite parse_file_lines in PH. destruct (parse_lines_spec cc _ _ _ key PH) as (h & LH & DH).
    exists e, h. split; [exact LE|]. split; [exact LH|]. destruct e as [v|]; [apply RV, DE|]. rewrite OV, (K2 key N), DH in DE. destruct h as [v|]; [apply RV, DE|exact DE].
Qed.

(** With too few answers nothing changes. *)
Theorem C136_unanswered environ argv (answers : list str) f c0 tests s root l names :
  get_default_config cc None f environ = Some c0 -> setup_test_suite cc c0 walk = Some (tests, s) -> books_dir c0 = Some root ->
  line int_of digit (test_choices (map fst tests)) argv l names -> command_of (put_all l []) = None ->
  (exists cases, chosen parse_dur sp o tests fuel root (put_all (flag_settings (flags_of (put_all l []))) c0) names f = Some (Some cases)) -> length answers < length setup_keys ->
  command_line environ argv answers f = Some (1%Z, [], f).
Proof.
  intros E1 E2 E3 L C (cases & CH) LA. set (c := put_all (flag_settings (flags_of (put_all l []))) c0) in CH. unfold main_argv.
  rewrite E1, E2, (line_parsed _ _ digit_dot digit_nl _ _ _ _ L), E3. cbv zeta. rewrite C.
  unfold exec_config, get_default_config. cbn [put_all fold_left]. fold c. rewrite CH. unfold setup_booktest.
  destruct (Nat.ltb_spec (length answers) (length setup_keys)) as [_|X]; [reflexivity|lia].
Qed.
End Main.
Print Assumptions C135_main.
Print Assumptions C136_setup.
Print Assumptions C136_unanswered.

(** A .booktest with a setting that is not asked for; the diff tool is entered, the viewer comes from the command line, the rest are defaults. *)
Definition setup_f : fs := (lit ".booktest", lit "timeout=5" ++ [NL] ++ lit "log_viewer=cat" ++ [NL]) :: main_f.
Definition setup_answers : list str := [lit "kdiff3"; []; []; []; []; []; []].
Notation setup_demo := (main_argv cmd_dur (fun _ => Some tt) (fun c => N.eqb c SP) cmd_dur dec demo_took ascii_class no_float main_objects 5
  (fun _ => main_body) (fun _ => tt) (lit "12") (fun line _ => (line ++ [NL], 768%Z)) (fun _ _ _ _ _ _ => None) main_walk ex_int ex_digit (fun _ => [])).
Example C136_example : exists text g next,
  setup_demo [] [lit "--setup"; lit "-md-viewer"; lit "glow"] setup_answers setup_f = Some (0%Z, text, g) /\ get_default_config ascii_class None g [] = Some next /\
  map (fun k => dget (lit k) next) ["diff_tool"; "fast_diff_tool"; "md_viewer"; "log_viewer"; "test_paths"; "default_tests"; "books_path"; "timeout"]%string =
    [Some (VStr (lit "kdiff3")); Some (VStr (lit "diff")); Some (VStr (lit "glow")); Some (VStr (lit "cat")); Some (VStr (lit "test,book,run")); Some (VStr (lit "test,book"));
     Some (VStr (lit "books")); None] /\
  setup_demo [] [lit "--setup"] [lit "x"] setup_f = Some (1%Z, [], setup_f) /\
  option_map (fun x => fst (fst x)) (setup_demo [] [lit "-a"; lit "test/a"] [] main_f) = Some 0%Z /\ option_map (fun x => fst (fst x)) (setup_demo [] [lit "-b"] [] main_f) = Some 2%Z.
Proof. do 3 eexists. split; [vm_compute; reflexivity|]. split; [vm_compute; reflexivity|]. repeat split; vm_compute; reflexivity. Qed.
