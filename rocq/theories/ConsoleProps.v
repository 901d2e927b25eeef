(** C84: what a run prints; C85: --review prints what the run printed. *)
From Verif Require Import CaseRunProps PyStrFacts FsFacts ReviewProofs RunnerProofs TokenizerSpec CaseRunProofs CaseRunFacts ReportsSpec ReportsProofs ReportsProps RunCaseProofs RunCaseProps ConsoleSpec ConsoleProofs.
From Coq Require Import Lia.

Lemma lines_app a b : lines_text (a ++ b) = lines_text a ++ lines_text b.
Proof. apply flat_map_app. Qed.
Lemma lines_map p l : lines_text (map (fun x => p ++ x) l) = flat_map (fun x => p ++ x ++ [NL]) l.
Proof. induction l as [|x l IH]; [reflexivity|]. cbn [map lines_text flat_map]. unfold lines_text in IH. rewrite IH, <- !app_assoc. reflexivity. Qed.
Lemma end_text_shown n fails tests took : end_text n fails tests took = summary_shown n fails tests took.
Proof.
  unfold end_text, summary_shown. rewrite !lines_app. destruct fails as [|x fails].
  - cbn [lines_text flat_map]. rewrite <- !app_assoc. reflexivity.
  - rewrite lines_app, lines_map. generalize (x :: fails). intros rest. cbn [lines_text flat_map]. rewrite <- !app_assoc. reflexivity.
Qed.
Lemma words_text v name res ms : result_text v name res ms = (if v then [NL] ++ name ++ lit " " else []) ++ result_words v res ms ++ [NL].
Proof. unfold result_text. destruct res, v; reflexivity. Qed.
Lemma case_text_shown sh name short report log res ms :
  begin_text (verbose sh) name ++ (if verbose sh then report else []) ++ logs_text sh short log ++
    result_text (verbose sh) name res ms ++ [] ++ (if verbose sh then [NL] else []) = case_shown sh name short report log res ms.
Proof.
  rewrite words_text. unfold case_shown, begin_text, logs_text. destruct (verbose sh).
  - destruct (print_logs sh), log as [|l log]; cbn [andb]; try (cbn [lines_text flat_map]; rewrite <- !app_assoc; reflexivity).
    rewrite lines_app, lines_map. generalize (l :: log). intros rest. cbn [lines_text flat_map]. rewrite <- !app_assoc. reflexivity.
  - destruct (print_logs sh), log as [|l log]; cbn [andb]; try (cbn [lines_text flat_map]; rewrite <- !app_assoc, ?app_nil_r; reflexivity).
    rewrite !lines_app, lines_map. generalize (l :: log). intros rest. cbn [lines_text flat_map]. rewrite <- !app_assoc, ?app_nil_r. reflexivity.
Qed.
Lemma last_part_split n : proper n -> last_part n (snd (path_split n)).
Proof.
  intros P. destruct (proper_split n P) as (rel & l & H1 & H2 & [[-> ->]|(R & S & T & ->)]).
  - rewrite split_local by exact H2. split; [exact H2|now left].
  - rewrite split_rel by assumption. split; [exact H2|right; eauto].
Qed.
Lemma lines_join l : l <> [] -> lines_text l = join_with [NL] l ++ [NL].
Proof.
  induction l as [|x l IH]; [easy|]. intros _. destruct l as [|y l]; [cbn [lines_text flat_map join_with]; now rewrite app_nil_r|].
  change (lines_text (x :: y :: l)) with ((x ++ [NL]) ++ lines_text (y :: l)). rewrite IH by discriminate.
  change (join_with [NL] (x :: y :: l)) with (x ++ [NL] ++ join_with [NL] (y :: l)). now rewrite <- !app_assoc.
Qed.
Lemma read_lines_in t : lines_in t (read_lines (Some t)).
Proof.
  cbn [read_lines]. cbv zeta. pose proof (split_on_parts NL (univ_newlines t)) as SP. pose proof (join_split NL (univ_newlines t)) as J. pose proof (split_on_nonempty NL (univ_newlines t)) as NE.
  set (ps := split_on NL (univ_newlines t)) in *. pose proof (lines_join ps NE) as LJ. rewrite J in LJ. destruct (last ps []) as [|x z] eqn:EL.
  - assert (AR : ps = removelast ps ++ [[]]) by (refine (eq_trans (app_removelast_last [] NE) _); f_equal; f_equal; exact EL). rewrite AR in LJ, SP. apply Forall_app in SP as [SP _]. split; [exact SP|]. left.
    rewrite lines_app in LJ. apply app_inv_tail in LJ. now symmetry.
  - split; [exact SP|]. right. split; [now rewrite EL|now symmetry].
Qed.

Lemma failing_app a b : failing (a ++ b) = failing a ++ failing b.
Proof. unfold failing. now rewrite filter_app, map_app. Qed.
Lemma add_ok rv res : add_result rv res = OK <-> rv = OK /\ res = OK.
Proof. destruct rv, res; cbn [add_result]; intuition discriminate. Qed.

Section Any.
Context {D : Type} (show_dur : D -> str) (parse_dur : str -> option D) (sp : char -> bool).
Variable show_ms : D -> str.
Variable show_nat : nat -> str.
Variable sh : shown.
Variable cc : CharClass.
Variable refloat : str -> option str.
Variables E O R : str.
Variable c : config.
Variable body : str -> fs -> body_run.
Variable dur : str -> D.

Definition ran_rec (r : ran_case) : case_rec D := (rc_name r, rc_result r, dur (rc_name r)).
(** what was printed about one test, with the dialog before its end *)
Definition told_any (r : ran_case) (t : str) : Prop := exists short report log t1 dialog t2,
  t = t1 ++ dialog ++ t2 /\ t1 ++ t2 = case_shown sh (rc_name r) short report log (rc_verdict r) (show_ms (dur (rc_name r))) /\
  (rc_result r = rc_verdict r \/ (rc_verdict r <> FAIL /\ rc_result r = OK)) /\ (batch c -> dialog = []).
Lemma interact_frozen res answers rest : interact res answers = Some (FREEZE, rest) -> res <> FAIL.
Proof.
  induction answers as [|a answers IH]; cbn [interact]; [discriminate|]. destruct res; cbn [is_fail negb]; rewrite ?andb_false_r; try discriminate.
  destruct (str_eqb a (lit "c")); [discriminate|]. destruct (str_eqb a (lit "q")); [discriminate|exact IH].
Qed.
Lemma review_result exp out n res answers f res' req rest g : case_review exp out n res c answers f = Ret (res', req, rest) g ->
  res' = res \/ (res <> FAIL /\ res' = OK).
Proof.
  unfold case_review. cbv zeta. destruct (if always_interactive c || negb (is_ok res) && interactive c then interact res answers else Some (NONE, answers)) as [[rq rs]|] eqn:I; [|discriminate].
  destruct (match rq with FREEZE => true | _ => false end || _ || _) eqn:F.
  - destruct (freeze_case _ _ _ _); [|discriminate]. cbn [io_bind]. intros X. injection X as <- <- <- <-. right. split; [|reflexivity].
    intros ->. cbn [is_ok andb orb] in F. rewrite !orb_false_r in F. destruct rq; try discriminate.
    destruct (always_interactive c || _) in I; [|discriminate]. now apply interact_frozen in I.
  - intros X. injection X as <- <- <- <-. now left.
Qed.
Lemma case_any n answers f res req ans t g : run_case_out show_ms sh cc refloat E O c body dur n answers f = Some (Ret (res, req, ans, t) g) ->
  exists v, told_any {| rc_name := n; rc_verdict := v; rc_result := res |} t.
Proof.
  unfold run_case_out. destruct (case_start E O n f) as [snap f1|f1]; [|discriminate]. cbn [run_bind]. destruct (run_body _ _ _ _ _) as [s|]; [|discriminate]. cbv zeta.
  set (v := verdict _ s). destruct (case_review _ _ _ _ _ _ _) as [[[res' req'] ans'] f3|f3] eqn:CR; [|discriminate]. cbn [run_bind].
  match goal with |- context[read_lines ?X] => set (log := read_lines X) end. set (dialog := review_text _ _ _ _). intros H.
  assert (X : res' = res /\ t = begin_text (verbose sh) n ++ (if verbose sh then rep s else []) ++ logs_text sh (snd (path_split n)) log ++
    result_text (verbose sh) n v (show_ms (dur n)) ++ dialog ++ (if verbose sh then [NL] else [])).
  { destruct res'; try (destruct (save_value _ _ _ _); [|discriminate]; cbn [io_bind] in H); injection H as <- _ _ <- _; auto. }
  destruct X as [<- ->]. exists v, (snd (path_split n)), (rep s), log,
    (begin_text (verbose sh) n ++ (if verbose sh then rep s else []) ++ logs_text sh (snd (path_split n)) log ++ result_text (verbose sh) n v (show_ms (dur n))), dialog, (if verbose sh then [NL] else []).
  split; [now rewrite <- !app_assoc|]. split; [cbn [rc_name rc_verdict]; rewrite <- case_text_shown, <- !app_assoc; reflexivity|].
  split; [apply review_result in CR; exact CR|]. intros [B1 B2]. unfold dialog, review_text. now rewrite B1, B2, andb_false_r.
Qed.
Lemma todo_any todo : forall done rv recs answers text f rv' recs' rest fails' tests' text' g,
  (rv = OK <-> failing done = []) ->
  run_todo_out show_dur show_ms sh cc refloat E O R c body dur todo rv (failing done) (length done) recs answers text f
    = Some (Ret (rv', recs', rest, (fails', tests', text')) g) ->
  exists ran blocks left, todo = map rc_name ran ++ left /\ recs' = recs ++ map ran_rec ran /\ Forall2 told_any ran blocks /\
    fails' = failing (done ++ ran) /\ tests' = length (done ++ ran) /\ text' = text ++ concat blocks /\ (rv' = OK <-> failing (done ++ ran) = []).
Proof.
  induction todo as [|n todo IH]; intros done rv recs answers text f rv' recs' rest fails' tests' text' g RV H; cbn [run_todo_out] in H.
  - injection H as <- <- <- <- <- <- <-. exists [], [], []. cbn [map app concat length]. rewrite !app_nil_r. split; [reflexivity|]. split; [reflexivity|]. split; [constructor|]. repeat split; try reflexivity; apply RV.
  - destruct (run_case_out show_ms sh cc refloat E O c body dur n answers f) as [[[[[res req] ans] t] f1|f1]|] eqn:RC; [|discriminate|discriminate]. cbn [run_bind] in H. cbv zeta in H.
    destruct (case_any n answers f res req ans t f1 RC) as [v TA]. set (r := {| rc_name := n; rc_verdict := v; rc_result := res |}) in TA.
    assert (FE : (if is_ok res then failing done else failing done ++ [n]) = failing (done ++ [r])).
    { rewrite failing_app. unfold r. destruct res; cbn [is_ok failing filter not_ok rc_result map rc_name]; now rewrite ?app_nil_r. }
    rewrite FE in H.
    assert (RV1 : add_result rv res = OK <-> failing (done ++ [r]) = []).
    { rewrite add_ok, failing_app. unfold r. destruct res; cbn [failing filter not_ok rc_result map rc_name]; rewrite ?app_nil_r, RV; intuition; try discriminate; try (destruct (failing done); discriminate). }
    assert (LE : S (length done) = length (done ++ [r])) by (rewrite app_length; cbn [length]; lia). rewrite LE in H.
    destruct (is_abort req || _).
    + injection H as <- <- <- <- <- <- <-. exists [r], [t], todo. cbn [map app concat length]. rewrite app_nil_r.
      split; [reflexivity|]. split; [reflexivity|]. split; [constructor; [exact TA|constructor]|]. repeat split; try reflexivity; apply RV1.
    + destruct (IH _ _ _ _ _ _ _ _ _ _ _ _ _ RV1 H) as (ran & blocks & left & E1 & E2 & E3 & E4 & E5 & E6 & E7). exists (r :: ran), (t :: blocks), left.
      rewrite <- app_assoc in E4, E5, E7. cbn [app] in E4, E5, E7. split; [cbn [map app]; now rewrite E1|]. split; [rewrite E2, <- app_assoc; reflexivity|].
      split; [constructor; assumption|]. split; [exact E4|]. split; [exact E5|]. split; [rewrite E6; cbn [concat]; now rewrite <- app_assoc|exact E7].
Qed.

Lemma run_any all_names took selected answers f rv recs rest text g :
  run_async_out show_dur parse_dur sp show_ms show_nat sh cc refloat E O R c body dur all_names took selected answers f = Some (Ret (rv, recs, rest, text) g) ->
  exists old ran blocks left, snd (cases_to_done_and_todo (of_file parse_dur sp (lookup (report_file R) f)) (cont c) selected) = map rc_name ran ++ left /\
    recs = old ++ map ran_rec ran /\ Forall2 told_any ran blocks /\
    text = heading_shown ++ concat blocks ++ summary_shown show_nat (failing ran) (length ran) took /\ (rv = OK <-> failing ran = []).
Proof.
  intros H. unfold run_async_out in H. cbv zeta in H. set (todo := snd _) in *. set (recs0 := kept _ _) in H.
  match type of H with run_bind (run_todo_out _ _ _ _ _ _ _ _ _ _ _ _ _ _ _ _ _ _ ?F) _ = _ => set (f0 := F) in H end.
  destruct (run_todo_out _ _ _ _ _ _ _ _ _ _ _ _ _ _ _ _ _ _ _) as [[[[[rv1 recs1] ans1] [[fails1 tests1] text1]] f1|f1]|] eqn:RT in H; [|discriminate|discriminate].
  cbn [run_bind] in H. injection H as -> -> -> <- <-.
  destruct (todo_any todo [] OK recs0 answers start_text f0 rv recs rest fails1 tests1 text1 f1 ltac:(split; reflexivity) RT)
    as (ran & blocks & left & E1 & E2 & E3 & E4 & E5 & E6 & E7).
  exists recs0, ran, blocks, left. split; [exact E1|]. split; [exact E2|]. split; [exact E3|]. split; [|exact E7].
  rewrite end_text_shown, E4, E5, E6. cbn [app]. rewrite <- app_assoc. reflexivity.
Qed.
End Any.

Section Exact.
Context {D : Type} (show_dur : D -> str) (parse_dur : str -> option D) (sp : char -> bool).
Variable show_ms : D -> str.
Variable show_nat : nat -> str.
Variable sh : shown.
Variable cc : CharClass.
Variable refloat : str -> option str.
Variables (E o : str).
Hypothesis HE : plain_dir E.
Hypothesis Ho : plain o.
Hypothesis Hdot : starts_with [DOT] o = true.
Notation O := (E ++ SLASH :: o).
Variable c : config.
Hypothesis HB : batch c.
Variable body : str -> fs -> body_run.
Variable dur : str -> D.

Lemma case_out_exact n answers f : case_name n -> ready E O n f -> exists f1,
  match run_body cc refloat (lookup (E ++ SLASH :: n ++ lit ".md") f) (point_error_pos c) (all_ops (body n f1)) with
  | None => run_case_out show_ms sh cc refloat E O c body dur n answers f = None
  | Some s => exists v h, let res := if auto c v then OK else v in
      run_case_out show_ms sh cc refloat E O c body dur n answers f =
        Some (Ret (res, NONE, answers, case_shown sh n (snd (path_split n)) (rep s) (read_lines (Some (b_log (body n f1)))) v (show_ms (dur n))) h) /\
      case_ran E O n (body n f1) s (auto c v) res f h /\ ready E O n h
  end.
Proof.
  intros C RD. destruct (run_case_exact E o HE Ho Hdot cc refloat c body HB n answers f C RD) as (f1 & S & K). exists f1.
  destruct (run_body cc refloat _ _ _) as [s|] eqn:RB in K |- *.
  - cbv zeta in K. set (v := verdict _ s) in K. destruct K as (h & RC & CR & RH). exists v, h. cbv zeta. split; [|split; [exact CR|exact RH]].
    destruct (body_ok E o HE Ho Hdot n (body n f1) s f C RD) as (f1' & g & S' & G & A). rewrite S in S'. injection S' as <-.
    revert RC. unfold run_case, run_case_out. rewrite S. cbn [run_bind]. rewrite RB. cbv zeta. rewrite G.
    change (path_join (base_dir O n) (snd (path_split n) ++ lit ".log")) with (case_path O n (lit ".log")).
    assert (HO : plain_dir O) by (now apply HO).
    rewrite (case_path_eq O n (lit ".log") HO (proj1 C)), (ab_log _ _ _ _ _ _ _ A).
    assert (VE : verdict (path_exists (case_path E n (lit ".md")) g) s = v).
    { rewrite (case_path_eq E n (lit ".md") HE (proj1 C)). unfold v. f_equal. pose proof (ab_ready _ _ _ _ _ _ _ A) as (_ & R2 & _).
      unfold path_exists, is_file. rewrite R2, orb_false_r. rewrite (ab_rest _ _ _ _ _ _ _ A); [reflexivity|].
      intros x _ X. apply prefix_split in X as (t & _ & X). rewrite in_case in X. revert X. apply name_vs_out; [exact Hdot|now apply proper_nonempty, C|exact (proj1 (proj2 C))]. }
    rewrite VE. destruct HB as [B1 B2].
    assert (RT : review_text sh c v answers = []) by (unfold review_text; rewrite B1, B2, andb_false_r; reflexivity). rewrite RT, case_text_shown.
    destruct (case_review _ _ _ _ _ _ _) as [[[res req] ans] f3|f3]; [|discriminate]. cbn [run_bind].
    destruct res; cbn [run_bind]; intros RC.
    + destruct (save_value _ _ _ f3); [|discriminate]. cbn [io_bind] in RC |- *. injection RC as <- <- <- <-. reflexivity.
    + injection RC as <- <- <- <-. reflexivity.
    + destruct (save_value _ _ _ f3); [|discriminate]. cbn [io_bind] in RC |- *. injection RC as <- <- <- <-. reflexivity.
  - unfold run_case_out. rewrite S. cbn [run_bind]. rewrite RB. reflexivity.
Qed.

Variable names : list str.
Hypothesis Hnames : separate names.

(** what is left of a test that was run, and what was printed about it *)
Record told (g : fs) (r : ran_case) (t : str) : Prop := {
  told_result : rc_result r = if auto c (rc_verdict r) then OK else rc_verdict r;
  told_text : exists s report lg file point ops, lookup (O ++ SLASH :: rc_name r ++ lit ".txt") g = Some report /\ lookup (O ++ SLASH :: rc_name r ++ lit ".log") g = Some lg /\
    run_body cc refloat file point ops = Some s /\ report = rep s /\
    t = case_shown sh (rc_name r) (snd (path_split (rc_name r))) report (read_lines (Some lg)) (rc_verdict r) (show_ms (dur (rc_name r)))
}.
Lemma told_local f g r t : (forall p, own E o (rc_name r) p -> lookup p g = lookup p f) -> told f r t -> told g r t.
Proof.
  intros H [T1 (s & rep & lg & file & point & ops & A & B & R)]. split; [exact T1|]. exists s, rep, lg, file, point, ops.
  rewrite !H; auto.
  - apply (own_O E o (rc_name r) (lit ".log")); [unfold case_exts; cbn [In]; tauto|apply prefix_refl].
  - apply (own_O E o (rc_name r) (lit ".txt")); [unfold case_exts; cbn [In]; tauto|apply prefix_refl].
Qed.
Lemma tolds_local f g ran blocks : (forall r p, In r ran -> own E o (rc_name r) p -> lookup p g = lookup p f) -> Forall2 (told f) ran blocks -> Forall2 (told g) ran blocks.
Proof.
  intros H F. induction F as [|r t ran blocks H1 H2 IH]; constructor.
  - apply (told_local f); [|exact H1]. intros p. apply H. now left.
  - apply IH. intros x p Hx. apply H. now right.
Qed.

Lemma todo_exact todo : incl todo names -> NoDup todo -> forall rv fails tests recs answers text f rv' recs' rest fails' tests' text' g,
  all_ready E o names f ->
  run_todo_out show_dur show_ms sh cc refloat E O O c body dur todo rv fails tests recs answers text f = Some (Ret (rv', recs', rest, (fails', tests', text')) g) ->
  exists ran blocks left, todo = map rc_name ran ++ left /\
    ((left = [] \/ (fail_fast c = true /\ fails ++ failing ran <> [])) /\ (fail_fast c = true -> fails = [] -> failing (removelast ran) = [])) /\ recs' = recs ++ map (ran_rec dur) ran /\ Forall2 (told g) ran blocks /\
    fails' = fails ++ failing ran /\ tests' = tests + length ran /\ text' = text ++ concat blocks /\
    (rv' = OK <-> rv = OK /\ failing ran = []) /\ all_ready E o names g /\
    (forall m p, In m names -> ~ In m todo -> own E o m p -> lookup p g = lookup p f) /\
    lookup (report_file O) g = match todo with [] => lookup (report_file O) f | _ => Some (report_text show_dur recs') end.
Proof.
  induction todo as [|n todo IH]; intros IN ND rv fails tests recs answers text f rv' recs' rest fails' tests' text' g AR H; cbn [run_todo_out] in H.
  - injection H as <- <- <- <- <- <- <-. exists [], [], []. cbn [map app concat length failing filter]. rewrite !app_nil_r, Nat.add_0_r.
    split; [reflexivity|]. split; [split; [now left|reflexivity]|]. split; [reflexivity|]. split; [constructor|]. do 3 (split; [reflexivity|]). split; [split; [auto|intros [X _]; exact X]|]. split; [exact AR|]. split; [|reflexivity]. reflexivity.
  - assert (Hn : In n names) by (apply IN; now left). inversion ND as [|? ? ND1 ND2]; subst.
    destruct (case_out_exact n answers f (names_case names Hnames n Hn) (AR n Hn)) as (f1 & K).
    destruct (run_body cc refloat _ _ _) as [s|] eqn:RB in K; [|rewrite K in H; discriminate]. destruct K as (v & h & RC & CR & RD).
    set (res := if auto c v then OK else v) in *. rewrite RC in H. cbn [run_bind is_abort orb] in H. cbv zeta in H.
    set (t := case_shown _ _ _ _ _ _ _) in H. set (r := {| rc_name := n; rc_verdict := v; rc_result := res |}).
    set (recs1 := recs ++ [(n, res, dur n)]) in H. set (f2 := write_file (report_file O) (report_text show_dur recs1) h) in H.
    assert (WS : forall m q, In m names -> own E o m q -> lookup q f2 = lookup q h).
    { intros m q Hm OW. apply (write_special refloat E o Hdot names Hnames m); auto. apply (report_special E o HE Ho). }
    assert (EQ : forall m q, In m names -> m <> n -> own E o m q -> lookup q f2 = lookup q f).
    { intros m q Hm N OW. rewrite (WS m q Hm OW). apply (ran_other E o Hdot names Hnames n m (body n f1) s (auto c v) res f h q); auto. }
    assert (AR2 : all_ready E o names f2).
    { intros m Hm. destruct (list_eq_dec N.eq_dec m n) as [->|N].
      - apply (ready_local E o n h); [|exact RD]. intros q OW. symmetry. now apply (WS n).
      - apply (ready_local E o m f); [|auto]. intros q OW. symmetry. now apply (EQ m). }
    assert (T2 : told f2 r t).
    { split; [reflexivity|]. cbn [rc_name rc_verdict r]. exists s, (rep s), (b_log (body n f1)). do 3 eexists. rewrite !(WS n); auto.
      - split; [exact (cr_txt _ _ _ _ _ _ _ _ _ CR)|]. split; [exact (cr_log _ _ _ _ _ _ _ _ _ CR)|]. split; [exact RB|]. split; reflexivity.
      - apply (own_O E o n (lit ".log")); [unfold case_exts; cbn [In]; tauto|apply prefix_refl].
      - apply (own_O E o n (lit ".txt")); [unfold case_exts; cbn [In]; tauto|apply prefix_refl]. }
    assert (FE : (if is_ok res then fails else fails ++ [n]) = fails ++ failing [r]).
    { unfold failing, r, not_ok. cbn [filter rc_result]. destruct res; cbn [is_ok map rc_name]; now rewrite ?app_nil_r. }
    rewrite FE in H.
    assert (RV1 : add_result rv res = OK <-> rv = OK /\ failing [r] = []).
    { rewrite add_ok. unfold failing, r, not_ok. cbn [filter rc_result]. destruct res; cbn [map]; intuition discriminate. }
    assert (L2 : lookup (report_file O) f2 = Some (report_text show_dur recs1)) by (unfold f2; rewrite lookup_write, str_eqb_refl; reflexivity).
    destruct (fail_fast c && _) eqn:FF.
    + injection H as <- <- <- <- <- <- <-. exists [r], [t], todo. cbn [map app concat length]. rewrite app_nil_r. apply andb_true_iff in FF as [FF FN].
      split; [reflexivity|]. split; [split; [right; split; [exact FF|now destruct (fails ++ failing [r])]|reflexivity]|]. split; [reflexivity|]. split; [constructor; [exact T2|constructor]|]. split; [reflexivity|]. split; [lia|].
      split; [reflexivity|]. split; [exact RV1|]. split; [exact AR2|]. split; [|exact L2].
      intros m p Hm NI OW. apply (EQ m); auto. intros ->. apply NI. now left.
    + destruct (IH ltac:(intros m Hm; apply IN; now right) ND2 _ _ _ _ _ _ _ _ _ _ _ _ _ _ AR2 H) as (ran & blocks & left & E1 & EL & E2 & E3 & E4 & E5 & E6 & E7 & E8 & E9 & E10).
      exists (r :: ran), (t :: blocks), left. split; [cbn [map app]; now rewrite E1|].
      split.
      { split; [destruct EL as [[EL|[EL1 EL2]] _]; [now left|right; split; [exact EL1|]]; change (r :: ran) with ([r] ++ ran); rewrite failing_app, app_assoc; exact EL2|]. intros F0 F1. rewrite F0 in FF. cbn [andb] in FF. destruct (fails ++ failing [r]) eqn:F2; [|discriminate]. apply app_eq_nil in F2 as [_ F2].
        destruct ran as [|r' ran]; [reflexivity|]. change (removelast (r :: r' :: ran)) with ([r] ++ removelast (r' :: ran)). rewrite failing_app, F2. now apply EL. }
      split; [rewrite E2; unfold recs1; rewrite <- app_assoc; reflexivity|].
      split; [constructor; [|exact E3]|].
      { apply (told_local f2); [|exact T2]. intros p OW. apply (E9 n); auto. }
      split; [rewrite E4, <- app_assoc; f_equal; symmetry; exact (failing_app [r] ran)|]. split; [rewrite E5; cbn [length]; lia|].
      split; [rewrite E6; cbn [concat]; now rewrite <- app_assoc|].
      split; [rewrite E7, RV1; change (r :: ran) with ([r] ++ ran); rewrite failing_app; destruct (failing [r]), (failing ran); cbn [app]; intuition discriminate|].
      split; [exact E8|]. split.
      * intros m p Hm NI OW. rewrite (E9 m p Hm); [apply (EQ m); auto; intros ->; apply NI; now left|intros X; apply NI; now right|exact OW].
      * rewrite E10. destruct todo; [|reflexivity]. rewrite L2. f_equal. destruct ran; [|discriminate E1]. rewrite E2. cbn [map]. now rewrite app_nil_r.
Qed.

Lemma run_exact all_names took selected answers f rv recs rest text g : incl selected names -> NoDup selected -> all_ready E o names f ->
  run_async_out show_dur parse_dur sp show_ms show_nat sh cc refloat E O O c body dur all_names took selected answers f = Some (Ret (rv, recs, rest, text) g) ->
  exists old ran blocks left, snd (cases_to_done_and_todo (of_file parse_dur sp (lookup (report_file O) f)) (cont c) selected) = map rc_name ran ++ left /\
    ((left = [] \/ (fail_fast c = true /\ failing ran <> [])) /\ (fail_fast c = true -> failing (removelast ran) = [])) /\
    old = kept (of_file parse_dur sp (lookup (report_file O) f)) (map rc_name ran ++ left) /\
    recs = old ++ map (ran_rec dur) ran /\ Forall2 (told g) ran blocks /\
    text = heading_shown ++ concat blocks ++ summary_shown show_nat (failing ran) (length ran) took /\ (rv = OK <-> failing ran = []) /\
    lookup (report_file O) g = Some (report_text show_dur recs) /\ lookup (O ++ SLASH :: lit "metrics.json") g = Some (metrics_json took) /\
    (forall m p, In m names -> ~ In m selected -> own E o m p -> lookup p g = lookup p f) /\ all_ready E o names g.
Proof.
  intros HN ND AR H. unfold run_async_out in H. cbv zeta in H. set (todo := snd _) in *. set (recs0 := kept _ _) in H.
  match type of H with run_bind (run_todo_out _ _ _ _ _ _ _ _ _ _ _ _ _ _ _ _ _ _ ?F) _ = _ => set (f0 := F) in H end.
  assert (IS : incl todo selected) by apply todo_incl.
  assert (IN : incl todo names) by (intros n Hn; apply HN, IS, Hn).
  assert (NT : NoDup todo).
  { apply todo_NoDup. exact ND. }
  assert (M : path_join O (lit "metrics.json") = O ++ SLASH :: lit "metrics.json") by (apply path_join_name; [now apply HO|reflexivity]).
  assert (I : path_join E (lit "index.md") = E ++ SLASH :: lit "index.md") by (apply path_join_name; [exact HE|reflexivity]). rewrite M, I in H.
  assert (WS : forall p t h m q, In p [O ++ SLASH :: lit "cases.txt"; O ++ SLASH :: lit "metrics.json"; E ++ SLASH :: lit "index.md"] -> In m names -> own E o m q ->
    lookup q (write_file p t h) = lookup q h) by (intros p t h m q Hp Hm OW; now apply (write_special refloat E o Hdot names Hnames m)).
  assert (AR0 : all_ready E o names f0).
  { intros m Hm. apply (ready_local E o m f); [|auto]. intros q OW. symmetry. apply (WS _ _ _ m); auto. apply (report_special E o HE Ho). }
  destruct (run_todo_out _ _ _ _ _ _ _ _ _ _ _ _ _ _ _ _ _ _ _) as [[[[[rv1 recs1] ans1] [[fails1 tests1] text1]] f1|f1]|] eqn:RT in H; [|discriminate|discriminate].
  cbn [run_bind] in H. injection H as -> -> -> <- <-.
  destruct (todo_exact todo IN NT OK [] 0 recs0 answers start_text f0 rv recs rest fails1 tests1 text1 f1 AR0 RT)
    as (ran & blocks & left & E1 & EL & E2 & E3 & E4 & E5 & E6 & E7 & E8 & E9 & E10).
  exists recs0, ran, blocks, left. split; [exact E1|]. split; [split; [exact (proj1 EL)|intros F; now apply EL]|]. split; [now rewrite <- E1|]. split; [exact E2|]. split.
  { apply (tolds_local f1); [|exact E3]. intros r p Hr OW. assert (Hm : In (rc_name r) names) by (apply IN; rewrite E1; apply in_or_app; left; now apply in_map).
    rewrite !(WS _ _ _ (rc_name r)); auto; [now right; left|now right; right; left]. }
  split; [rewrite end_text_shown, E4, E5, E6; cbn [app Nat.add]; rewrite <- app_assoc; reflexivity|].
  split; [rewrite E7; intuition|].
  assert (R1 : report_file O = O ++ SLASH :: lit "cases.txt") by (apply path_join_name; [now apply HO|reflexivity]).
  assert (NI : forall x, str_eqb (E ++ SLASH :: lit "index.md") (O ++ x) = false).
  { intros x. destruct (str_eqb_spec (E ++ SLASH :: lit "index.md") (O ++ x)) as [X|_]; [|reflexivity]. exfalso. rewrite <- app_assoc in X. apply app_inv_head in X.
    pose proof Hdot as HD. apply starts_with_iff in HD as [o' Eo]. rewrite Eo in X. discriminate X. }
  assert (NM : str_eqb (O ++ SLASH :: lit "metrics.json") (O ++ SLASH :: lit "cases.txt") = false).
  { destruct (str_eqb_spec (O ++ SLASH :: lit "metrics.json") (O ++ SLASH :: lit "cases.txt")) as [X|_]; [|reflexivity]. apply app_inv_head in X. discriminate X. }
  rewrite R1, !lookup_write, !NI, NM, str_eqb_refl. split; [|split; [reflexivity|split]].
  2:{ intros m p Hm NS OW. rewrite !(WS _ _ _ m) by (auto; cbn [In]; auto). rewrite (E9 m p Hm); [|intros X; apply NS; now apply IS|exact OW].
      unfold f0. apply (WS _ _ _ m); auto. apply (report_special E o HE Ho). }
  2:{ intros m Hm. apply (ready_local E o m f1); [|auto]. intros q OW. symmetry. rewrite !(WS _ _ _ m); auto; [now right; left|now right; right; left]. }
  rewrite <- R1, E10. destruct todo as [|n todo]; [|reflexivity].
  unfold f0. rewrite lookup_write, str_eqb_refl. destruct ran; [|discriminate E1]. rewrite E2. cbn [map]. now rewrite app_nil_r.
Qed.
End Exact.

(** C84, for every configuration: what is printed about each test that was run, then a summary that names exactly those of them that
    were recorded as failed or different, and says "succeeded" exactly if the run returns success. *)
Theorem C84_summary_is_right :
  forall (D : Type) (show_dur : D -> str) parse_dur sp show_ms show_nat sh cc refloat E O c body dur all_names took selected answers f rv recs rest text g,
  run_async_out show_dur parse_dur sp show_ms show_nat sh cc refloat E O O c body dur all_names took selected answers f = Some (Ret (rv, recs, rest, text) g) ->
  exists old ran blocks,
    recs = old ++ map (fun r => (rc_name r, rc_result r, dur (rc_name r))) ran /\ incl (map rc_name ran) selected /\
    Forall2 (fun r t => exists short report log t1 dialog t2, t = t1 ++ dialog ++ t2 /\
      t1 ++ t2 = case_shown sh (rc_name r) short report log (rc_verdict r) (show_ms (dur (rc_name r))) /\
      (rc_result r = rc_verdict r \/ (rc_verdict r <> FAIL /\ rc_result r = OK)) /\ (batch c -> dialog = [])) ran blocks /\
    text = heading_shown ++ concat blocks ++ summary_shown show_nat (failing ran) (length ran) took /\ (rv = OK <-> failing ran = []).
Proof.
  intros D show_dur parse_dur sp show_ms show_nat sh cc refloat E O c body dur all_names took selected answers f rv recs rest text g H.
  destruct (run_any show_dur parse_dur sp show_ms show_nat sh cc refloat E O O c body dur all_names took selected answers f rv recs rest text g H)
    as (old & ran & blocks & left & E1 & E2 & E3 & E4 & E5). exists old, ran, blocks. split; [exact E2|]. split; [|auto].
  intros n Hn. apply (todo_incl (of_file parse_dur sp (lookup (report_file O) f)) (cont c) selected). rewrite E1. apply in_or_app. now left.
Qed.
Print Assumptions C84_summary_is_right.

(** C84, without prompts: the printed text is exactly this. With -v it shows the reports, with -L the logs that the run left. *)
Theorem C84_run_prints :
  forall (D : Type) (show_dur : D -> str) parse_dur sp show_ms show_nat sh cc refloat E o c body dur all_names took selected answers f rv recs rest text g,
  plain_dir E -> plain o -> starts_with [DOT] o = true -> let O := E ++ SLASH :: o in
  batch c -> separate selected -> NoDup selected -> (forall n, In n selected -> ready E O n f) ->
  run_async_out show_dur parse_dur sp show_ms show_nat sh cc refloat E O O c body dur all_names took selected answers f = Some (Ret (rv, recs, rest, text) g) ->
  exists old ran blocks,
    recs = old ++ map (fun r => (rc_name r, rc_result r, dur (rc_name r))) ran /\
    incl (map rc_name ran) selected /\ (cont c = false -> fail_fast c = false -> map rc_name ran = selected) /\
    Forall (fun r => rc_result r = if auto c (rc_verdict r) then OK else rc_verdict r) ran /\
    Forall2 (fun r t => exists short report lg log,
      lookup (O ++ SLASH :: rc_name r ++ lit ".txt") g = Some report /\ lookup (O ++ SLASH :: rc_name r ++ lit ".log") g = Some lg /\
      lines_in lg log /\ last_part (rc_name r) short /\
      t = case_shown sh (rc_name r) short report log (rc_verdict r) (show_ms (dur (rc_name r)))) ran blocks /\
    text = heading_shown ++ concat blocks ++ summary_shown show_nat (failing ran) (length ran) took /\ (rv = OK <-> failing ran = []).
Proof.
  intros D show_dur parse_dur sp show_ms show_nat sh cc refloat E o c body dur all_names took selected answers f rv recs rest text g HE Ho Hdot O HB SEP ND AR H.
  destruct (run_exact show_dur parse_dur sp show_ms show_nat sh cc refloat E o HE Ho Hdot c HB body dur selected SEP all_names took selected answers f rv recs rest text g (incl_refl _) ND AR H)
    as (old & ran & blocks & left & E1 & [EL _] & _ & E2 & E3 & E4 & E5 & _ & _ & _ & _).
  assert (IN : incl (map rc_name ran) selected).
  { intros n Hn. apply (todo_incl (of_file parse_dur sp (lookup (report_file O) f)) (cont c) selected). unfold O. rewrite E1. apply in_or_app. now left. }
  exists old, ran, blocks. split; [exact E2|]. split; [exact IN|]. split; [|split; [|split; [|auto]]].
  - intros HC HF. unfold cases_to_done_and_todo in E1. rewrite HC in E1. cbn [snd] in E1. destruct EL as [->|[X _]]; [|congruence]. rewrite app_nil_r in E1. now symmetry.
  - clear - E3. induction E3 as [|r t ran blocks T _ IH]; constructor; [apply (told_result _ _ _ _ _ _ _ _ _ _ _ T)|exact IH].
  - clear - E3 IN SEP. induction E3 as [|r t ran blocks T _ IH]; constructor; [|apply IH; intros n Hn; apply IN; now right].
    destruct (told_text _ _ _ _ _ _ _ _ _ _ _ T) as (s & report & lg & file & point & ops & A & B & _ & _ & TX). exists (snd (path_split (rc_name r))), report, lg, (read_lines (Some lg)).
    split; [exact A|]. split; [exact B|]. split; [apply read_lines_in|]. split; [|exact TX]. apply last_part_split.
    apply (names_case selected SEP). apply IN. now left.
Qed.
Print Assumptions C84_run_prints.

(** ** --review *)
Lemma entry_end point r : exists u, entry_text point r = u ++ [NL].
Proof.
  unfold entry_text. destruct (rec_differs r || rec_fails r).
  - destruct point.
    + match goal with |- exists u, ?a ++ [SP] ++ ?b ++ ?c ++ ?d ++ [NL] ++ ?e ++ ?h ++ ?i ++ [NL] = _ => exists (a ++ [SP] ++ b ++ c ++ d ++ [NL] ++ e ++ h ++ i) end. now rewrite <- !app_assoc.
    + rewrite app_nil_r. match goal with |- exists u, ?a ++ [SP] ++ ?b ++ ?c ++ ?d ++ [NL] = _ => exists (a ++ [SP] ++ b ++ c ++ d) end. now rewrite <- !app_assoc.
  - exists (lit "  " ++ lr_text r). now rewrite <- app_assoc.
Qed.
Lemma report_ends cc refloat file point ops s : TokClassOK cc -> run_body cc refloat file point ops = Some s -> rep s = [] \/ exists u, rep s = u ++ [NL].
Proof.
  intros TOK H. destruct (run_body_accounts cc TOK _ _ _ _ _ H) as [recs Ha]. rewrite (acc_rep _ _ Ha). destruct recs as [|r recs] using rev_ind; [now left|right].
  rewrite flat_map_app. cbn [flat_map]. rewrite app_nil_r. destruct (entry_end (point_pos s) r) as [u ->]. rewrite app_assoc. eauto.
Qed.
Lemma lines_ended (t : str) (ls0 : list str) : Forall (fun l => ~ In NL l) ls0 -> t = [] \/ (exists u, t = u ++ [NL]) -> last ls0 [] <> [] -> t ++ [NL] = lines_text ls0 -> False.
Proof.
  intros F HT L H. destruct ls0 as [|a ls0]; [now apply L|].
  destruct (exists_last (l := a :: ls0) ltac:(discriminate)) as (ls & x & EQ). rewrite EQ in F, H, L. rewrite last_last in L. apply Forall_app in F as [_ F]. inversion F as [|? ? Fx _]; subst.
  rewrite lines_app in H. cbn [lines_text flat_map] in H. rewrite app_nil_r, app_assoc in H. apply app_inv_tail in H. destruct (exists_last L) as (z & y & ->).
  destruct HT as [->|[u ->]].
  - destruct (lines_text ls); [destruct z|]; discriminate.
  - rewrite app_assoc in H. apply app_inj_tail in H as [_ <-]. apply Fx. apply in_or_app. right. now left.
Qed.
Lemma lines_of_read t : ~ In CR t -> t = [] \/ (exists u, t = u ++ [NL]) -> flat_map (fun l => l ++ [NL]) (read_lines (Some t)) = t.
Proof.
  intros NC HT. destruct (read_lines_in t) as [F H]. rewrite univ_newlines_id in H by exact NC. destruct H as [H|[L H]]; [symmetry; exact H|]. exfalso.
  exact (lines_ended t (read_lines (Some t)) F HT L H).
Qed.

Section Review.
Context {D : Type} (show_dur : D -> str) (parse_dur : str -> option D) (sp : char -> bool).
Variable show_ms : D -> str.
Variable sh : shown.
Variable cc : CharClass.
Hypothesis TOK : TokClassOK cc.
Variable refloat : str -> option str.
Variables (E o : str).
Hypothesis HE : plain_dir E.
Hypothesis Ho : plain o.
Hypothesis Hdot : starts_with [DOT] o = true.
Notation O := (E ++ SLASH :: o).
Variable c : config.
Hypothesis HB : batch c.
Hypothesis HA : accept c = false /\ update c = false.
Hypothesis HC : cont c = false.
Variable dur : str -> D.
Variable g : fs.
Variable passed : list str.
Variable cases : option (list str).

(** the tests for which review shows what the run showed *)
Definition same_shown (r : ran_case) : Prop :=
  proper (rc_name r) /\ (print_logs sh = true -> ~ In SLASH (rc_name r)) /\
  (verbose sh = true -> forall report, lookup (O ++ SLASH :: rc_name r ++ lit ".txt") g = Some report -> ~ In CR report) /\
  match cases with None => True | Some cs => In (rc_name r) cs end.

Lemma report_case_same r t answers : same_shown r -> told show_ms sh cc refloat E o c dur g r t ->
  report_case_text show_ms sh O c (rc_name r) (rc_result r) (dur (rc_name r)) answers g = t /\ rc_result r = rc_verdict r.
Proof.
  intros (P & NS & NC & _) T. pose proof (told_result _ _ _ _ _ _ _ _ _ _ _ T) as TR. rewrite (no_auto c HA) in TR. split; [|exact TR].
  destruct (told_text _ _ _ _ _ _ _ _ _ _ _ T) as (s & report & lg & file & point & ops & A & B & RB & RE & ->).
  assert (PJ : forall x, path_join O (rc_name r ++ x) = O ++ SLASH :: rc_name r ++ x).
  { intros x. apply path_join_name; [now apply HO|]. pose proof (proper_start _ P) as S. pose proof (proper_nonempty _ P) as NE. destruct (rc_name r); [easy|exact S]. }
  unfold report_case_text. rewrite !PJ, A, B. destruct HB as [B1 B2]. unfold review_text. rewrite B1, B2, andb_false_r. cbn [orb].
  assert (RL : verbose sh = true -> flat_map (fun l => l ++ [NL]) (read_lines (Some report)) = report).
  { intros V. apply lines_of_read; [now apply NC|]. subst report. exact (report_ends cc refloat file point ops s TOK RB). }
  assert (LT : logs_text sh (rc_name r) (read_lines (Some lg)) = logs_text sh (snd (path_split (rc_name r))) (read_lines (Some lg))).
  { destruct (print_logs sh) eqn:PL; [|unfold logs_text; now rewrite PL]. rewrite split_local by auto. reflexivity. }
  rewrite LT, TR. rewrite <- case_text_shown. destruct (verbose sh); [rewrite RL by reflexivity|]; reflexivity.
Qed.

Lemma review_same ran : forall blocks answers, Forall same_shown ran -> Forall2 (told show_ms sh cc refloat E o c dur g) ran blocks ->
  (fail_fast c = true -> failing (removelast ran) = []) ->
  review_loop_out show_ms sh E O c passed cases (map (ran_rec dur) ran) false answers g = Ret (match failing ran with [] => true | _ => false end, map (ran_rec dur) ran, concat blocks) g.
Proof.
  induction ran as [|r ran IH]; intros blocks answers F1 F2 FF; inversion F2 as [|? t ? blocks' T F2']; subst; [reflexivity|]. inversion F1 as [|? ? S1 F1']; subst.
  cbn [map]. unfold ran_rec at 1. cbn [review_loop_out]. rewrite HC. cbn [negb orb]. rewrite andb_true_r.
  assert (CH : match cases with None => true | Some cs => str_mem (rc_name r) cs end = true).
  { destruct S1 as (_ & _ & _ & S1). destruct cases; [|reflexivity]. now apply str_mem_In. }
  rewrite CH. cbn [andb]. cbv zeta. destruct (report_case_same r t answers S1 T) as [-> TR].
  rewrite batch_review by exact HB. rewrite (no_auto c HA). cbn [io_bind is_abort orb].
  assert (NF : forall x, fail_fast c && negb (is_ok (rc_result r)) = true -> x = ran -> ran = []).
  { intros x Hx ->. apply andb_true_iff in Hx as [Hf Hr]. destruct ran as [|r' ran]; [reflexivity|]. specialize (FF Hf).
    change (removelast (r :: r' :: ran)) with ([r] ++ removelast (r' :: ran)) in FF. rewrite failing_app in FF. apply app_eq_nil in FF as [FF _].
    unfold failing, not_ok in FF. cbn [filter] in FF. destruct (rc_result r); discriminate. }
  destruct (fail_fast c && negb (is_ok (rc_result r))) eqn:AB.
  - specialize (NF ran eq_refl eq_refl). subst ran. inversion F2'; subst. cbn [map review_loop_out io_bind fst snd app concat].
    unfold failing, not_ok. cbn [filter]. change (ran_rec dur r) with (rc_name r, rc_result r, dur (rc_name r)). destruct (rc_result r); reflexivity.
  - rewrite (IH blocks' answers F1' F2').
    + cbn [io_bind fst snd concat]. change (r :: ran) with ([r] ++ ran). rewrite failing_app. unfold failing at 2, not_ok. cbn [filter]. change (ran_rec dur r) with (rc_name r, rc_result r, dur (rc_name r)). destruct (rc_result r); reflexivity.
    + intros Hf. specialize (FF Hf). destruct ran as [|r' ran]; [reflexivity|]. change (removelast (r :: r' :: ran)) with ([r] ++ removelast (r' :: ran)) in FF.
      rewrite failing_app in FF. now apply app_eq_nil in FF as [_ FF].
Qed.
End Review.

(** C85 *)
Theorem C85_review_prints_the_run_partial :
  forall (D : Type) (show_dur : D -> str) parse_dur sp show_ms show_nat read_took sh cc refloat E o c body dur all_names took selected passed cases answers answers' f rv recs rest text g,
  TokClassOK cc -> plain_dir E -> plain o -> starts_with [DOT] o = true -> let O := E ++ SLASH :: o in
  batch c -> accept c = false -> update c = false -> cont c = false ->
  separate selected -> NoDup selected -> Forall field_ok selected -> (forall n, In n selected -> ready E O n f) -> lookup (O ++ SLASH :: lit "cases.txt") f = None ->
  durations_ok show_dur parse_dur -> space_ok sp -> read_took (metrics_json took) = Some took ->
  match cases with None => True | Some cs => incl selected cs end ->
  run_async_out show_dur parse_dur sp show_ms show_nat sh cc refloat E O O c body dur all_names took selected answers f = Some (Ret (rv, recs, rest, text) g) ->
  (print_logs sh = true -> forall n, In n selected -> ~ In SLASH n) ->
  (verbose sh = true -> forall n report, In n selected -> lookup (O ++ SLASH :: n ++ lit ".txt") g = Some report -> ~ In CR report) ->
  exists ok g', review_out show_dur parse_dur sp show_ms show_nat read_took sh E O c passed cases answers' g = Ret (ok, text) g' /\
    (ok = true <-> rv = OK) /\ forall p, lookup p g' = lookup p g.
Proof.
  intros D show_dur parse_dur sp show_ms show_nat read_took sh cc refloat E o c body dur all_names took selected passed cases answers answers' f rv recs rest text g
    TOK HE Ho Hdot O HB HA HU HC SEP ND FO AR NC DO SO RT CS H LG VB.
  destruct (run_exact show_dur parse_dur sp show_ms show_nat sh cc refloat E o HE Ho Hdot c HB body dur selected SEP all_names took selected answers f rv recs rest text g (incl_refl _) ND AR H)
    as (old & ran & blocks & left & E1 & [_ EF] & EO & E2 & E3 & E4 & E5 & ER & EM & _ & _). fold O in ER, EM, EO, E1.
  assert (R1 : report_file O = O ++ SLASH :: lit "cases.txt") by (apply path_join_name; [now apply HO|reflexivity]).
  assert (M : path_join O (lit "metrics.json") = O ++ SLASH :: lit "metrics.json") by (apply path_join_name; [now apply HO|reflexivity]).
  rewrite R1, NC in EO. cbn in EO. subst old. cbn [app] in E2.
  assert (IN : incl (map rc_name ran) selected).
  { intros n Hn. apply (todo_incl (of_file parse_dur sp (lookup (report_file O) f)) (cont c) selected). rewrite E1. apply in_or_app. now left. }
  assert (RD : of_file parse_dur sp (lookup (report_file O) g) = recs).
  { rewrite ER. apply C21_report_roundtrip; auto. unfold names_ok. rewrite E2. apply Forall_forall. intros x Hx. apply in_map_iff in Hx as (r & <- & Hr).
    rewrite Forall_forall in FO. apply FO. apply IN. exact (in_map rc_name ran r Hr). }
  unfold review_out. rewrite M, EM, RT. cbv zeta. unfold report_file in RD. rewrite RD, E2.
  match goal with |- context[review_loop_out _ _ _ _ _ ?P _ _ _ _ _] => set (p := P) end.
  pose proof (review_same show_ms sh cc TOK refloat E o HE Ho c HB (conj HA HU) HC dur g p cases ran blocks answers') as RS. fold O in RS. rewrite RS; clear RS.
  - cbn [io_bind]. eexists. eexists. split; [|split].
    + f_equal. f_equal. rewrite E4. f_equal. f_equal. rewrite end_text_shown. f_equal; [|now rewrite map_length].
      clear. unfold failed, failing. induction ran as [|r ran IH]; [reflexivity|]. cbn [map filter]. unfold not_ok at 1, rec_result at 1, ran_rec at 1. cbn [fst snd].
      destruct (rc_result r); cbn [is_ok negb map]; rewrite IH; reflexivity.
    + rewrite E5. destruct (failing ran); intuition discriminate.
    + intros q. rewrite lookup_write. destruct (str_eqb_spec (path_join O (lit "cases.txt")) q) as [<-|_]; [|reflexivity]. rewrite <- E2. symmetry. exact ER.
  - apply Forall_forall. intros r Hr. assert (Hn : In (rc_name r) selected) by (apply IN; now apply in_map). split; [apply (names_case selected SEP); exact Hn|].
    split; [intros PL; now apply LG|]. split; [intros V report; now apply VB|]. destruct cases; [now apply CS|exact I].
  - exact E3.
  - exact EF.
Qed.
Print Assumptions C85_review_prints_the_run_partial.

(** ** Examples *)
Definition shown_demo (v l : bool) : shown := {| verbose := v; print_logs := l; tool := fun _ => None |}.
Definition dec (n : nat) : str := match n with 0 => lit "0" | 1 => lit "1" | 2 => lit "2" | _ => lit "many" end.
Definition demo_took (t : str) : option str := if str_eqb t (metrics_json (lit "12")) then Some (lit "12") else None.
Notation print_go sh selected f :=
  (run_async_out (fun d : str => d) Some (fun c => N.eqb c SP) (fun d => d) dec sh ascii_class no_float demo_E demo_O demo_O (demo_conf false) demo_body (fun _ => lit "7") selected (lit "12") selected [] f).
Notation review_go sh cases f :=
  (review_out (fun d : str => d) Some (fun c => N.eqb c SP) (fun d => d) dec demo_took sh demo_E demo_O (demo_conf false) None cases [] f).

Example C84_example :
  exists recs g, print_go (shown_demo false true) demo_two demo_f0 = Some (Ret (DIFF, recs, [], lines_text [
    []; lit "# test results:"; [];
    lit "  t/a.."; lit "    log: log"; lit "  a..7 ms";
    lit "  t/b.."; lit "    log: log"; lit "  b..DIFFERED in 7 ms";
    []; lit "1/2 test failed in 12 ms:"; []; lit "  t/b"; []]) g).
Proof. eexists. eexists. vm_compute. reflexivity. Qed.
Example C84_example_verbose :
  exists recs g, print_go (shown_demo true true) [lit "t/a"] demo_f0 = Some (Ret (OK, recs, [], lines_text [
    []; lit "# test results:"; [];
    lit "test t/a..."; []; lit "  # t/a"; lit "  "; lit "  one 1"; lit "  two 2"; lit "  took 3.5 ms";
    []; lit "a logs:"; []; lit "  log"; []; lit "t/a ok in 7 ms."; [];
    []; lit "1/1 test succeeded in 12 ms"; []]) g).
Proof. eexists. eexists. vm_compute. reflexivity. Qed.

(** the hypotheses of C85 are met, with -v *)
Example C85_example :
  exists rv recs text g g', print_go (shown_demo true false) demo_two demo_f0 = Some (Ret (rv, recs, [], text) g) /\
    (forall n, In n demo_two -> ready demo_E demo_O n demo_f0) /\ lookup (demo_O ++ SLASH :: lit "cases.txt") demo_f0 = None /\ Forall field_ok demo_two /\ NoDup demo_two /\
    demo_took (metrics_json (lit "12")) = Some (lit "12") /\
    (forall n report, In n demo_two -> lookup (demo_O ++ SLASH :: n ++ lit ".txt") g = Some report -> ~ In CR report) /\
    review_go (shown_demo true false) None g = Ret (false, text) g'.
Proof.
  do 5 eexists. split; [vm_compute; reflexivity|]. split; [intros n [<-|[<-|[]]]; apply readyb_ok; vm_compute; reflexivity|]. split; [vm_compute; reflexivity|].
  split; [repeat constructor; vm_compute; intuition discriminate|]. split; [repeat constructor; cbn [In]; intuition discriminate|]. split; [vm_compute; reflexivity|].
  split; [intros n report [<-|[<-|[]]] H; vm_compute in H; injection H as <-; vm_compute; intuition discriminate|]. vm_compute. reflexivity.
Qed.

(** With -L the run gives the last part of the name after the log, --review the whole name. *)
Theorem C85_review_prints_the_run_refuted :
  exists rv recs text g text' g',
    print_go (shown_demo false true) demo_two demo_f0 = Some (Ret (rv, recs, [], text) g) /\
    review_go (shown_demo false true) None g = Ret (false, text') g' /\ text' <> text /\
    text' = lines_text [[]; lit "# test results:"; [];
      lit "  t/a.."; lit "    log: log"; lit "  t/a..7 ms";
      lit "  t/b.."; lit "    log: log"; lit "  t/b..DIFFERED in 7 ms";
      []; lit "1/2 test failed in 12 ms:"; []; lit "  t/b"; []].
Proof.
  do 6 eexists. split; [vm_compute; reflexivity|]. split; [vm_compute; reflexivity|]. split; [vm_compute; discriminate|]. vm_compute. reflexivity.
Qed.
Print Assumptions C85_review_prints_the_run_refuted.
