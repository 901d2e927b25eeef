(** C85: exactly when --review prints what the run printed. *)
From Verif Require Import CaseRunProps PyStrFacts FsFacts ReviewProofs RunnerProofs TokenizerSpec CaseRunProofs CaseRunFacts ReportsSpec ReportsProofs ReportsProps RunCaseProofs RunCaseProps ConsoleSpec ConsoleProofs ConsoleProps.
From Coq Require Import Lia.

(** the name in the log part is the whole name in one text and its last part in the other *)
Definition log_of (O : str) (g : fs) (n : str) : list str := read_lines (lookup (O ++ SLASH :: n ++ lit ".log") g).
Definition longer (sh : shown) (O : str) (g : fs) (n : str) : Prop := print_logs sh = true /\ log_of O g n <> [] /\ In SLASH n.

Lemma logs_length sh name short lines : print_logs sh = true -> lines <> [] -> length (logs_text sh name lines) + length short = length (logs_text sh short lines) + length name.
Proof.
  intros P L. unfold logs_text. rewrite P. destruct lines as [|l lines]; [easy|]. generalize (flat_map (fun l0 => lit "  " ++ l0 ++ [NL]) (l :: lines)), (flat_map (fun l0 => lit "    log: " ++ l0 ++ [NL]) (l :: lines)). intros u v.
  destruct (verbose sh); rewrite !app_length; lia.
Qed.
Lemma logs_quiet sh name short lines : print_logs sh = false \/ lines = [] -> logs_text sh name lines = logs_text sh short lines.
Proof. unfold logs_text. intros [->| ->]; [reflexivity|]. destruct (print_logs sh); reflexivity. Qed.
Lemma last_part_shorter n : proper n -> In SLASH n -> length (snd (path_split n)) < length n.
Proof.
  intros P S. destruct (last_part_split n P) as [NS [EQ|[d EQ]]]; [rewrite <- EQ in NS; contradiction|].
  rewrite EQ at 2. rewrite app_length. cbn [length]. lia.
Qed.

Section Whole.
Context {D : Type}.
Variable show_ms : D -> str.
Variable sh : shown.
Variable cc : CharClass.
Hypothesis TOK : TokClassOK cc.
Variable refloat : str -> option str.
Variables (E o : str).
Hypothesis HE : plain_dir E.
Hypothesis Ho : plain o.
Notation O := (E ++ SLASH :: o).
Variable c : config.
Hypothesis HB : batch c.
Hypothesis HA : accept c = false /\ update c = false.
Hypothesis HC : cont c = false.
Variable dur : str -> D.
Variable g : fs.
Variable passed : list str.
Variable cases : option (list str).

Definition shown_case (r : ran_case) : Prop :=
  proper (rc_name r) /\ (verbose sh = true -> forall report, lookup (O ++ SLASH :: rc_name r ++ lit ".txt") g = Some report -> ~ In CR report) /\
  match cases with None => True | Some cs => In (rc_name r) cs end.
Definition block (answers : list str) (r : ran_case) : str := report_case_text show_ms sh O c (rc_name r) (rc_result r) (dur (rc_name r)) answers g.

Lemma block_length r t answers : shown_case r -> told show_ms sh cc refloat E o c dur g r t ->
  rc_result r = rc_verdict r /\ (longer sh O g (rc_name r) -> length t < length (block answers r)) /\ (~ longer sh O g (rc_name r) -> block answers r = t).
Proof.
  intros (P & NC & _) T. pose proof (told_result _ _ _ _ _ _ _ _ _ _ _ T) as TR. rewrite (no_auto c HA) in TR. split; [exact TR|].
  destruct (told_text _ _ _ _ _ _ _ _ _ _ _ T) as (s & report & lg & file & point & ops & A & B & RB & RE & ->).
  assert (PJ : forall x, path_join O (rc_name r ++ x) = O ++ SLASH :: rc_name r ++ x).
  { intros x. apply path_join_name; [now apply HO|]. pose proof (proper_start _ P) as S. pose proof (proper_nonempty _ P) as NE. destruct (rc_name r); [easy|exact S]. }
  assert (RL : verbose sh = true -> flat_map (fun l => l ++ [NL]) (read_lines (Some report)) = report).
  { intros V. apply lines_of_read; [now apply NC|]. subst report. exact (report_ends cc refloat file point ops s TOK RB). }
  assert (BE : block answers r = begin_text (verbose sh) (rc_name r) ++ (if verbose sh then report else []) ++ logs_text sh (rc_name r) (read_lines (Some lg)) ++
    result_text (verbose sh) (rc_name r) (rc_verdict r) (show_ms (dur (rc_name r))) ++ [] ++ (if verbose sh then [NL] else [])).
  { unfold block, report_case_text. rewrite !PJ, A, B. destruct HB as [B1 B2]. unfold review_text. rewrite B1, B2, andb_false_r, TR. cbn [orb]. destruct (verbose sh); [rewrite RL by reflexivity|]; reflexivity. }
  rewrite BE, <- case_text_shown. unfold longer, log_of. rewrite B. set (lines := read_lines (Some lg)). split.
  - intros (PL & NL' & SL). pose proof (logs_length sh (rc_name r) (snd (path_split (rc_name r))) lines PL NL') as X. pose proof (last_part_shorter (rc_name r) P SL) as Y. rewrite !app_length. lia.
  - intros N. assert (LT : logs_text sh (rc_name r) lines = logs_text sh (snd (path_split (rc_name r))) lines); [|now rewrite LT].
    destruct (print_logs sh) eqn:PL; [|apply logs_quiet; now left]. destruct lines as [|l lines'] eqn:EL; [apply logs_quiet; now right|].
    rewrite split_local; [reflexivity|]. intros S. apply N. split; [reflexivity|]. split; [discriminate|exact S].
Qed.

Lemma blocks_length ran : forall blocks answers, Forall shown_case ran -> Forall2 (told show_ms sh cc refloat E o c dur g) ran blocks ->
  length (concat blocks) <= length (concat (map (block answers) ran)) /\
  (concat (map (block answers) ran) = concat blocks <-> forall r, In r ran -> ~ longer sh O g (rc_name r)).
Proof.
  induction ran as [|r ran IH]; intros blocks answers F1 F2; inversion F2 as [|? t ? blocks' T F2']; subst; cbn [map concat].
  - split; [reflexivity|]. split; [intros _ r []|reflexivity].
  - inversion F1 as [|? ? S1 F1']; subst. destruct (IH blocks' answers F1' F2') as [L I]. destruct (block_length r t answers S1 T) as (_ & LG & EQ). rewrite !app_length.
    assert (DEC : longer sh O g (rc_name r) \/ ~ longer sh O g (rc_name r)).
    { unfold longer. destruct (print_logs sh); [|right; intuition discriminate]. destruct (log_of O g (rc_name r)); [right; tauto|]. destruct (in_dec N.eq_dec SLASH (rc_name r)); [left; repeat split; auto; discriminate|right; tauto]. }
    destruct DEC as [Y|Y].
    + specialize (LG Y). split; [lia|]. split.
      * intros X. apply (f_equal (@length _)) in X. rewrite !app_length in X. lia.
      * intros X. exfalso. apply (X r (or_introl eq_refl) Y).
    + rewrite (EQ Y). split; [lia|]. split.
      * intros X. apply app_inv_head in X. intros q [<-|Hq]; [exact Y|]. now apply I.
      * intros X. f_equal. apply I. intros q Hq. apply X. now right.
Qed.

Lemma review_whole ran : forall blocks answers, Forall shown_case ran -> Forall2 (told show_ms sh cc refloat E o c dur g) ran blocks ->
  (fail_fast c = true -> failing (removelast ran) = []) ->
  review_loop_out show_ms sh E O c passed cases (map (ran_rec dur) ran) false answers g
    = Ret (match failing ran with [] => true | _ => false end, map (ran_rec dur) ran, concat (map (block answers) ran)) g.
Proof.
  induction ran as [|r ran IH]; intros blocks answers F1 F2 FF; inversion F2 as [|? t ? blocks' T F2']; subst; [reflexivity|]. inversion F1 as [|? ? S1 F1']; subst.
  cbn [map]. unfold ran_rec at 1. cbn [review_loop_out]. rewrite HC. cbn [negb orb]. rewrite andb_true_r.
  assert (CH : match cases with None => true | Some cs => str_mem (rc_name r) cs end = true).
  { destruct S1 as (_ & _ & S1). destruct cases; [|reflexivity]. now apply str_mem_In. }
  rewrite CH. cbn [andb]. cbv zeta. destruct (block_length r t answers S1 T) as (TR & _). fold (block answers r).
  rewrite batch_review by exact HB. rewrite (no_auto c HA). cbn [io_bind is_abort orb].
  assert (NF : forall x, fail_fast c && negb (is_ok (rc_result r)) = true -> x = ran -> ran = []).
  { intros x Hx ->. apply andb_true_iff in Hx as [Hf Hr]. destruct ran as [|r' ran]; [reflexivity|]. specialize (FF Hf).
    change (removelast (r :: r' :: ran)) with ([r] ++ removelast (r' :: ran)) in FF. rewrite failing_app in FF. apply app_eq_nil in FF as [FF _].
    unfold failing, not_ok in FF. cbn [filter] in FF. destruct (rc_result r); discriminate. }
  destruct (fail_fast c && negb (is_ok (rc_result r))) eqn:AB.
  - specialize (NF ran eq_refl eq_refl). subst ran. cbn [map review_loop_out io_bind fst snd app concat].
    unfold failing, not_ok. cbn [filter]. change (ran_rec dur r) with (rc_name r, rc_result r, dur (rc_name r)). destruct (rc_result r); reflexivity.
  - rewrite (IH blocks' answers F1' F2').
    + cbn [io_bind fst snd concat map]. change (r :: ran) with ([r] ++ ran). rewrite failing_app. unfold failing at 2, not_ok. cbn [filter]. change (ran_rec dur r) with (rc_name r, rc_result r, dur (rc_name r)). destruct (rc_result r); reflexivity.
    + intros Hf. specialize (FF Hf). destruct ran as [|r' ran]; [reflexivity|]. change (removelast (r :: r' :: ran)) with ([r] ++ removelast (r' :: ran)) in FF.
      rewrite failing_app in FF. now apply app_eq_nil in FF as [_ FF].
Qed.
End Whole.

Theorem C85_review_prints_the_run_exact :
  forall (D : Type) (show_dur : D -> str) parse_dur sp show_ms show_nat read_took sh cc refloat E o c body dur all_names took selected passed cases answers answers' f rv recs rest text g,
  TokClassOK cc -> plain_dir E -> plain o -> starts_with [DOT] o = true -> let O := E ++ SLASH :: o in
  batch c -> accept c = false -> update c = false -> cont c = false ->
  separate selected -> NoDup selected -> Forall field_ok selected -> (forall n, In n selected -> ready E O n f) -> lookup (O ++ SLASH :: lit "cases.txt") f = None ->
  durations_ok show_dur parse_dur -> space_ok sp -> read_took (metrics_json took) = Some took ->
  match cases with None => True | Some cs => incl selected cs end ->
  run_async_out show_dur parse_dur sp show_ms show_nat sh cc refloat E O O c body dur all_names took selected answers f = Some (Ret (rv, recs, rest, text) g) ->
  (verbose sh = true -> forall n report, In n selected -> lookup (O ++ SLASH :: n ++ lit ".txt") g = Some report -> ~ In CR report) ->
  exists ok text' g', review_out show_dur parse_dur sp show_ms show_nat read_took sh E O c passed cases answers' g = Ret (ok, text') g' /\
    (ok = true <-> rv = OK) /\ (forall p, lookup p g' = lookup p g) /\ length text <= length text' /\
    (text' = text <-> ~ (print_logs sh = true /\
      exists r, In r recs /\ In SLASH (rec_name r) /\ read_lines (lookup (O ++ SLASH :: rec_name r ++ lit ".log") g) <> [])).
Proof.
  intros D show_dur parse_dur sp show_ms show_nat read_took sh cc refloat E o c body dur all_names took selected passed cases answers answers' f rv recs rest text g
    TOK HE Ho Hdot O HB HA HU HC SEP ND FO AR NC DO SO RT CS H VB.
  destruct (run_exact show_dur parse_dur sp show_ms show_nat sh cc refloat E o HE Ho Hdot c HB body dur selected SEP all_names took selected answers f rv recs rest text g (incl_refl _) ND AR H)
    as (old & ran & blocks & left & E1 & [_ EF] & EO & E2 & E3 & E4 & E5 & ER & EM & _ & _). fold O in ER, EM, EO, E1.
  assert (R1 : report_file O = O ++ SLASH :: lit "cases.txt") by (apply path_join_name; [now apply HO|reflexivity]).
  assert (M : path_join O (lit "metrics.json") = O ++ SLASH :: lit "metrics.json") by (apply path_join_name; [now apply HO|reflexivity]).
  rewrite R1, NC in EO. cbn in EO. subst old. cbn [app] in E2.
  assert (IN : incl (map rc_name ran) selected).
  { intros n Hn. apply (todo_incl (of_file parse_dur sp (lookup (report_file O) f)) (cont c) selected). rewrite E1. apply in_or_app. now left. }
  assert (RD : of_file parse_dur sp (lookup (report_file O) g) = recs).
  { rewrite ER. apply C21_report_roundtrip; auto. unfold names_ok. rewrite E2. apply Forall_forall. intros x Hx. apply in_map_iff in Hx as (r & <- & Hr).
    rewrite Forall_forall in FO. apply FO. apply IN. exact (in_map rc_name ran r Hr). }
  unfold review_out. rewrite M, EM, RT. cbv zeta. unfold report_file in RD. rewrite RD, E2.
  match goal with |- context[review_loop_out _ _ _ _ _ ?P _ _ _ _ _] => set (p := P) end.
  assert (SC : Forall (shown_case sh E o g cases) ran).
  { apply Forall_forall. intros r Hr. assert (Hn : In (rc_name r) selected) by (apply IN; now apply in_map). split; [apply (names_case selected SEP); exact Hn|].
    split; [intros V report; now apply VB|]. destruct cases; [now apply CS|exact I]. }
  pose proof (review_whole show_ms sh cc TOK refloat E o HE Ho c HB (conj HA HU) HC dur g p cases ran blocks answers' SC E3 EF) as RS. fold O in RS. rewrite RS; clear RS.
  destruct (blocks_length show_ms sh cc TOK refloat E o HE Ho c HB (conj HA HU) dur g cases ran blocks answers' SC E3) as [BL BI].
  assert (EN : end_text show_nat (failed (map (ran_rec dur) ran)) (length (map (ran_rec dur) ran)) took = summary_shown show_nat (failing ran) (length ran) took).
  { rewrite end_text_shown. f_equal; [|now rewrite map_length].
    clear. unfold failed, failing. induction ran as [|r ran IH]; [reflexivity|]. cbn [map filter]. unfold not_ok at 1, rec_result at 1, ran_rec at 1. cbn [fst snd].
    destruct (rc_result r); cbn [is_ok negb map]; rewrite IH; reflexivity. }
  cbn [io_bind]. rewrite EN. do 3 eexists. split; [reflexivity|]. split; [|split; [|split]].
  - rewrite E5. destruct (failing ran); intuition discriminate.
  - intros q. rewrite lookup_write. destruct (str_eqb_spec (path_join O (lit "cases.txt")) q) as [<-|_]; [|reflexivity]. rewrite <- E2. symmetry. exact ER.
  - rewrite E4. change (start_text) with heading_shown. rewrite !app_length. lia.
  - rewrite E4. change (start_text) with heading_shown. split.
    + intros X (PL & q & Hq & SL & LL). apply app_inv_head, app_inv_tail in X. apply in_map_iff in Hq as (r & <- & Hr). apply (proj1 BI X r Hr). split; [exact PL|]. split; [exact LL|exact SL].
    + intros N. f_equal. f_equal. apply BI. intros r Hr (PL & LL & SL). apply N. split; [exact PL|]. exists (ran_rec dur r). split; [now apply in_map|]. split; [exact SL|exact LL].
Qed.
Print Assumptions C85_review_prints_the_run_exact.

(** with -L: both sides of the equivalence fail, the text of the review is longer; the hypotheses hold as in C85_example *)
Example C85_exact_example :
  exists rv recs text g text' g', print_go (shown_demo false true) demo_two demo_f0 = Some (Ret (rv, recs, [], text) g) /\
    (forall n, In n demo_two -> ready demo_E demo_O n demo_f0) /\ lookup (demo_O ++ SLASH :: lit "cases.txt") demo_f0 = None /\ Forall field_ok demo_two /\ NoDup demo_two /\
    review_go (shown_demo false true) None g = Ret (false, text') g' /\ length text' = length text + 4 /\
    exists r, In r recs /\ In SLASH (rec_name r) /\ read_lines (lookup (demo_O ++ SLASH :: rec_name r ++ lit ".log") g) = [lit "log"].
Proof.
  do 6 eexists. split; [vm_compute; reflexivity|]. split; [intros n [<-|[<-|[]]]; apply readyb_ok; vm_compute; reflexivity|]. split; [vm_compute; reflexivity|].
  split; [repeat constructor; vm_compute; intuition discriminate|]. split; [repeat constructor; cbn [In]; intuition discriminate|]. split; [vm_compute; reflexivity|].
  split; [vm_compute; reflexivity|]. eexists. split; [left; reflexivity|]. split; vm_compute; tauto.
Qed.
