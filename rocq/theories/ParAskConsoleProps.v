(** C129: what a parallel run with questions prints. *)
From Verif Require Import PyStrFacts FsFacts CaseRunProps RunCaseProofs RunCaseProps ReportsProofs RunnerProofs ReviewProofs ConsoleSpec ConsoleProofs ConsoleProps.
From Verif Require Export ParAskProps ParAskConsoleModel.

(** ** The questions *)
Definition prompt_shown (v : bool) (res : result) : str :=
  (if v then [] else lit "    ") ++
  match res with
  | FAIL => lit "(c)ontinue, (q)uit, (v)iew, (l)ogs, (d)iff or fast (D)iff"
  | _ => lit "(a)ccept, (c)ontinue, (q)uit, (v)iew, (l)ogs, (d)iff or fast (D)iff"
  end.
(** the tools that are started by an answer, and the variables that define them *)
Definition tools : list (str * (str * str)) :=
  [(lit "v", (lit "md_viewer", lit "BOOKTEST_MD_VIEWER")); (lit "l", (lit "log_viewer", lit "BOOKTEST_LOG_VIEWER"));
   (lit "d", (lit "diff_tool", lit "BOOKTEST_DIFF_TOOL")); (lit "D", (lit "fast_diff_tool", lit "BOOKTEST_FAST_DIFF_TOOL"))].
(** after an answer that does not decide: a tool that is not defined is named *)
Definition reaction_shown (sh : shown) (a t : str) : Prop :=
  (exists k v, In (a, (k, v)) tools /\ tool sh k = None /\ t = lines_text [k ++ lit " is not defined."; lit "please define it in .booktest file or as env variable " ++ v]) \/
  ((forall k v, In (a, (k, v)) tools -> tool sh k <> None) /\ t = []).
(** The questions about a test: one per answer until an answer decides, or until there is none. *)
Definition dialog (sh : shown) (c : config) (res : result) (answers : list str) (t : str) : Prop :=
  (asked c res /\ exists before after reactions, answers = before ++ after /\ (forall b r, In b before -> ~ decides res b r) /\
     (after = [] \/ exists a r rest, after = a :: rest /\ decides res a r) /\
     Forall2 (reaction_shown sh) before reactions /\ t = concat (map (fun x => prompt_shown (verbose sh) res ++ x) reactions) ++ prompt_shown (verbose sh) res) \/
  (~ asked c res /\ t = []).

(** a test with the questions, which come before the last empty line *)
Definition block_shown (sh : shown) (name : str) (report log : list str) (res : result) (ms : str) (d : str) : str :=
  let shown := case_shown sh name name (lines_text report) log res ms in
  if verbose sh then removelast shown ++ d ++ [NL] else shown ++ d.

(** the lines of a file, which may be missing *)
Definition file_lines (file : option str) (lines : list str) : Prop := match file with Some t => lines_in t lines | None => lines = [] end.

(** the reviews, with what is printed *)
Inductive told_reviews (sh : shown) (c : config) (res : str -> result) : list str -> list (str * request * str) -> list str -> Prop :=
| td_none answers : told_reviews sh c res answers [] answers
| td_next answers n r t rest done left :
    reviewed c (res n) answers r rest -> dialog sh c (res n) answers t -> (done <> [] -> ~ stops c (res n) r) -> told_reviews sh c res rest done left ->
    told_reviews sh c res answers ((n, r, t) :: done) left.

Lemma prompt_eq v res : prompt v res = prompt_shown v res.
Proof. unfold prompt, prompt_shown. destruct res; reflexivity. Qed.
Lemma reaction_eq sh a : reaction_shown sh a (reaction sh a).
Proof.
  assert (K : forall k u v, In (a, (k, v)) tools -> v = lit "BOOKTEST_" ++ u -> (forall k' v', In (a, (k', v')) tools -> k' = k) -> reaction_shown sh a (tool_text sh k u)).
  { intros k u v I -> U. unfold tool_text. destruct (tool sh k) as [x|] eqn:T.
    - right. split; [|reflexivity]. intros k' v' X. rewrite (U k' v' X). congruence.
    - left. exists k, (lit "BOOKTEST_" ++ u). split; [exact I|]. split; [exact T|]. cbn [lines_text flat_map]. rewrite <- !app_assoc. reflexivity. }
  unfold reaction.
  destruct (str_eqb_spec a (lit "v")) as [->|?]; [apply (K (lit "md_viewer") (lit "MD_VIEWER") (lit "BOOKTEST_MD_VIEWER")); [now left|reflexivity|]; intros k v X; cbn [tools In] in X; destruct X as [X|[X|[X|[X|[]]]]]; pose proof (f_equal fst X) as Y; cbn [fst] in Y; first [discriminate Y|exact (eq_sym (f_equal (fun z => fst (snd z)) X))]|].
  destruct (str_eqb_spec a (lit "l")) as [->|?]; [apply (K (lit "log_viewer") (lit "LOG_VIEWER") (lit "BOOKTEST_LOG_VIEWER")); [right; now left|reflexivity|]; intros k v X; cbn [tools In] in X; destruct X as [X|[X|[X|[X|[]]]]]; pose proof (f_equal fst X) as Y; cbn [fst] in Y; first [discriminate Y|exact (eq_sym (f_equal (fun z => fst (snd z)) X))]|].
  destruct (str_eqb_spec a (lit "d")) as [->|?]; [apply (K (lit "diff_tool") (lit "DIFF_TOOL") (lit "BOOKTEST_DIFF_TOOL")); [right; right; now left|reflexivity|]; intros k v X; cbn [tools In] in X; destruct X as [X|[X|[X|[X|[]]]]]; pose proof (f_equal fst X) as Y; cbn [fst] in Y; first [discriminate Y|exact (eq_sym (f_equal (fun z => fst (snd z)) X))]|].
  destruct (str_eqb_spec a (lit "D")) as [->|?]; [apply (K (lit "fast_diff_tool") (lit "FAST_DIFF_TOOL") (lit "BOOKTEST_FAST_DIFF_TOOL")); [right; right; right; now left|reflexivity|]; intros k v X; cbn [tools In] in X; destruct X as [X|[X|[X|[X|[]]]]]; pose proof (f_equal fst X) as Y; cbn [fst] in Y; first [discriminate Y|exact (eq_sym (f_equal (fun z => fst (snd z)) X))]|].
  right. split; [|reflexivity]. intros k v X. cbn [tools In] in X. intuition congruence.
Qed.
Lemma interact_dialog sh res answers : exists before after reactions, answers = before ++ after /\ (forall b r, In b before -> ~ decides res b r) /\
  (after = [] \/ exists a r rest, after = a :: rest /\ decides res a r) /\
  Forall2 (reaction_shown sh) before reactions /\ interact_text sh res answers = concat (map (fun x => prompt_shown (verbose sh) res ++ x) reactions) ++ prompt_shown (verbose sh) res.
Proof.
  induction answers as [|a rest IH]; cbn [interact_text]; rewrite prompt_eq.
  - exists [], [], []. split; [reflexivity|]. split; [intros b r []|]. split; [now left|]. split; [constructor|reflexivity].
  - assert (STOP : (exists r, decides res a r) -> exists before after reactions, a :: rest = before ++ after /\ (forall b r, In b before -> ~ decides res b r) /\
      (after = [] \/ exists a r rest, after = a :: rest /\ decides res a r) /\
      Forall2 (reaction_shown sh) before reactions /\ prompt_shown (verbose sh) res ++ [] = concat (map (fun x => prompt_shown (verbose sh) res ++ x) reactions) ++ prompt_shown (verbose sh) res).
    { intros [r Hr]. exists [], (a :: rest), []. split; [reflexivity|]. split; [intros b q []|]. split; [right; exists a, r, rest; auto|]. split; [constructor|]. cbn [map concat app]. apply app_nil_r. }
    destruct (str_eqb_spec a (lit "a")) as [->|NA].
    + destruct (is_fail res) eqn:FA.
      * cbn [negb andb]. destruct res; try discriminate FA. destruct IH as (before & after & reactions & E1 & E2 & E3 & E4 & E5). exists (lit "a" :: before), after, (reaction sh (lit "a") :: reactions).
        split; [now rewrite E1|]. split; [intros b r [<-|Hb]; [|now apply E2]; intros [(_ & X & _)|[(X & _)|(X & _)]]; [now elim X|discriminate X|discriminate X]|].
        split; [exact E3|]. split; [constructor; [apply reaction_eq|exact E4]|]. change (str_eqb (lit "a") (lit "c")) with false. change (str_eqb (lit "a") (lit "q")) with false. cbn iota. cbn [map concat]. now rewrite E5, <- !app_assoc.
      * cbn [negb andb]. apply STOP. exists FREEZE. left. split; [reflexivity|]. split; [|reflexivity]. intros ->. discriminate FA.
    + cbn [andb]. destruct (str_eqb_spec a (lit "c")) as [->|NC]; [apply STOP; exists NONE; right; now left|].
      destruct (str_eqb_spec a (lit "q")) as [->|NQ]; [apply STOP; exists ABORT; right; now right|].
      destruct IH as (before & after & reactions & E1 & E2 & E3 & E4 & E5). exists (a :: before), after, (reaction sh a :: reactions).
      split; [now rewrite E1|]. split; [intros b r [<-|Hb]; [|now apply E2]; intros [(X & _)|[(X & _)|(X & _)]]; contradiction|].
      split; [exact E3|]. split; [constructor; [apply reaction_eq|exact E4]|]. cbn [map concat]. now rewrite E5, <- !app_assoc.
Qed.
Lemma review_dialog sh c res answers : dialog sh c res answers (review_text sh c res answers).
Proof.
  unfold review_text. destruct (always_interactive c || (negb (is_ok res) && interactive c)) eqn:A.
  - left. split; [now apply asked_iff|]. apply interact_dialog.
  - right. split; [|reflexivity]. intros X. apply asked_iff in X. congruence.
Qed.

Lemma block_eq sh name report log res ms d :
  begin_text (verbose sh) name ++ (if verbose sh then lines_text report else []) ++ logs_text sh name log ++
    result_text (verbose sh) name res ms ++ d ++ (if verbose sh then [NL] else []) = block_shown sh name report log res ms d.
Proof.
  unfold block_shown. rewrite <- case_text_shown. cbv zeta. destruct (verbose sh).
  - cbn [app]. rewrite !app_assoc. rewrite removelast_last. now rewrite <- !app_assoc.
  - cbn [app]. now rewrite !app_nil_r, <- !app_assoc.
Qed.

(** The run that prints does to the files and returns what the run of ParAskModel does (C127, C130, C131), whatever is printed. *)
Theorem C129_files_as_modelled cc refloat E O c body {D} (show_dur : D -> str) parse_dur sp show_ms show_nat sh dur all_names printed metrics_of took deps selected answers f ctrl_c x text :
  ask_run_out cc refloat E O c body show_dur parse_dur sp show_ms show_nat sh dur all_names printed metrics_of took deps selected answers f ctrl_c x text ->
  ask_run cc refloat E O c body show_dur parse_dur sp dur all_names printed metrics_of (metrics_json took) deps selected answers f ctrl_c x.
Proof. intros (y & recs & A & B & C & F & G & _). exists y, recs. auto. Qed.
Print Assumptions C129_files_as_modelled.

(** a review of the history, with what was printed *)
Definition told_of (sh : shown) (c : config) (res : str -> result) (h : past) : str * request * str := (p_name h, p_req h, review_text sh c (res (p_name h)) (snd (fst h))).
Lemma reviews_told sh c res hist : forall a lf, chain a hist lf ->
  (forall n b v, In (n, b, v) hist -> exists r z, v = (final (res n) r, r, z) /\ reviewed c (res n) b r z) ->
  reviews c res a (asked_of hist) lf -> told_reviews sh c res a (map (told_of sh c res) hist) lf.
Proof.
  induction hist as [|[[n b] [[w q] z]] hist IH]; intros a lf CH HH RV; cbn [chain asked_of map] in *; [subst; constructor|]. destruct CH as [-> CH].
  destruct (HH n a (w, q, z) (or_introl eq_refl)) as (r & z' & EQ & RW). injection EQ as -> -> ->. inversion RV as [|? ? ? rest ? ? R1 R2 R3]; subst. cbn [p_name p_req fst snd] in *.
  unfold told_of at 1. cbn [p_name p_req fst snd]. apply (td_next sh c res a n r _ z'); [exact RW|apply review_dialog| |].
  - intros NE. apply R2. intros X. apply NE. destruct hist; [reflexivity|discriminate X].
  - apply IH; [exact CH|intros m b' v Hm; apply HH; now right|].
    assert (rest = z') as <-; [|exact R3]. destruct RW as [[A D1]|(A & _ & ->)], R1 as [[A' D2]|(A' & _ & ->)]; try contradiction; [|reflexivity].
    apply interact_iff in D1, D2. congruence.
Qed.

Lemma map_flat_concat {A B} (l : list A) (l' : list B) (key : A -> B) (f : A -> str) (g : B -> str) :
  map key l = l' -> (forall x, In x l -> f x = g (key x)) -> flat_map f l = concat (map g l').
Proof. intros <- H. induction l as [|x l IH]; [reflexivity|]. cbn [flat_map map concat]. rewrite H by now left. now rewrite IH by (intros y Hy; apply H; now right). Qed.

(** However the run ends; [ctrl_c]: it was interrupted. *)
Theorem C129_asking_prints :
  forall cc refloat E o c body (D : Type) (show_dur : D -> str) parse_dur sp show_ms show_nat sh durS durP all_names printed metrics_of metricsS took names deps
    selected answersS answers f rv recs rest g,
  plain_dir E -> plain o -> starts_with [DOT] o = true -> let O := E ++ SLASH :: o in
  update c = false -> (always_interactive c = true -> accept c = false) -> durations_ok show_dur parse_dur -> space_ok sp ->
  separate names -> ~ In (lit "output") names ->
  (forall n, In n names -> field_ok n /\ incl (deps n) names /\ reads_deps E O deps n (body n)) ->
  NoDup selected -> incl selected names -> deps_first deps selected -> (forall n, In n selected -> ready E O n f) ->
  run_async cc refloat E O O (unattended c) body show_dur parse_dur sp durS all_names metricsS selected answersS f = Some (Ret (rv, recs, rest) g) ->
  let todo := par_todo O c parse_dur sp selected f in let kept := par_kept O c parse_dur sp selected f in
  exists res report log, recs = kept ++ map (fun n => (n, res n, durS n)) todo /\
  (** the report and the log of a test after the sequential run *)
  (forall n, In n todo -> file_lines (lookup (O ++ SLASH :: n ++ lit ".txt") g) (report n) /\ file_lines (lookup (O ++ SLASH :: n ++ lit ".log") g) (log n)) /\
  forall ctrl_c x text, ask_run_out cc refloat E O c body show_dur parse_dur sp show_ms show_nat sh durP all_names printed metrics_of took deps selected answers f ctrl_c x text ->
  exists done left lost pending part notice h,
    let names_of := map (fun d => fst (fst d)) done in
    let block := fun n d => block_shown sh n (report n) (log n) (res n) (show_ms (durP n)) d in
    let recs' := map (fun d => (fst (fst d), final (res (fst (fst d))) (snd (fst d)), durP (fst (fst d)))) done ++ map (fun n => (n, res n, durP n)) pending in
    told_reviews sh c res answers done left /\
    (x = Raise h \/ exists code, x = Ret (code, kept ++ recs') h) /\
    NoDup (names_of ++ lost ++ pending) /\ incl (names_of ++ lost ++ pending) todo /\
    text = heading_shown ++ concat (map (fun d => block (fst (fst d)) (snd d)) done) ++ part ++ notice ++
      lines_text (map (fun n => lit "  " ++ n ++ lit ".." ++ result_words false (res n) (show_ms (durP n))) pending) ++
      summary_shown show_nat (map rec_name (filter (fun r => negb (is_ok (rec_result r))) recs')) (length recs') took /\
    (** a review that was not finished *)
    ((lost = [] /\ part = []) \/
     (exists n d tail, lost = [n] /\ dialog sh c (res n) left d /\ block n d = part ++ tail /\ (ctrl_c = true \/ x = Raise h /\ tail = if verbose sh then [NL] else []))) /\
    (** the tests that are said to be interrupted *)
    ((ctrl_c = false /\ notice = []) \/
     (ctrl_c = true /\ exists told, notice = lines_text (map (fun n => lit "  " ++ n ++ lit "..interrupted") told) /\ NoDup told /\ incl told todo /\
        (forall n, In n told -> ~ In n (names_of ++ lost)) /\ forall n, In n todo -> ~ In n (names_of ++ lost ++ pending) -> In n told)).
Proof.
  intros cc refloat E o c body D show_dur parse_dur sp show_ms show_nat sh durS durP all_names printed metrics_of metricsS took names deps
    selected answersS answers f rv recs rest g HE Ho Hdot O HU HAI DUR SPC SEP NOUT HN ND INS ORD RD H todo kept0.
  destruct (asking cc refloat E o c body D show_dur parse_dur sp durS durP all_names printed metrics_of metricsS (metrics_json took) names deps
    selected answersS answers f rv recs rest g HE Ho Hdot HU HAI DUR SPC SEP NOUT HN ND INS ORD RD H) as (res & ER & _ & ALL). fold O in ER, ALL. fold todo kept0 in ER. fold todo in ALL.
  set (report := fun n => read_lines (lookup (O ++ SLASH :: n ++ lit ".txt") g)). set (log := fun n => read_lines (lookup (O ++ SLASH :: n ++ lit ".log") g)).
  exists res, report, log. split; [exact ER|]. split.
  { intros n _. unfold report, log. split; match goal with |- context [lookup ?p g] => destruct (lookup p g) end; [apply read_lines_in|reflexivity|apply read_lines_in|reflexivity]. }
  intros ctrl_c x text (y & recs' & STEPS & EE & AE & -> & EX & part & PART & TEXT). fold O in STEPS. fold todo in STEPS.
  destruct (ALL y recs' STEPS EE AE) as (hist & cur & pending & RV & OKS & ER' & KR & WHY & NDA & IA & IT & _ & _ & _ & _ & _ & SH & SA & SS & CH & HH & LF). clear ALL.
  assert (NAMES : map fst (asked_of hist) = map p_name hist) by (unfold asked_of; rewrite map_map; reflexivity).
  assert (TOLD : map (fun d : str * request * str => fst (fst d)) (map (told_of sh c res) hist) = map p_name hist) by (rewrite map_map; reflexivity).
  assert (REC1 : map (fun d => (fst d, final (res (fst d)) (snd d), durP (fst d))) (asked_of hist) =
    map (fun d : str * request * str => (fst (fst d), final (res (fst (fst d))) (snd (fst d)), durP (fst (fst d)))) (map (told_of sh c res) hist)).
  { unfold asked_of. rewrite !map_map. reflexivity. }
  rewrite NAMES in *. rewrite REC1 in *.
  assert (LEN : length (k_recs y) = length (map fst hist)) by (rewrite KR, !map_length; reflexivity).
  set (key := fun s : case_rec D * list str * fs => (rec_name (fst (fst s)), snd (fst s))) in *.
  assert (BLOCK : forall s, In s (k_shown y) -> ask_block O c show_ms sh s = block_shown sh (fst (key s)) (report (fst (key s))) (log (fst (key s))) (res (fst (key s))) (show_ms (durP (fst (key s)))) (review_text sh c (res (fst (key s))) (snd (key s)))).
  { intros [[r a] gs] Hs. destruct (SS r a gs Hs) as [E1 E2]. unfold key. cbn [fst snd]. unfold ask_block, report_case_text. set (n := rec_name r) in *.
    replace (rec_result r) with (res n) by (rewrite E1; reflexivity). replace (rec_dur r) with (durP n) by (rewrite E1; reflexivity).
    assert (Hn : In n todo).
    { apply IT, IA. assert (X : In (n, a) (map key (k_shown y))) by (apply in_map_iff; now exists (r, a, gs)). rewrite SH in X. apply in_app_or in X as [X|X]; apply in_or_app; [left|right].
      - apply in_map_iff in X as (h & X & Hh). apply in_map_iff. exists h. split; [|exact Hh]. unfold p_name. now rewrite X.
      - destruct cur as [[m b]|]; [|destruct X]. destruct X as [X|[]]. injection X as -> _. now left. }
    assert (CN : case_name n) by (apply (names_case names SEP); apply INS; now apply todo_incl in Hn).
    assert (PJ : forall e, path_join O (n ++ e) = O ++ SLASH :: n ++ e).
    { intros e. apply path_join_name; [now apply HO|]. pose proof (proper_start _ (proj1 CN)) as S. pose proof (proper_nonempty _ (proj1 CN)) as NE. destruct n; [easy|exact S]. }
    rewrite !PJ, (E2 (O ++ SLASH :: n ++ lit ".txt")), (E2 (O ++ SLASH :: n ++ lit ".log")).
    - apply block_eq.
    - apply (own_O E o n (lit ".log")); [unfold case_exts; cbn [In]; tauto|apply prefix_refl].
    - apply (own_O E o n (lit ".txt")); [unfold case_exts; cbn [In]; tauto|apply prefix_refl]. }
  set (notice := match k_cut y with Some (Interrupted lf) => flat_map (fun i => lit "  " ++ i ++ lit "..interrupted" ++ [NL]) lf | _ => [] end) in *.
  eexists (map (told_of sh c res) hist), (k_answers y), (cur_name cur), pending, part, notice, _. cbv zeta. rewrite TOLD.
  split; [now apply reviews_told|]. split; [|split; [exact NDA|split; [intros n Hn; now apply IT, IA|split; [|split]]]].
  - rewrite EX. destruct (k_cut y) as [[lf|]|]; [right|left; reflexivity|right]; exists (k_ok y); rewrite ER'; reflexivity.
  - rewrite TEXT, end_text_shown. rewrite KR at 2. rewrite ER'. unfold failed. change start_text with heading_shown. f_equal. f_equal; [|f_equal; f_equal; f_equal].
    + rewrite LEN. rewrite map_map. rewrite (map_flat_concat _ (map fst hist) key (ask_block O c show_ms sh)
        (fun k => block_shown sh (fst k) (report (fst k)) (log (fst k)) (res (fst k)) (show_ms (durP (fst k))) (review_text sh c (res (fst k)) (snd k)))).
      * rewrite map_map. reflexivity.
      * rewrite <- firstn_map, SH. rewrite firstn_app, Nat.sub_diag, firstn_all. cbn [firstn]. apply app_nil_r.
      * intros s Hs. apply BLOCK. rewrite <- (firstn_skipn (length (map fst hist)) (k_shown y)). apply in_or_app. now left.
    + rewrite skipn_app, skipn_all, Nat.sub_diag. cbn [app skipn]. rewrite flat_map_concat_map, map_map. unfold lines_text. rewrite flat_map_concat_map, map_map. f_equal. apply map_ext. intros n.
      rewrite words_text. cbn [rec_name rec_result rec_dur fst snd]. unfold begin_text. now rewrite <- !app_assoc.
  - assert (SK : map key (skipn (length (k_recs y)) (k_shown y)) = match cur with Some x => [x] | None => [] end).
    { rewrite LEN, <- skipn_map, SH, skipn_app, skipn_all, Nat.sub_diag. reflexivity. }
    destruct (skipn (length (k_recs y)) (k_shown y)) as [|s sk] eqn:ES.
    + left. destruct cur as [x'|]; [discriminate SK|]. split; [reflexivity|exact PART].
    + right. destruct cur as [[n a]|]; [|discriminate SK]. assert (SK1 := f_equal (fun l => hd (key s) l) SK). cbn [map hd] in SK1. specialize (SA n a eq_refl). subst a.
      assert (Hs : In s (k_shown y)) by (rewrite <- (firstn_skipn (length (k_recs y)) (k_shown y)), ES; apply in_or_app; right; now left).
      pose proof (BLOCK s Hs) as B. rewrite SK1 in B. cbn [fst snd] in B. exists n, (review_text sh c (res n) (k_answers y)). rewrite EX. destruct (k_cut y) as [[lf|]|].
      * destruct PART as [tl PART]. exists tl. split; [reflexivity|]. split; [apply review_dialog|]. split; [now rewrite <- B|now left].
      * exists (if verbose sh then [NL] else []). split; [reflexivity|]. split; [apply review_dialog|]. split; [now rewrite <- B|right; now split].
      * destruct WHY as [X _]. discriminate X.
  - unfold notice. destruct (k_cut y) as [[lf|]|]; [right|now left|now left]. split; [reflexivity|]. destruct LF as (L1 & L2 & L3). exists lf. split; [|split; [exact L1|split; [|split]]].
    + unfold lines_text. rewrite !flat_map_concat_map, map_map. f_equal. apply map_ext. intros n. now rewrite <- !app_assoc.
    + intros n Hn. now apply L2.
    + intros n Hn. now apply L2.
    + intros n Hn NI. destruct (in_dec (list_eq_dec N.eq_dec) n lf) as [X|X]; [exact X|]. elim NI. now apply L3.
Qed.
Print Assumptions C129_asking_prints.

(** ** Examples *)
Notation demo_print answers ctrl_c x text :=
  (ask_run_out ascii_class no_float demo_E demo_O (ask_conf false false false) demo_using (fun _ : unit => lit "7") (fun _ => Some tt) (fun c => N.eqb c SP) (fun _ => lit "7") dec (shown_demo false false)
    (fun _ => tt) demo_two (fun n => n) (fun n => n) (lit "12") demo_deps demo_two answers demo_f0 ctrl_c x text).

(** Ctrl-C while the second test runs *)
Example C129_example_interrupted : exists x text, demo_print [] true x text /\
  text = lines_text [[]; lit "# test results:"; []; lit "  t/a..7 ms"; lit "  t/b..interrupted"; []; lit "1/1 test succeeded in 12 ms"; []].
Proof.
  pose (c := ask_conf false false false). pose (pd := fun _ : str => Some tt). pose (sd := fun _ : unit => lit "7"). pose (spc := fun k => N.eqb k SP).
  pose (f0 := par_prepare demo_O c sd pd spc demo_two demo_f0).
  destruct (turn demo_E demo_O c pd spc demo_two (metrics_json (lit "12")) demo_deps demo_two demo_worker [] f0 [] [] [] true [] (lit "t/a") (demo_worker (lit "t/a")) (lit "t/a", OK, tt)) as (st1 & E1 & S1 & T1).
  { now left. }
  { intros []. }
  { intros []. }
  { intros d Hd. vm_compute in Hd. destruct Hd. }
  { reflexivity. }
  { vm_compute. reflexivity. }
  match type of T1 with ask_steps _ _ _ _ _ _ _ _ _ _ ?y => let z := eval cbn [k_shown app] in (k_shown y) in pose (sh1 := z); change (k_shown y) with sh1 in T1 end.
  set (f1 := fst (solo (ask_proc _ _ _ _ _ _) _)) in T1.
  set (o1 := snd (solo (ask_proc _ _ _ _ _ _) _)) in T1. assert (O1 : o1 = Value (OK, NONE, [])) by (vm_compute; reflexivity). rewrite O1 in T1.
  do 2 eexists. split.
  - do 2 eexists. split; [eapply steps_trans; [exact T1|]; eapply steps_trans; [apply steps_one, KReviewed|]; eapply steps_trans; [apply steps_one, (KInterrupt _ _ _ _ _ _ _ _ _ _ _ _ _ _ _ _ _ _ _ _ [lit "t/b"])|]; [repeat constructor; intros []| |]|].
    + intros n. split; [intros [<-|[]]; split; [right; now left|intros [X|[]]; discriminate X]|]. intros [[<-|[<-|[]]] Y]; [elim Y; now left|now left].
    + apply steps_one, KLeave. now left.
    + cbn [k_end k_sched k_st k_cut k_fs k_ok k_recs]. split; [reflexivity|]. split; [intros n [<-|[]]; exact E1|]. split; [reflexivity|]. split; [reflexivity|].
      exists []. cbn [k_shown k_recs k_cut]. split; [reflexivity|]. reflexivity.
  - vm_compute. reflexivity.
Qed.

(** A tool that is not defined, then the output is accepted. *)
Example C129_example_answers : exists x text, demo_print [lit "v"; lit "a"] false x text /\
  text = lines_text [[]; lit "# test results:"; []; lit "  t/a..7 ms"; lit "  t/b..DIFFERED in 7 ms";
    lit "    (a)ccept, (c)ontinue, (q)uit, (v)iew, (l)ogs, (d)iff or fast (D)iffmd_viewer is not defined.";
    lit "please define it in .booktest file or as env variable BOOKTEST_MD_VIEWER";
    lit "    (a)ccept, (c)ontinue, (q)uit, (v)iew, (l)ogs, (d)iff or fast (D)iff"; lit "2/2 test succeeded in 12 ms"; []].
Proof.
  pose (c := ask_conf false false false). pose (pd := fun _ : str => Some tt). pose (sd := fun _ : unit => lit "7"). pose (spc := fun k => N.eqb k SP).
  pose (f0 := par_prepare demo_O c sd pd spc demo_two demo_f0). pose (ans := [lit "v"; lit "a"]).
  destruct (turn demo_E demo_O c pd spc demo_two (metrics_json (lit "12")) demo_deps demo_two demo_worker [] f0 [] [] [] true ans (lit "t/a") (demo_worker (lit "t/a")) (lit "t/a", OK, tt)) as (st1 & E1 & S1 & T1).
  { now left. }
  { intros []. }
  { intros []. }
  { intros d Hd. vm_compute in Hd. destruct Hd. }
  { reflexivity. }
  { vm_compute. reflexivity. }
  match type of T1 with ask_steps _ _ _ _ _ _ _ _ _ _ ?y => let z := eval cbn [k_shown app] in (k_shown y) in pose (sh1 := z) end.
  set (f1 := fst (solo (ask_proc _ _ _ _ _ _) _)) in T1.
  set (o1 := snd (solo (ask_proc _ _ _ _ _ _) _)) in T1. assert (O1 : o1 = Value (OK, NONE, ans)) by (vm_compute; reflexivity). rewrite O1 in T1.
  destruct (turn demo_E demo_O c pd spc demo_two (metrics_json (lit "12")) demo_deps demo_two st1 [lit "t/a"] f1 [lit "t/a"] sh1 [(lit "t/a", OK, tt)] true ans (lit "t/b") (demo_worker (lit "t/b")) (lit "t/b", DIFF, tt)) as (st2 & E2 & S2 & T2).
  { right. now left. }
  { intros [X|[]]; discriminate X. }
  { intros [X|[]]; discriminate X. }
  { intros d Hd _. vm_compute in Hd. destruct Hd as [<-|[]]. now left. }
  { rewrite S1; [reflexivity|discriminate]. }
  { vm_compute. reflexivity. }
  set (f2 := fst (solo (ask_proc _ _ _ _ _ _) _)) in T2.
  set (o2 := snd (solo (ask_proc _ _ _ _ _ _) _)) in T2. assert (O2 : o2 = Value (OK, FREEZE, [])) by (vm_compute; reflexivity). rewrite O2 in T2.
  do 2 eexists. split.
  - do 2 eexists. split; [eapply steps_trans; [exact T1|]; eapply steps_trans; [apply steps_one, KReviewed|]; eapply steps_trans; [exact T2|]; eapply steps_trans; [apply steps_one, KReviewed|]; apply steps_one, KLeave|].
    + right. right. split; [reflexivity|]. intros n [<-|[<-|[]]]; [right; now left|now left].
    + cbn [k_end k_sched k_st k_cut k_fs k_ok k_recs]. split; [reflexivity|]. split; [intros n [<-|[<-|[]]]; [exact E2|rewrite S2; [exact E1|discriminate]]|]. split; [reflexivity|]. split; [reflexivity|].
      exists []. cbn [k_shown k_recs k_cut]. split; [reflexivity|]. reflexivity.
  - vm_compute. reflexivity.
Qed.
