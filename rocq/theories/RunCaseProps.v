(** Whole runs on the file system (booktest/testrun.py, testcaserun.py, review.py, reports.py, index.py together). *)
From Verif Require Import RunCaseProofs RunnerProofs PyStrFacts CaseRunFacts CaseRunLines CaseRunProps RepeatModel RepeatProofs RepeatProps CheckedModel CheckedProps PointProofs TokenizerProps.
From Coq Require Import Lia.

(** ** A run without -a and -u *)
(** [x], run from [f], changes only files in [W] *)
Definition changes_only {A} (W : str -> Prop) (f : fs) (x : io A) : Prop := forall p, ~ W p -> lookup p (fs_of x) = lookup p f.

Lemma co_ret {A} W f (a : A) : changes_only W f (Ret a f).
Proof. intros p _. reflexivity. Qed.
Lemma co_raise {A} W f : changes_only W f (@Raise A f).
Proof. intros p _. reflexivity. Qed.
Lemma co_bind {A B} W f (x : io A) (k : A -> fs -> io B) :
  changes_only W f x -> (forall a g, changes_only W g (k a g)) -> changes_only W f (io_bind x k).
Proof. intros H1 H2 p N. destruct x as [a g|g]; cbn [io_bind]; [rewrite (H2 a g p N)|]; exact (H1 p N). Qed.
Lemma co_write (W : str -> Prop) f q t : W q -> forall p, ~ W p -> lookup p (write_file q t f) = lookup p f.
Proof. intros H p N. rewrite lookup_write. destruct (str_eqb_spec q p) as [<-|_]; [contradiction|reflexivity]. Qed.
Lemma co_purge (W : str -> Prop) d f : (forall p, below d p = true -> W p) -> changes_only W f (purge d f).
Proof.
  intros H p N. unfold purge, rmtree. destruct (path_exists d f); [|reflexivity]. destruct (is_dir d f); [|reflexivity]. cbn [fs_of]. rewrite lookup_purged.
  destruct (below d p) eqn:B; [|reflexivity]. exfalso. auto.
Qed.
Lemma co_open (W : str -> Prop) d f : W d -> changes_only W f (open_w d f).
Proof. intros H p N. unfold open_w. destruct (is_dir d f); [reflexivity|]. cbn [fs_of]. now apply (co_write W). Qed.
Lemma co_write_below (W : str -> Prop) d files : (forall p, below d p = true -> W p) -> forall f p, ~ W p -> lookup p (write_below d files f) = lookup p f.
Proof. intros H f p N. apply lookup_write_below_out. destruct (below d p) eqn:B; [|reflexivity]. exfalso. auto. Qed.

Lemma add_ok rv res : add_result rv res = OK -> rv = OK /\ res = OK.
Proof. destruct rv, res; cbn; auto; discriminate. Qed.
Lemma path_join_name d x : plain_dir d -> starts_with [SLASH] x = false -> path_join d x = d ++ SLASH :: x.
Proof. intros [D1 D2] H. now apply path_join_plain. Qed.

Lemma run_not_ok cc refloat E O c body {D : Type} (show_dur : D -> str) dur todo : forall rv fails recs answers f rv' recs' rest g, rv <> OK ->
  run_todo cc refloat E O O c body show_dur dur todo rv fails recs answers f = Some (Ret (rv', recs', rest) g) -> rv' <> OK.
Proof.
  induction todo as [|n todo IH]; intros rv fails recs answers f rv' recs' rest g N H; cbn [run_todo] in H; [now injection H as <- _ _ _|].
  destruct (run_case _ _ _ _ _ _ n answers f) as [[[[res req] a1] f1|f1]|]; cbn [run_bind] in H; [|discriminate|discriminate].
  assert (N' : add_result rv res <> OK) by (intros X; apply add_ok in X as [X _]; contradiction).
  destruct (is_abort req || _); [injection H as <- _ _ _; exact N'|]. eapply IH; [|exact H]. exact N'.
Qed.

Section Plain.
Variable cc : CharClass.
Variable refloat : str -> option str.
Variables E O : str.
Hypothesis HE : plain_dir E.
Hypothesis HO : plain_dir O.
Variable c : config.
Hypothesis HB : batch c.
Hypothesis HA : accept c = false /\ update c = false.
Variable body : str -> fs -> body_run.
Let W (p : str) : Prop := below O p = true.

Lemma W_case n x p : path_prefix (O ++ SLASH :: n ++ x) p -> W p.
Proof.
  intros H. apply prefix_split in H as (t & _ & ->). apply below_iff. exists ((n ++ x) ++ t). now rewrite <- app_assoc.
Qed.

Lemma no_auto v : auto c v = false.
Proof. destruct HA, v; auto. Qed.

Lemma start_changes n f : proper n -> changes_only W f (case_start E O n f).
Proof.
  intros P. unfold case_start. rewrite !(case_path_eq O) by (exact HO || exact P).
  apply co_bind; [apply co_purge; intros p B; apply (W_case n []); now apply prefix_below|]. intros _ g1.
  apply co_bind; [apply co_purge; intros p B; apply (W_case n (lit ".tmp")); now apply prefix_below|]. intros _ g2.
  apply co_bind; [apply co_open, (W_case n (lit ".md")), prefix_refl|]. intros _ g3.
  apply co_bind; [apply co_open, (W_case n (lit ".txt")), prefix_refl|]. intros _ g4.
  apply co_bind; [apply co_open, (W_case n (lit ".log")), prefix_refl|]. intros _ g5.
  destruct (path_exists _ f); [|apply co_ret]. destruct (lookup _ g5); [apply co_ret|apply co_raise].
Qed.

Lemma files_change n b s f : proper n -> forall p, ~ W p -> lookup p (case_files O n b s f) = lookup p f.
Proof.
  intros P p N. unfold case_files. rewrite !(case_path_eq O) by (exact HO || exact P).
  rewrite (co_write W _ _ _ (W_case n (lit ".txt") _ (prefix_refl _)) p N).
  rewrite (co_write W _ _ _ (W_case n (lit ".md") _ (prefix_refl _)) p N).
  rewrite (co_write W _ _ _ (W_case n (lit ".log") _ (prefix_refl _)) p N).
  rewrite (co_write_below W) by (exact N || intros q B; apply (W_case n (lit ".tmp")); now apply prefix_below).
  apply (co_write_below W); [|exact N]. intros q B. apply (W_case n []). now apply prefix_below.
Qed.

Lemma save_changes n v f : proper n -> changes_only W f (save_value O n v f).
Proof.
  intros P. unfold save_value. replace (path_join O (n ++ lit ".bin")) with (O ++ SLASH :: n ++ lit ".bin").
  2: { symmetry. apply path_join_plain; try apply HO. pose proof (proper_start n P) as X. pose proof (proper_nonempty n P). destruct n; [easy|exact X]. }
  assert (X : W (O ++ SLASH :: n ++ lit ".bin")) by (apply (W_case n (lit ".bin")), prefix_refl).
  destruct v as [t|].
  - destruct (is_dir _ f); [apply co_raise|]. intros p N. now apply (co_write W).
  - destruct (path_exists _ f); [|apply co_ret]. destruct (is_file _ f); [|apply co_raise]. intros p N. cbn [fs_of]. rewrite lookup_remove.
    destruct (str_eqb_spec (O ++ SLASH :: n ++ lit ".bin") p) as [<-|_]; [contradiction|reflexivity].
Qed.

(** a case that returns: what was compared, and what changed *)
Lemma plain_case n answers f x : proper n -> run_case cc refloat E O c body n answers f = Some x ->
  changes_only W f x /\
  forall res req rest g, x = Ret (res, req, rest) g -> req = NONE /\ exists f1 snapshot s,
    case_start E O n f = Ret snapshot f1 /\ run_body cc refloat snapshot (point_error_pos c) (all_ops (body n f1)) = Some s /\
    res = verdict (path_exists (E ++ SLASH :: n ++ lit ".md") (case_files O n (body n f1) s f1)) s.
Proof.
  intros P H. unfold run_case in H. pose proof (start_changes n f P) as SC. destruct (case_start E O n f) as [snapshot f1|f1] eqn:S; cbn [run_bind] in H.
  2: { injection H as <-. split; [exact SC|]. intros. discriminate. }
  destruct (run_body _ _ _ _ _) as [s|] eqn:RB in H; [|discriminate]. rewrite (case_path_eq E) in H by (exact HE || exact P). set (v := verdict _ s) in H.
  rewrite base_review in H by (exact HE || exact HO || exact P). rewrite batch_review in H by exact HB. rewrite no_auto in H. cbn [run_bind] in H.
  set (f2 := case_files O n (body n f1) s f1) in *.
  assert (F2 : forall p, ~ W p -> lookup p f2 = lookup p f).
  { intros p N. unfold f2. rewrite files_change by assumption. exact (SC p N). }
  assert (X : exists y, x = y /\ (y = Ret (v, NONE, answers) f2 \/ y = io_bind (save_value O n (match b_exc (body n f1) with Some _ => None | None => b_value (body n f1) end) f2)
     (fun _ f4 => Ret (v, NONE, answers) f4))).
  { destruct v; injection H as <-; eexists; (split; [reflexivity|auto]). }
  destruct X as (y & -> & HX). split.
  - destruct HX as [->| ->]; [exact F2|]. intros p N. rewrite <- (F2 p N).
    refine (co_bind W f2 _ _ _ _ p N); [now apply save_changes|]. intros. apply co_ret.
  - intros res req rest g Ey. assert (Z : res = v /\ req = NONE).
    { destruct HX as [->| ->]; [now injection Ey|]. destruct (save_value _ _ _ _); cbn [io_bind] in Ey; [now injection Ey|discriminate]. }
    destruct Z as [-> ->]. split; [reflexivity|]. exists f1, snapshot, s. auto.
Qed.

Context {D : Type} (show_dur : D -> str) (parse_dur : str -> option D) (sp : char -> bool) (dur : str -> D).

Lemma W_report : W (report_file O).
Proof. unfold report_file. rewrite path_join_name by (exact HO || reflexivity). apply below_iff. eauto. Qed.

Lemma plain_todo todo : Forall proper todo -> forall rv fails recs answers f x,
  run_todo cc refloat E O O c body show_dur dur todo rv fails recs answers f = Some x ->
  changes_only W f x /\
  forall rv' recs' rest g, x = Ret (rv', recs', rest) g -> rv' = OK -> fails = false -> rv = OK /\
    forall n, In n todo -> exists f0 a a' g0, (forall p, ~ W p -> lookup p f0 = lookup p f) /\
      run_case cc refloat E O c body n a f0 = Some (Ret (OK, NONE, a') g0).
Proof.
  induction 1 as [|n todo P PS IH]; intros rv fails recs answers f x H; cbn [run_todo] in H.
  - injection H as <-. split; [apply co_ret|]. intros rv' recs' rest g Ex Erv EF. injection Ex as -> _ _ _. split; [exact Erv|]. intros n [].
  - destruct (run_case _ _ _ _ _ _ n answers f) as [y|] eqn:RC; [|discriminate]. cbn [run_bind] in H.
    destruct (plain_case n answers f y P RC) as [CY RY]. destruct y as [[[res req] a1] f1|f1].
    2: { injection H as <-. split; [exact CY|]. intros. discriminate. }
    destruct (RY res req a1 f1 eq_refl) as [-> _]. cbn [is_abort orb] in H.
    set (f2 := write_file (report_file O) (report_text show_dur (recs ++ [(n, res, dur n)])) f1) in *.
    assert (F2 : forall p, ~ W p -> lookup p f2 = lookup p f).
    { intros p N. unfold f2. rewrite (co_write W _ _ _ W_report p N). exact (CY p N). }
    destruct (fail_fast c && (fails || negb (is_ok res))) eqn:FF.
    + injection H as <-. split; [exact F2|]. intros rv' recs' rest g Ex Erv EF. injection Ex as Ex _ _ _. rewrite <- Ex in Erv. apply add_ok in Erv as [_ ->]. subst fails.
      rewrite andb_false_r in FF. discriminate.
    + destruct (IH _ _ _ _ _ _ H) as [CX RX]. split.
      * intros p N. rewrite (CX p N). exact (F2 p N).
      * intros rv' recs' rest g -> Erv ->. cbn [orb] in *.
        destruct (is_ok res) eqn:OKR.
        -- destruct (RX rv' recs' rest g eq_refl Erv eq_refl) as [A1 A2]. apply add_ok in A1 as [A1 ->]. split; [exact A1|].
           intros m [<-|Hm]; [exists f, answers, a1, f1; auto|]. destruct (A2 m Hm) as (f0 & a & a' & g0 & K & R). exists f0, a, a', g0. split; [|exact R].
           intros p N. rewrite (K p N). exact (F2 p N).
        -- exfalso. apply run_not_ok in H; [contradiction|]. intros X. apply add_ok in X as [_ ->]. discriminate.
Qed.

Variables (all_names : list str) (metrics : str).

Lemma plain_run selected answers f x : Forall proper selected ->
  run_async cc refloat E O O c body show_dur parse_dur sp dur all_names metrics selected answers f = Some x ->
  (forall p, ~ W p -> p <> E ++ SLASH :: lit "index.md" -> lookup p (fs_of x) = lookup p f) /\
  forall recs' rest g, x = Ret (OK, recs', rest) g -> cont c = false ->
    forall n, In n selected -> exists f0 a a' g0, (forall p, ~ W p -> lookup p f0 = lookup p f) /\
      run_case cc refloat E O c body n a f0 = Some (Ret (OK, NONE, a') g0).
Proof.
  intros P H. unfold run_async in H. set (old := of_file _ _ _) in H. set (todo := snd _) in H.
  assert (PT : Forall proper todo).
  { rewrite Forall_forall in *. intros n Hn. apply P. unfold todo in Hn. now apply todo_incl in Hn. }
  destruct (run_todo _ _ _ _ _ _ _ _ _ _ _ _ _ _ _) as [y|] eqn:RT in H; [|discriminate]. cbn [run_bind] in H.
  destruct (plain_todo todo PT _ _ _ _ _ _ RT) as [CY RY].
  assert (F0 : forall p, ~ W p -> lookup p (write_file (report_file O) (report_text show_dur (kept old todo)) f) = lookup p f) by (intros p N; exact (co_write W _ _ _ W_report p N)).
  assert (CY' : forall p, ~ W p -> lookup p (fs_of y) = lookup p f) by (intros p N; rewrite (CY p N); exact (F0 p N)).
  split.
  - intros p N NI. destruct y as [a f1|f1]; injection H as <-; cbn [fs_of] in *; [|now apply CY'].
    rewrite (path_join_name E) by (exact HE || reflexivity). rewrite (path_join_name O) by (exact HO || reflexivity). rewrite !lookup_write.
    destruct (str_eqb_spec (E ++ SLASH :: lit "index.md") p) as [<-|_]; [easy|].
    destruct (str_eqb_spec (O ++ SLASH :: lit "metrics.json") p) as [<-|_]; [|now apply CY']. exfalso. apply N. apply below_iff. eauto.
  - intros recs' rest g -> HC n Hn. destruct y as [[[rv' recs''] rest'] f1|f1]; [|discriminate]. injection H as -> _ _ _.
    destruct (RY OK _ _ _ eq_refl eq_refl eq_refl) as [_ A]. destruct (A n) as (f0 & a & a' & g0 & K & R).
    { unfold todo, cases_to_done_and_todo. rewrite HC. exact Hn. }
    exists f0, a, a', g0. split; [|exact R]. intros p N. rewrite (K p N). exact (F0 p N).
Qed.
End Plain.

(** C75. A run without -a, -u and -i, whether it ends normally or with an exception, changes no file outside the output
    directory, except the index. *)
Theorem C75_plain_run_only_writes_outputs :
  forall cc refloat E O c body (D : Type) (show_dur : D -> str) parse_dur sp dur all_names metrics selected answers f x,
  plain_dir E -> plain_dir O -> batch c -> accept c = false -> update c = false -> Forall proper selected ->
  run_async cc refloat E O O c body show_dur parse_dur sp dur all_names metrics selected answers f = Some x ->
  forall p, below O p = false -> p <> E ++ SLASH :: lit "index.md" -> lookup p (fs_of x) = lookup p f.
Proof.
  intros cc refloat E O c body D show_dur parse_dur sp dur all_names metrics selected answers f x HE HO HB HA HU P H p N NI.
  destruct (plain_run cc refloat E O HE HO c HB (conj HA HU) body show_dur parse_dur sp dur all_names metrics selected answers f x P H) as [X _].
  apply X; [|exact NI]. intros Y. congruence.
Qed.
Print Assumptions C75_plain_run_only_writes_outputs.

(** C76. If such a run, not continuing an earlier one, ends with OK (exit code 0), then every selected test had a snapshot when
    the run began, the calls of the test were made against that snapshot, and there was neither a difference nor an error. *)
Theorem C76_green_run_compared :
  forall cc refloat E O c body (D : Type) (show_dur : D -> str) parse_dur sp dur all_names metrics selected answers f recs rest g n,
  plain_dir E -> plain_dir O -> batch c -> accept c = false -> update c = false -> cont c = false -> Forall proper selected ->
  run_async cc refloat E O O c body show_dur parse_dur sp dur all_names metrics selected answers f = Some (Ret (OK, recs, rest) g) ->
  In n selected -> ~ path_prefix O (E ++ SLASH :: n ++ lit ".md") -> ~ path_prefix (E ++ SLASH :: n ++ lit ".md") O ->
  exists f1 t s, lookup (E ++ SLASH :: n ++ lit ".md") f = Some t /\
    run_body cc refloat (Some t) (point_error_pos c) (all_ops (body n f1)) = Some s /\
    errors s = 0 /\ diffs s = 0 /\ verdict true s = OK.
Proof.
  intros cc refloat E O c body D show_dur parse_dur sp dur all_names metrics selected answers f recs rest g n HE HO HB HA HU HC P H Hn Hb1 Hb2.
  destruct (plain_run cc refloat E O HE HO c HB (conj HA HU) body show_dur parse_dur sp dur all_names metrics selected answers f _ P H) as [_ X].
  destruct (X recs rest g eq_refl HC n Hn) as (f0 & a & a' & g0 & K & R). rewrite Forall_forall in P. specialize (P n Hn).
  destruct (plain_case cc refloat E O HE HO c HB (conj HA HU) body n a f0 _ P R) as [_ Y]. destruct (Y _ _ _ _ eq_refl) as (_ & f1 & snapshot & s & S & RB & V).
  assert (NW : ~ below O (E ++ SLASH :: n ++ lit ".md") = true) by (intros X1; apply Hb1; now apply prefix_below).
  pose proof (start_changes E O HO n f0 P) as SC0. rewrite S in SC0. pose proof (SC0 _ NW) as SC. cbn [fs_of] in SC.
  assert (SAME : path_exists (E ++ SLASH :: n ++ lit ".md") (case_files O n (body n f1) s f1) = path_exists (E ++ SLASH :: n ++ lit ".md") f0).
  { unfold path_exists. f_equal.
    - unfold is_file. now rewrite (files_change O HO n _ _ _ P _ NW), SC.
    - apply is_dir_ext. intros p B. assert (NP : ~ below O p = true).
      { intros X1. apply below_iff in B as [r ->]. apply below_iff in X1 as [q X1]. apply app_slash_inv in X1 as [X1|X1]; contradiction. }
      rewrite (files_change O HO n _ _ _ P _ NP). exact (SC0 _ NP). }
  symmetry in V. unfold verdict in V. destruct (Nat.eqb_spec (errors s) 0) as [E0|]; [|discriminate]. destruct (Nat.eqb_spec (diffs s) 0) as [D0|]; [|discriminate].
  cbn [negb orb] in V. destruct (path_exists _ _) eqn:PE in V; [|discriminate]. clear V.
  assert (HS : exists t, snapshot = Some t /\ lookup (E ++ SLASH :: n ++ lit ".md") f0 = Some t).
  { rewrite SAME in PE. clear - S SC PE HE HO P NW. unfold case_start in S. rewrite !(case_path_eq O) in S by (exact HO || exact P). rewrite (case_path_eq E) in S by (exact HE || exact P).
    set (existed := path_exists (E ++ SLASH :: n ++ lit ".md") f0) in *.
    destruct (purge _ f0) as [[] g1|]; [|discriminate]. cbn [io_bind] in S. destruct (purge _ g1) as [[] g2|]; [|discriminate]. cbn [io_bind] in S.
    destruct (open_w _ g2) as [[] g3|]; [|discriminate]. cbn [io_bind] in S. destruct (open_w _ g3) as [[] g4|]; [|discriminate]. cbn [io_bind] in S.
    destruct (open_w _ g4) as [[] g5|]; [|discriminate]. cbn [io_bind] in S. destruct existed eqn:EX.
    - destruct (lookup _ g5) as [t|] eqn:L; [|discriminate]. injection S as <- <-. exists t. split; [reflexivity|]. rewrite <- SC. exact L.
    - unfold existed in EX. congruence. }
  destruct HS as (t & -> & L). exists f1, t, s. rewrite <- (K _ NW). split; [exact L|]. split; [exact RB|]. split; [exact E0|]. split; [exact D0|].
  unfold verdict. now rewrite E0, D0.
Qed.
Print Assumptions C76_green_run_compared.

(** ** Accepting *)
Section Green.
Variable cc : CharClass.
Hypothesis TOK : TokClassOK cc.
Variable refloat : str -> option str.
Variables (E o : str).
Hypothesis HE : plain_dir E.
Hypothesis Ho : plain o.
Hypothesis Hdot : starts_with [DOT] o = true.
Notation O := (E ++ SLASH :: o).
Variable body : str -> fs -> body_run.
Variable b : str -> body_run.
Variable names : list str.
Hypothesis Hnames : separate names.
Hypothesis Hbody : forall n f, In n names -> body n f = b n.
Hypothesis Hsteady : forall n, In n names -> steady cc (b n).

Definition snap (n : str) : str := E ++ SLASH :: n ++ lit ".md".
(** the snapshot of [n] is one that the test passes with *)
Definition passes (n : str) (f : fs) : Prop :=
  exists t, lookup (snap n) f = Some t /\ forall point, exists s, run_body cc refloat (Some t) point (b_ops (b n)) = Some s /\ verdict true s = OK.
Definition all_ready (f : fs) : Prop := forall n, In n names -> ready E O n f.

Lemma name_ok n : In n names -> case_name n.
Proof. intros H. destruct Hnames as [F _]. rewrite Forall_forall in F. auto. Qed.
Lemma ops_of n f : In n names -> all_ops (body n f) = b_ops (b n).
Proof. intros H. unfold all_ops. rewrite Hbody by exact H. destruct (Hsteady n H) as (-> & _). apply app_nil_r. Qed.

(** only the files of the case itself change *)
Lemma ran_other n m bb s fr res f h p : In n names -> In m names -> n <> m -> case_ran E O n bb s fr res f h -> own E o m p -> lookup p h = lookup p f.
Proof.
  intros Hn Hm N C H. apply (cr_rest _ _ _ _ _ _ _ _ _ C).
  - intros X. apply N. apply (own_disjoint E o Hdot names n m p); auto. apply case_file_own. now left.
  - intros X. apply N. apply (own_disjoint E o Hdot names n m p); auto. now right.
Qed.
Lemma own_snap n : own E o n (snap n).
Proof. apply (own_E E o n (lit ".md")); [unfold case_exts; cbn [In]; tauto|apply prefix_refl]. Qed.

Lemma passes_local n f g : (forall p, own E o n p -> lookup p f = lookup p g) -> passes n f -> passes n g.
Proof. intros H (t & L & R). exists t. rewrite <- (H _ (own_snap n)). auto. Qed.

(** the files that booktest itself writes belong to no case *)
Lemma special_not_own n p : case_name n -> In p [O ++ SLASH :: lit "cases.txt"; O ++ SLASH :: lit "metrics.json"; E ++ SLASH :: lit "index.md"] -> ~ own E o n p.
Proof.
  intros (P & D & N1 & N2) Hp. pose proof (proper_nonempty n P) as NE.
  assert (LAST : forall (q : list char) x t, In x case_exts -> t = [] \/ (exists r, t = SLASH :: r) -> ~ In SLASH q -> q = n ++ x ++ t -> q = n ++ x).
  { intros q x t _ [->|[r ->]] NS X; [now rewrite app_nil_r in X|]. exfalso. apply NS. rewrite X. apply in_or_app. right. apply in_or_app. right. now left. }
  assert (FIN : forall x, In x case_exts -> lit "cases.txt" <> n ++ x /\ lit "metrics.json" <> n ++ x /\ lit "index.md" <> n ++ x).
  { intros x Hx. assert (K : forall q : list char, q = n ++ x -> rev q = rev x ++ rev n) by (intros q ->; apply rev_app_distr).
    unfold case_exts in Hx. cbn [In] in Hx.
    destruct Hx as [<-|[<-|[<-|[<-|[<-|[<-|[]]]]]]]; (split; [|split]); intros X; try (apply K in X; vm_compute in X; discriminate X).
    1-3: rewrite app_nil_r in X; apply D; rewrite <- X; vm_compute; tauto.
    - apply N2. change (lit "index.md") with (lit "index" ++ lit ".md") in X. now apply app_inv_tail in X.
    - apply N1. change (lit "cases.txt") with (lit "cases" ++ lit ".txt") in X. now apply app_inv_tail in X. }
  assert (NS : ~ In SLASH (lit "cases.txt") /\ ~ In SLASH (lit "metrics.json") /\ ~ In SLASH (lit "index.md")) by (vm_compute; intuition discriminate).
  intros [(x & Hx & H)|(x & Hx & H)]; apply prefix_split in H as (t & HT & X); rewrite in_case in X.
  - destruct Hp as [<-|[<-|[<-|[]]]].
    + symmetry in X. revert X. now apply name_vs_out.
    + symmetry in X. revert X. now apply name_vs_out.
    + apply app_inv_head in X. injection X as X. apply (proj2 (proj2 (FIN x Hx))). eapply LAST; eauto. apply NS.
  - destruct Hp as [<-|[<-|[<-|[]]]].
    + apply app_inv_head in X. injection X as X. apply (proj1 (FIN x Hx)). eapply LAST; eauto. apply NS.
    + apply app_inv_head in X. injection X as X. apply (proj1 (proj2 (FIN x Hx))). eapply LAST; eauto. apply NS.
    + apply starts_with_iff in Hdot as [o' Eo]. rewrite Eo in X. rewrite <- app_assoc in X. apply app_inv_head in X. discriminate X.
Qed.
Lemma write_special n f p t q : In n names -> In p [O ++ SLASH :: lit "cases.txt"; O ++ SLASH :: lit "metrics.json"; E ++ SLASH :: lit "index.md"] ->
  own E o n q -> lookup q (write_file p t f) = lookup q f.
Proof.
  intros Hn Hp Hq. rewrite lookup_write. destruct (str_eqb_spec p q) as [<-|_]; [|reflexivity]. exfalso. revert Hq. apply special_not_own; [now apply name_ok|exact Hp].
Qed.

(** ** one case *)
Lemma accepted_passes n old point s : In n names -> run_body cc refloat old point (b_ops (b n)) = Some s ->
  forall point2, exists s2, run_body cc refloat (Some (out s)) point2 (b_ops (b n)) = Some s2 /\ verdict true s2 = OK.
Proof.
  intros Hn R point2. destruct (Hsteady n Hn) as (_ & HO & HCR & ts & HT & HW).
  destruct (run_body_written cc TOK refloat _ _ _ _ R) as (W & _ & _). pose proof (written_pieces cc _ [] _ HO W) as EQ. cbn [app] in EQ.
  destruct (C12_repeat_partial cc TOK refloat old point point2 _ ts s R) as (s2 & R2 & V & _); auto; [|eauto].
  intros X. apply HCR. rewrite <- EQ. apply in_or_app. now left.
Qed.

Lemma any_point file point ops s : run_body cc refloat file point ops = Some s -> verdict true s = OK ->
  forall point2, exists s2, run_body cc refloat file point2 ops = Some s2 /\ verdict true s2 = OK.
Proof. intros R V point2. destruct (run_point cc refloat file point point2 ops) as [r E2]. rewrite R in E2. exists (put point2 r s). auto. Qed.

(** the first run: a case whose result is OK passes from then on *)
Lemma case_to_pass c n answers f x g : batch c -> In n names -> ready E O n f ->
  run_case cc refloat E O c body n answers f = Some (Ret x g) -> fst (fst x) = OK ->
  snd (fst x) = NONE /\ snd x = answers /\ ready E O n g /\ passes n g /\ exists s fr, case_ran E O n (b n) s fr OK f g.
Proof.
  intros HB Hn R H HX. destruct (run_case_exact E o HE Ho Hdot cc refloat c body HB n answers f (name_ok n Hn) R) as (f1 & _ & K).
  rewrite ops_of in K by exact Hn. fold (snap n) in K.
  destruct (run_body cc refloat (lookup (snap n) f) (point_error_pos c) (b_ops (b n))) as [s|] eqn:RB; [|congruence].
  cbv zeta in K. set (v := verdict _ s) in K. destruct K as (h & RC & CR & RD). rewrite H in RC. injection RC as -> ->. cbn [fst snd] in HX |- *.
  split; [reflexivity|]. split; [reflexivity|]. split; [exact RD|]. rewrite HX in CR. rewrite Hbody in CR by exact Hn. split; [|eauto].
  pose proof (cr_snapshot _ _ _ _ _ _ _ _ _ CR) as SN. fold (snap n) in SN. destruct (auto c v) eqn:AU.
  - exists (out s). split; [exact SN|]. now apply (accepted_passes n (lookup (snap n) f) (point_error_pos c)).
  - unfold v in HX. destruct (lookup (snap n) f) as [t|] eqn:L.
    + exists t. split; [exact SN|]. now apply (any_point _ (point_error_pos c) _ s).
    + exfalso. unfold verdict in HX. destruct (Nat.eqb (errors s) 0), (Nat.eqb (diffs s) 0); cbn in HX; discriminate.
Qed.

(** the second run: a case that passes is OK and still passes afterwards *)
Lemma case_passes c n answers f : batch c -> In n names -> ready E O n f -> passes n f -> exists g s fr,
  run_case cc refloat E O c body n answers f = Some (Ret (OK, NONE, answers) g) /\ case_ran E O n (b n) s fr OK f g /\ ready E O n g /\ passes n g.
Proof.
  intros HB Hn R (t & L & PS). destruct (run_case_exact E o HE Ho Hdot cc refloat c body HB n answers f (name_ok n Hn) R) as (f1 & _ & K).
  rewrite ops_of in K by exact Hn. fold (snap n) in K. rewrite L in K. destruct (PS (point_error_pos c)) as (s & RB & V). rewrite RB in K. cbv zeta in K. rewrite V in K.
  destruct K as (h & RC & CR & RD). assert (X : (if auto c OK then OK else OK) = OK) by now destruct (auto c OK). rewrite X in *. rewrite Hbody in CR by exact Hn.
  exists h, s, (auto c OK). split; [exact RC|]. split; [exact CR|]. split; [exact RD|].
  pose proof (cr_snapshot _ _ _ _ _ _ _ _ _ CR) as SN. fold (snap n) in SN. destruct (auto c OK).
  - exists (out s). split; [exact SN|]. now apply (accepted_passes n (Some t) (point_error_pos c)).
  - exists t. rewrite SN. auto.
Qed.

(** ** many cases *)
Context {D : Type} (show_dur : D -> str) (parse_dur : str -> option D) (sp : char -> bool).

Lemma after_case n f g s fr res rep_text : In n names -> case_ran E O n (b n) s fr res f g -> ready E O n g ->
  all_ready f -> all_ready (write_file (report_file O) rep_text g) /\
  (forall m, In m names -> m <> n -> passes m f -> passes m (write_file (report_file O) rep_text g)) /\
  (passes n g -> passes n (write_file (report_file O) rep_text g)).
Proof.
  intros Hn CR RD AR. assert (RF : In (report_file O) [O ++ SLASH :: lit "cases.txt"; O ++ SLASH :: lit "metrics.json"; E ++ SLASH :: lit "index.md"]).
  { left. unfold report_file. symmetry. apply path_join_name; [now apply HO|reflexivity]. }
  assert (EQ : forall m p, In m names -> m <> n -> own E o m p -> lookup p f = lookup p (write_file (report_file O) rep_text g)).
  { intros m p Hm N OW. rewrite (write_special m) by assumption. symmetry. apply (ran_other n m (b n) s fr res f g p); auto. }
  split; [|split].
  - intros m Hm. destruct (list_eq_dec N.eq_dec m n) as [->|N].
    + apply (ready_local E o n g); [|exact RD]. intros p OW. symmetry. now apply (write_special n).
    + apply (ready_local E o m f); [|auto]. intros p OW. now apply (EQ m).
  - intros m Hm N. apply passes_local. intros p OW. now apply (EQ m).
  - apply passes_local. intros p OW. symmetry. now apply (write_special n).
Qed.

Lemma todo_to_pass c dur todo : batch c -> incl todo names -> forall rv fails recs answers f recs' rest g,
  fails = false -> all_ready f -> run_todo cc refloat E O O c body show_dur dur todo rv fails recs answers f = Some (Ret (OK, recs', rest) g) ->
  all_ready g /\ (forall n, In n names -> In n todo \/ passes n f -> passes n g).
Proof.
  intros HB. induction todo as [|n todo IH]; intros IN rv fails recs answers f recs' rest g HF AR H; cbn [run_todo] in H.
  - injection H as _ _ _ <-. split; [exact AR|]. intros n _ [[]|X]; exact X.
  - assert (Hn : In n names) by (apply IN; now left). destruct (run_case _ _ _ _ _ _ n answers f) as [[x f1|f1]|] eqn:RC; [|discriminate|discriminate].
    cbn [run_bind] in H. destruct x as [[res req] a1].
    assert (RES : res = OK).
    { destruct res; [reflexivity| |]; exfalso; destruct (is_abort req || _) in H.
      1,3: injection H as H _ _ _; destruct rv; discriminate.
      1,2: apply (run_not_ok cc refloat E O c body show_dur dur) in H; [now apply H|]; intros X; apply add_ok in X as [_ X]; discriminate. }
    subst res. destruct (case_to_pass c n answers f _ f1 HB Hn (AR n Hn) RC eq_refl) as (E1 & E2 & RD & PS & s & fr & CR). cbn [fst snd] in E1, E2. subst req a1 fails.
    cbn [is_abort is_ok negb orb] in H. rewrite andb_false_r in H.
    destruct (after_case n f f1 s fr OK (report_text show_dur (recs ++ [(n, OK, dur n)])) Hn CR RD AR) as (AR2 & P1 & P2).
    destruct (IH ltac:(intros m Hm; apply IN; now right) _ _ _ _ _ _ _ _ eq_refl AR2 H) as [AG PG]. split; [exact AG|].
    intros m Hm HH. apply (PG m Hm). destruct (list_eq_dec N.eq_dec m n) as [->|N]; [right; auto|].
    destruct HH as [[X|X]|X]; [now elim N|now left|right; auto].
Qed.

Lemma todo_passes c dur todo : batch c -> incl todo names -> forall rv recs answers f,
  all_ready f -> (forall n, In n names -> passes n f) -> exists recs' g,
  run_todo cc refloat E O O c body show_dur dur todo rv false recs answers f = Some (Ret (rv, recs', answers) g) /\
  recs' = recs ++ map (fun n => (n, OK, dur n)) todo /\ all_ready g /\ (forall n, In n names -> passes n g).
Proof.
  intros HB. induction todo as [|n todo IH]; intros IN rv recs answers f AR AP; cbn [run_todo].
  - exists recs, f. split; [reflexivity|]. split; [now rewrite app_nil_r|auto].
  - assert (Hn : In n names) by (apply IN; now left). destruct (case_passes c n answers f HB Hn (AR n Hn) (AP n Hn)) as (f1 & s & fr & RC & CR & RD & PS).
    rewrite RC. cbn [run_bind is_abort is_ok negb orb add_result]. rewrite andb_false_r.
    destruct (after_case n f f1 s fr OK (report_text show_dur (recs ++ [(n, OK, dur n)])) Hn CR RD AR) as (AR2 & P1 & P2).
    destruct (IH ltac:(intros m Hm; apply IN; now right) rv (recs ++ [(n, OK, dur n)]) answers _ AR2) as (recs' & g & RT & ER & AG & PG).
    { intros m Hm. destruct (list_eq_dec N.eq_dec m n) as [->|N]; auto. }
    exists recs', g. split; [exact RT|]. split; [|auto]. rewrite ER, <- app_assoc. reflexivity.
Qed.
End Green.

(** ** Two runs side by side *)
Section Same.
Variable cc : CharClass.
Variable refloat : str -> option str.
Variables (E o : str).
Hypothesis HE : plain_dir E.
Hypothesis Ho : plain o.
Hypothesis Hdot : starts_with [DOT] o = true.
Notation O := (E ++ SLASH :: o).
Variable body : str -> fs -> body_run.
Variable b : str -> body_run.
Variable names : list str.
Hypothesis Hnames : separate names.
Hypothesis Hbody : forall n f, In n names -> body n f = b n.
Variable c : config.
Hypothesis HB : batch c.

Record sim (done : str -> Prop) (f g : fs) : Prop := {
  sim_rf : forall n, In n names -> ready E O n f;
  sim_rg : forall n, In n names -> ready E O n g;
  sim_snap : forall n, In n names -> lookup (snap E n) f = lookup (snap E n) g;
  sim_out : forall n, In n names -> done n -> same_out O n f g
}.

Lemma same_out_local n f g f' g' : (forall p, own E o n p -> lookup p f' = lookup p f) -> (forall p, own E o n p -> lookup p g' = lookup p g) ->
  same_out O n f g -> same_out O n f' g'.
Proof.
  intros HF HG (S1 & S2 & S3). assert (OW : forall x t, In x case_exts -> (t = [] \/ exists r, t = SLASH :: r) -> own E o n (O ++ SLASH :: n ++ x ++ t)).
  { intros x t Hx HT. apply (own_O E o n x); [exact Hx|]. rewrite <- in_case. destruct HT as [->|[r ->]]; [left; now rewrite app_nil_r|right; eauto]. }
  split; [|split].
  - intros x Hx. assert (X : own E o n (O ++ SLASH :: n ++ x)).
    { rewrite <- (app_nil_r x). apply OW; [|now left]. unfold case_exts. destruct Hx as [<-|[<-|[<-|[]]]]; cbn [In]; tauto. }
    rewrite (HF _ X), (HG _ X). auto.
  - intros r. assert (X : own E o n (O ++ SLASH :: n ++ SLASH :: r)).
    { apply (OW [] (SLASH :: r)); [unfold case_exts; cbn [In]; tauto|eauto]. }
    rewrite (HF _ X), (HG _ X). auto.
  - intros r. assert (X : own E o n (O ++ SLASH :: n ++ lit ".tmp" ++ SLASH :: r)).
    { apply OW; [unfold case_exts; cbn [In]; tauto|eauto]. }
    rewrite (HF _ X), (HG _ X). auto.
Qed.

Lemma names_case n : In n names -> case_name n.
Proof. intros H. destruct Hnames as [F _]. rewrite Forall_forall in F. auto. Qed.

Lemma sim_case done n answers f g : In n names -> sim done f g ->
  (run_case cc refloat E O c body n answers f = None /\ run_case cc refloat E O c body n answers g = None) \/
  exists res f' g', run_case cc refloat E O c body n answers f = Some (Ret (res, NONE, answers) f') /\
    run_case cc refloat E O c body n answers g = Some (Ret (res, NONE, answers) g') /\ sim (fun m => m = n \/ done m) f' g'.
Proof.
  intros Hn S. destruct (run_case_exact E o HE Ho Hdot cc refloat c body HB n answers f (names_case n Hn) (sim_rf _ _ _ S n Hn)) as (f1 & _ & KF).
  destruct (run_case_exact E o HE Ho Hdot cc refloat c body HB n answers g (names_case n Hn) (sim_rg _ _ _ S n Hn)) as (g1 & _ & KG).
  pose proof (sim_snap _ _ _ S n Hn) as SN. unfold snap in SN. rewrite !Hbody in KF, KG by exact Hn. rewrite <- SN in KG.
  destruct (run_body cc refloat _ _ _) as [s|] in KF, KG; [|left; auto]. cbv zeta in KF, KG.
  set (v := verdict _ s) in *. set (res := if auto c v then OK else v) in *.
  destruct KF as (f' & RF & CF & RDF). destruct KG as (g' & RG & CG & RDG). right. exists res, f', g'. split; [exact RF|]. split; [exact RG|].
  assert (OF : forall m p, In m names -> m <> n -> own E o m p -> lookup p f' = lookup p f) by (intros m p Hm N; apply (ran_other E o Hdot names Hnames n m (b n) s (auto c v) res); auto).
  assert (OG : forall m p, In m names -> m <> n -> own E o m p -> lookup p g' = lookup p g) by (intros m p Hm N; apply (ran_other E o Hdot names Hnames n m (b n) s (auto c v) res); auto).
  split.
  - intros m Hm. destruct (list_eq_dec N.eq_dec m n) as [->|N]; [exact RDF|]. apply (ready_local E o m f); [intros p OW; symmetry; now apply (OF m)|now apply (sim_rf _ _ _ S)].
  - intros m Hm. destruct (list_eq_dec N.eq_dec m n) as [->|N]; [exact RDG|]. apply (ready_local E o m g); [intros p OW; symmetry; now apply (OG m)|now apply (sim_rg _ _ _ S)].
  - intros m Hm. destruct (list_eq_dec N.eq_dec m n) as [->|N].
    + unfold snap. rewrite (cr_snapshot _ _ _ _ _ _ _ _ _ CF), (cr_snapshot _ _ _ _ _ _ _ _ _ CG), SN. reflexivity.
    + rewrite (OF m), (OG m); auto using (own_snap refloat). now apply (sim_snap _ _ _ S).
  - intros m Hm HD. destruct (list_eq_dec N.eq_dec m n) as [->|N].
    + split; [|split].
      * intros x [<-|[<-|[<-|[]]]].
        -- now rewrite (cr_md _ _ _ _ _ _ _ _ _ CF), (cr_md _ _ _ _ _ _ _ _ _ CG).
        -- now rewrite (cr_txt _ _ _ _ _ _ _ _ _ CF), (cr_txt _ _ _ _ _ _ _ _ _ CG).
        -- now rewrite (cr_log _ _ _ _ _ _ _ _ _ CF), (cr_log _ _ _ _ _ _ _ _ _ CG).
      * intros r. now rewrite (cr_dir _ _ _ _ _ _ _ _ _ CF), (cr_dir _ _ _ _ _ _ _ _ _ CG).
      * intros r. now rewrite (cr_tmp _ _ _ _ _ _ _ _ _ CF), (cr_tmp _ _ _ _ _ _ _ _ _ CG).
    + destruct HD as [HD|HD]; [contradiction|]. apply (same_out_local m f g); [intros p OW; now apply (OF m)|intros p OW; now apply (OG m)|]. now apply (sim_out _ _ _ S).
Qed.

Lemma sim_write done f g p t1 t2 : In p [O ++ SLASH :: lit "cases.txt"; O ++ SLASH :: lit "metrics.json"; E ++ SLASH :: lit "index.md"] ->
  sim done f g -> sim done (write_file p t1 f) (write_file p t2 g).
Proof.
  intros Hp S. assert (WF : forall h t n q, In n names -> own E o n q -> lookup q (write_file p t h) = lookup q h).
  { intros h t n q Hn Hq. now apply (write_special refloat E o Hdot names Hnames n). }
  split.
  - intros n Hn. apply (ready_local E o n f); [|now apply (sim_rf _ _ _ S)]. intros q OW. symmetry. now apply (WF f t1 n).
  - intros n Hn. apply (ready_local E o n g); [|now apply (sim_rg _ _ _ S)]. intros q OW. symmetry. now apply (WF g t2 n).
  - intros n Hn. rewrite (WF f t1 n), (WF g t2 n); auto using (own_snap refloat). now apply (sim_snap _ _ _ S).
  - intros n Hn HD. apply (same_out_local n f g); [intros q OW; now apply (WF f t1 n)|intros q OW; now apply (WF g t2 n)|]. now apply (sim_out _ _ _ S).
Qed.

Context {D : Type} (show_dur : D -> str) (parse_dur : str -> option D) (sp : char -> bool) (dur : str -> D).
Lemma report_special : In (report_file O) [O ++ SLASH :: lit "cases.txt"; O ++ SLASH :: lit "metrics.json"; E ++ SLASH :: lit "index.md"].
Proof. left. unfold report_file. symmetry. apply path_join_name; [now apply HO|reflexivity]. Qed.

Lemma sim_todo todo : incl todo names -> forall done rv fails recs answers f g x f', sim done f g ->
  run_todo cc refloat E O O c body show_dur dur todo rv fails recs answers f = Some (Ret x f') ->
  exists new g', run_todo cc refloat E O O c body show_dur dur todo rv fails recs answers g = Some (Ret x g') /\
    snd (fst x) = recs ++ new /\ sim (fun n => done n \/ In n (map rec_name new)) f' g'.
Proof.
  induction todo as [|n todo IH]; intros IN done rv fails recs answers f g x f' S H; cbn [run_todo] in *.
  - injection H as <- <-. exists [], g. split; [reflexivity|]. split; [now rewrite app_nil_r|]. destruct S as [S1 S2 S3 S4]. split; auto. intros n Hn [X|[]]; auto.
  - assert (Hn : In n names) by (apply IN; now left).
    destruct (sim_case done n answers f g Hn S) as [[X _]|(res & f1 & g1 & RF & RG & S1)]; [rewrite X in H; discriminate|]. rewrite RF in H. rewrite RG.
    cbn [run_bind is_abort orb] in H |- *.
    set (t := report_text show_dur (recs ++ [(n, res, dur n)])) in *. pose proof (sim_write _ f1 g1 (report_file O) t t report_special S1) as S2.
    destruct (fail_fast c && _).
    + injection H as <- <-. exists [(n, res, dur n)], (write_file (report_file O) t g1). split; [reflexivity|]. split; [reflexivity|].
      destruct S2 as [T1 T2 T3 T4]. split; auto. intros m Hm [X|[X|[]]]; apply T4; auto.
    + destruct (IH ltac:(intros m Hm; apply IN; now right) _ _ _ _ _ _ _ _ _ S2 H) as (new & g' & RT & ER & S3). exists ((n, res, dur n) :: new), g'. split; [exact RT|].
      split; [rewrite ER, <- app_assoc; reflexivity|]. destruct S3 as [T1 T2 T3 T4]. split; auto. intros m Hm [X|[X|X]]; apply T4; auto.
Qed.
End Same.

(** C79. Two file systems with the same snapshots and the same report file: whatever else earlier runs left behind, the same run
    gives the same verdict and the same records, and the output files of the tests that were run are the same. *)
Theorem C79_leftovers_do_not_matter :
  forall cc refloat E o c body b (D : Type) (show_dur : D -> str) parse_dur sp dur all_names metrics selected answers f g x f',
  plain_dir E -> plain o -> starts_with [DOT] o = true -> let O := E ++ SLASH :: o in
  batch c -> separate selected -> (forall n h, In n selected -> body n h = b n) ->
  (forall n, In n selected -> ready E O n f /\ ready E O n g /\
     lookup (E ++ SLASH :: n ++ lit ".md") f = lookup (E ++ SLASH :: n ++ lit ".md") g) ->
  lookup (O ++ SLASH :: lit "cases.txt") f = lookup (O ++ SLASH :: lit "cases.txt") g ->
  run_async cc refloat E O O c body show_dur parse_dur sp dur all_names metrics selected answers f = Some (Ret x f') ->
  exists g', run_async cc refloat E O O c body show_dur parse_dur sp dur all_names metrics selected answers g = Some (Ret x g') /\
    (forall n, In n selected -> lookup (E ++ SLASH :: n ++ lit ".md") f' = lookup (E ++ SLASH :: n ++ lit ".md") g') /\
    (cont c = false -> forall n, In n selected -> In n (map rec_name (snd (fst x))) -> same_out O n f' g').
Proof.
  intros cc refloat E o c body b D show_dur parse_dur sp dur all_names metrics selected answers f g x f' HE Ho Hdot O HB SEP HBODY HR HREP H.
  unfold run_async in *. pose proof (report_special E o HE Ho) as RS.
  assert (RF : report_file O = O ++ SLASH :: lit "cases.txt") by (apply path_join_name; [now apply HO|reflexivity]). rewrite RF in *. rewrite <- HREP.
  set (old := of_file _ _ _) in *. set (todo := snd _) in *.
  assert (S0 : sim E o selected (fun _ => False) f g).
  { split; try (intros n Hn; now apply HR). intros n _ []. }
  pose proof (sim_write refloat E o Hdot selected SEP _ f g (O ++ SLASH :: lit "cases.txt") (report_text show_dur (kept old todo)) (report_text show_dur (kept old todo)) (or_introl eq_refl) S0) as S1.
  assert (IN : incl todo selected) by apply todo_incl.
  destruct (run_todo _ _ _ _ _ _ _ _ _ _ _ _ _ _ _) as [[y f1|f1]|] eqn:RT in H; [|discriminate|discriminate]. cbn [run_bind] in H.
  destruct (sim_todo cc refloat E o HE Ho Hdot body b selected SEP HBODY c HB show_dur dur todo IN _ _ _ _ _ _ _ _ _ S1 RT) as (new & g1 & RT2 & ER & S2).
  fold O in RT2. rewrite RT2. cbn [run_bind]. injection H as -> <-. eexists. split; [reflexivity|].
  assert (M : path_join O (lit "metrics.json") = O ++ SLASH :: lit "metrics.json") by (apply path_join_name; [now apply HO|reflexivity]).
  assert (I : path_join E (lit "index.md") = E ++ SLASH :: lit "index.md") by (apply path_join_name; [exact HE|reflexivity]). rewrite M, I.
  pose proof (sim_write refloat E o Hdot selected SEP _ _ _ (O ++ SLASH :: lit "metrics.json") metrics metrics (or_intror (or_introl eq_refl)) S2) as S3.
  pose proof (sim_write refloat E o Hdot selected SEP _ _ _ (E ++ SLASH :: lit "index.md") (index_text all_names) (index_text all_names) (or_intror (or_intror (or_introl eq_refl))) S3) as S4.
  split; [apply (sim_snap _ _ _ _ _ _ S4)|]. intros HC n Hn HX. apply (sim_out _ _ _ _ _ _ S4 n Hn). right.
  rewrite ER, map_app, in_app_iff in HX. destruct HX as [HX|HX]; [|exact HX]. exfalso.
  apply in_map_iff in HX as (rc & <- & HX). unfold kept in HX. apply filter_In in HX as [_ HX]. apply negb_true_iff in HX.
  assert (Y : str_mem (rec_name rc) todo = true); [|congruence]. apply str_mem_In. unfold todo, cases_to_done_and_todo. rewrite HC. exact Hn.
Qed.
Print Assumptions C79_leftovers_do_not_matter.

(** C77. What the run of one test without -i leaves behind, exactly, and its result: if its own paths are free of files and
    directories of the wrong kind, the run fails only where C04 does (a text with a NUL character). *)
Theorem C77_one_case :
  forall cc refloat E o c body n answers f,
  plain_dir E -> plain o -> starts_with [DOT] o = true -> let O := E ++ SLASH :: o in
  batch c -> case_name n -> ready E O n f ->
  let snapshot := lookup (E ++ SLASH :: n ++ lit ".md") f in
  exists f1, case_start E O n f = Ret snapshot f1 /\
  match run_body cc refloat snapshot (point_error_pos c) (all_ops (body n f1)) with
  | None => run_case cc refloat E O c body n answers f = None
  | Some s =>
      let v := verdict (match snapshot with Some _ => true | None => false end) s in
      let res := if auto c v then OK else v in
      exists g, run_case cc refloat E O c body n answers f = Some (Ret (res, NONE, answers) g) /\
        case_ran E O n (body n f1) s (auto c v) res f g /\ ready E O n g
  end.
Proof.
  intros cc refloat E o c body n answers f HE Ho Hdot O HB C R. exact (run_case_exact E o HE Ho Hdot cc refloat c body HB n answers f C R).
Qed.
Print Assumptions C77_one_case.

(** C78. A run with -a in which no test fails, followed by a run of the same tests: the second run is all OK, and so is every
    further one. Missing from the full property: tests to which C12 does not apply, names that nest, contain dots or are "index"
    or "cases". *)
Theorem C78_accept_then_green_partial :
  forall cc, TokClassOK cc -> forall refloat E o c1 c2 body b (D : Type) (show_dur : D -> str) parse_dur sp dur1 dur2 all1 all2 metrics1 metrics2
    selected answers1 answers2 f recs rest g,
  plain_dir E -> plain o -> starts_with [DOT] o = true -> let O := E ++ SLASH :: o in
  batch c1 -> cont c1 = false -> batch c2 ->
  separate selected -> (forall n h, In n selected -> body n h = b n) -> (forall n, In n selected -> steady cc (b n)) ->
  (forall n, In n selected -> ready E O n f) ->
  run_async cc refloat E O O c1 body show_dur parse_dur sp dur1 all1 metrics1 selected answers1 f = Some (Ret (OK, recs, rest) g) ->
  exists recs2 h,
    run_async cc refloat E O O c2 body show_dur parse_dur sp dur2 all2 metrics2 selected answers2 g = Some (Ret (OK, recs2, answers2) h) /\
    (cont c2 = false -> forall n, In n selected -> In (n, OK, dur2 n) recs2) /\
    forall n, In n selected -> ready E O n h /\ passes cc refloat E b n h.
Proof.
  intros cc TOK refloat E o c1 c2 body b D show_dur parse_dur sp dur1 dur2 all1 all2 metrics1 metrics2 selected answers1 answers2 f recs rest g
    HE Ho Hdot O HB1 HC1 HB2 SEP HBODY HST HR H.
  unfold run_async in H. set (old := of_file _ _ _) in H. set (todo := snd _) in H.
  assert (IN : incl todo selected) by apply todo_incl.
  assert (SP1 : In (report_file O) [O ++ SLASH :: lit "cases.txt"; O ++ SLASH :: lit "metrics.json"; E ++ SLASH :: lit "index.md"]) by apply (report_special E o HE Ho).
  assert (M : path_join O (lit "metrics.json") = O ++ SLASH :: lit "metrics.json") by (apply path_join_name; [now apply HO|reflexivity]).
  assert (I : path_join E (lit "index.md") = E ++ SLASH :: lit "index.md") by (apply path_join_name; [exact HE|reflexivity]). rewrite M, I in H.
  assert (WR : forall p t h, In p [O ++ SLASH :: lit "cases.txt"; O ++ SLASH :: lit "metrics.json"; E ++ SLASH :: lit "index.md"] ->
     (all_ready E o selected h -> all_ready E o selected (write_file p t h)) /\
     (forall n, In n selected -> passes cc refloat E b n h -> passes cc refloat E b n (write_file p t h))).
  { intros p t h Hp. split.
    - intros AR n Hn. apply (ready_local E o n h); [|auto]. intros q OW. symmetry. now apply (write_special refloat E o Hdot selected SEP n).
    - intros n Hn. apply (passes_local cc refloat E o b). intros q OW. symmetry. now apply (write_special refloat E o Hdot selected SEP n). }
  destruct (run_todo _ _ _ _ _ _ _ _ _ _ _ _ _ _ _) as [[y f1|f1]|] eqn:RT in H; [|discriminate|discriminate]. cbn [run_bind] in H. injection H as -> <-.
  destruct (todo_to_pass cc TOK refloat E o HE Ho Hdot body b selected SEP HBODY HST show_dur c1 dur1 todo HB1 IN _ _ _ _ _ _ _ _ eq_refl (proj1 (WR _ _ f SP1) HR) RT) as [AG PG].
  set (g0 := write_file _ _ (write_file _ _ f1)).
  assert (AR0 : all_ready E o selected g0) by (apply WR; [now right; right; left|]; apply WR; [now right; left|exact AG]).
  assert (AP0 : forall n, In n selected -> passes cc refloat E b n g0).
  { intros n Hn. apply WR; [now right; right; left|exact Hn|]. apply WR; [now right; left|exact Hn|]. apply (PG n Hn). left.
    unfold todo, cases_to_done_and_todo. rewrite HC1. exact Hn. }
  unfold run_async. set (old2 := of_file _ _ (lookup _ g0)). set (todo2 := snd (cases_to_done_and_todo old2 _ _)).
  assert (IN2 : incl todo2 selected) by apply todo_incl. rewrite M, I.
  destruct (todo_passes cc TOK refloat E o HE Ho Hdot body b selected SEP HBODY HST show_dur c2 dur2 todo2 HB2 IN2 OK (kept old2 todo2) answers2
    (write_file (report_file O) (report_text show_dur (kept old2 todo2)) g0)) as (recs2 & h & RT2 & ER & AH & PH).
  { apply WR; [exact SP1|exact AR0]. }
  { intros n Hn. apply WR; [exact SP1|exact Hn|auto]. }
  fold O in RT2. rewrite RT2. cbn [run_bind]. exists recs2. eexists. split; [reflexivity|]. split.
  - intros HC2 n Hn. rewrite ER. apply in_or_app. right. apply in_map_iff. exists n. split; [reflexivity|].
    unfold todo2, cases_to_done_and_todo. rewrite HC2. exact Hn.
  - intros n Hn. split; [|apply WR; [now right; right; left|exact Hn|]; apply WR; [now right; left|exact Hn|auto]].
    revert n Hn. apply WR; [now right; right; left|]. apply WR; [now right; left|exact AH].
Qed.
Print Assumptions C78_accept_then_green_partial.

(** C80. After a run without -a and -u that goes through all the selected tests, the output of every one of them is there, is
    what the test wrote, and can be accepted: acceptance makes it the snapshot. Missing: names that nest and the like. *)
Lemma freeze_ready E o n f t : plain_dir E -> plain o -> starts_with [DOT] o = true -> case_name n -> ready E (E ++ SLASH :: o) n f ->
  lookup ((E ++ SLASH :: o) ++ SLASH :: n ++ lit ".md") f = Some t -> exists h, freeze_case E (E ++ SLASH :: o) n f = Ret tt h /\ accepted E (E ++ SLASH :: o) n f h.
Proof.
  intros HE Ho Hdot C (R1 & R2 & R3 & R4 & R5) L. destruct (name_not_o o Hdot n C) as [N1 N2]. eapply freeze_accepts; eauto. apply proper_plain, C.
Qed.

Section Outputs.
Variable cc : CharClass.
Variable refloat : str -> option str.
Variables (E o : str).
Hypothesis HE : plain_dir E.
Hypothesis Ho : plain o.
Hypothesis Hdot : starts_with [DOT] o = true.
Notation O := (E ++ SLASH :: o).
Variable body : str -> fs -> body_run.
Variable b : str -> body_run.
Variable names : list str.
Hypothesis Hnames : separate names.
Hypothesis Hbody : forall n f, In n names -> body n f = b n.
Variable c : config.
Hypothesis HB : batch c.
Hypothesis HA : accept c = false /\ update c = false.
Hypothesis HF : fail_fast c = false.

Definition out_there (n : str) (h : fs) : Prop := exists s,
  run_body cc refloat (lookup (snap E n) h) (point_error_pos c) (all_ops (b n)) = Some s /\ lookup (O ++ SLASH :: n ++ lit ".md") h = Some (out s).

Lemma out_there_local n f g : (forall p, own E o n p -> lookup p f = lookup p g) -> out_there n f -> out_there n g.
Proof.
  intros H (s & R & L). exists s. rewrite <- (H _ (own_snap refloat E o n)). split; [exact R|]. rewrite <- H; [exact L|].
  apply (own_O E o n (lit ".md")); [unfold case_exts; cbn [In]; tauto|apply prefix_refl].
Qed.

Context {D : Type} (show_dur : D -> str) (dur : str -> D).
Lemma todo_outputs todo : incl todo names -> forall rv fails recs answers f x g,
  all_ready E o names f -> run_todo cc refloat E O O c body show_dur dur todo rv fails recs answers f = Some (Ret x g) ->
  all_ready E o names g /\ (forall n, In n names -> lookup (snap E n) g = lookup (snap E n) f) /\ (forall n, In n names -> In n todo \/ out_there n f -> out_there n g).
Proof.
  induction todo as [|n todo IH]; intros IN rv fails recs answers f x g AR H; cbn [run_todo] in H.
  - injection H as _ <-. split; [exact AR|]. split; [auto|]. intros n _ [[]|X]; exact X.
  - assert (Hn : In n names) by (apply IN; now left).
    destruct (run_case_exact E o HE Ho Hdot cc refloat c body HB n answers f (names_case names Hnames n Hn) (AR n Hn)) as (f1 & _ & K). rewrite Hbody in K by exact Hn.
    destruct (run_body cc refloat _ _ _) as [s|] eqn:RB in K; [|rewrite K in H; discriminate]. cbv zeta in K. set (v := verdict _ s) in K.
    assert (NA : auto c v = false) by (apply no_auto; exact HA). rewrite NA in K. destruct K as (h & RC & CR & RD).
    rewrite RC in H. cbn [run_bind is_abort orb] in H. rewrite HF in H. cbn [andb] in H.
    set (t := report_text show_dur _) in H. set (f2 := write_file (report_file O) t h) in H.
    assert (WS : forall m q, In m names -> own E o m q -> lookup q f2 = lookup q h).
    { intros m q Hm OW. apply (write_special refloat E o Hdot names Hnames m); auto. apply (report_special E o HE Ho). }
    assert (EQ : forall m q, In m names -> m <> n -> own E o m q -> lookup q f = lookup q f2).
    { intros m q Hm N OW. rewrite (WS m q Hm OW). symmetry. apply (ran_other E o Hdot names Hnames n m (b n) s false v f h q); auto. }
    assert (AR2 : all_ready E o names f2).
    { intros m Hm. destruct (list_eq_dec N.eq_dec m n) as [->|N].
      - apply (ready_local E o n h); [|exact RD]. intros q OW. symmetry. now apply (WS n).
      - apply (ready_local E o m f); [|auto]. intros q OW. now apply (EQ m). }
    destruct (IH ltac:(intros m Hm; apply IN; now right) _ _ _ _ _ _ _ AR2 H) as (AG & SG & OG).
    assert (S2 : forall m, In m names -> lookup (snap E m) f2 = lookup (snap E m) f).
    { intros m Hm. destruct (list_eq_dec N.eq_dec m n) as [->|N].
      - rewrite (WS n) by auto using (own_snap refloat E o n). exact (cr_snapshot _ _ _ _ _ _ _ _ _ CR).
      - symmetry. apply (EQ m); auto. apply (own_snap refloat). }
    split; [exact AG|]. split; [intros m Hm; rewrite SG, S2; auto|].
    intros m Hm HH. apply (OG m Hm). destruct (list_eq_dec N.eq_dec m n) as [->|N].
    + right. exists s. rewrite S2 by exact Hn. split; [exact RB|]. rewrite (WS n); [exact (cr_md _ _ _ _ _ _ _ _ _ CR)|exact Hn|].
      apply (own_O E o n (lit ".md")); [unfold case_exts; cbn [In]; tauto|apply prefix_refl].
    + destruct HH as [[X|X]|X]; [now elim N|now left|right]. apply (out_there_local m f); [|exact X]. intros q OW. now apply (EQ m).
Qed.
End Outputs.

Theorem C80_outputs_reviewable_partial :
  forall cc refloat E o c body b (D : Type) (show_dur : D -> str) parse_dur sp dur all_names metrics selected answers f x g,
  plain_dir E -> plain o -> starts_with [DOT] o = true -> let O := E ++ SLASH :: o in
  batch c -> accept c = false -> update c = false -> fail_fast c = false -> cont c = false ->
  separate selected -> (forall n h, In n selected -> body n h = b n) -> (forall n, In n selected -> ready E O n f) ->
  run_async cc refloat E O O c body show_dur parse_dur sp dur all_names metrics selected answers f = Some (Ret x g) ->
  forall n, In n selected -> exists s h,
    run_body cc refloat (lookup (E ++ SLASH :: n ++ lit ".md") f) (point_error_pos c) (all_ops (b n)) = Some s /\
    lookup (O ++ SLASH :: n ++ lit ".md") g = Some (out s) /\
    freeze_case E O n g = Ret tt h /\ lookup (E ++ SLASH :: n ++ lit ".md") h = Some (out s).
Proof.
  intros cc refloat E o c body b D show_dur parse_dur sp dur all_names metrics selected answers f x g HE Ho Hdot O HB HA HU HF HC SEP HBODY HR H n Hn.
  unfold run_async in H. set (old := of_file _ _ _) in H. set (todo := snd _) in H.
  assert (IN : incl todo selected) by apply todo_incl.
  assert (SP1 : In (report_file O) [O ++ SLASH :: lit "cases.txt"; O ++ SLASH :: lit "metrics.json"; E ++ SLASH :: lit "index.md"]) by apply (report_special E o HE Ho).
  assert (M : path_join O (lit "metrics.json") = O ++ SLASH :: lit "metrics.json") by (apply path_join_name; [now apply HO|reflexivity]).
  assert (I : path_join E (lit "index.md") = E ++ SLASH :: lit "index.md") by (apply path_join_name; [exact HE|reflexivity]). rewrite M, I in H.
  assert (WS : forall p t h m q, In p [O ++ SLASH :: lit "cases.txt"; O ++ SLASH :: lit "metrics.json"; E ++ SLASH :: lit "index.md"] -> In m selected -> own E o m q ->
    lookup q (write_file p t h) = lookup q h) by (intros p t h m q Hp Hm OW; now apply (write_special refloat E o Hdot selected SEP m)).
  destruct (run_todo _ _ _ _ _ _ _ _ _ _ _ _ _ _ _) as [[y f1|f1]|] eqn:RT in H; [|discriminate|discriminate]. cbn [run_bind] in H. injection H as -> <-.
  assert (AR0 : all_ready E o selected (write_file (report_file O) (report_text show_dur (kept old todo)) f)).
  { intros m Hm. apply (ready_local E o m f); [|auto]. intros q OW. symmetry. now apply (WS _ _ _ m). }
  destruct (todo_outputs cc refloat E o HE Ho Hdot body b selected SEP HBODY c HB (conj HA HU) HF show_dur dur todo IN _ _ _ _ _ _ _ AR0 RT) as (AG & SG & OG).
  destruct (OG n Hn) as (s & RB & L).
  { left. unfold todo, cases_to_done_and_todo. rewrite HC. exact Hn. }
  rewrite (SG n Hn) in RB. rewrite (WS _ _ _ n) in RB by auto using (own_snap refloat E o n).
  set (g0 := write_file _ _ (write_file _ _ f1)).
  assert (EQ : forall q, own E o n q -> lookup q g0 = lookup q f1).
  { intros q OW. unfold g0. rewrite !(WS _ _ _ n); auto; [now right; left|now right; right; left]. }
  assert (L0 : lookup (O ++ SLASH :: n ++ lit ".md") g0 = Some (out s)).
  { rewrite EQ; [exact L|]. apply (own_O E o n (lit ".md")); [unfold case_exts; cbn [In]; tauto|apply prefix_refl]. }
  assert (R0 : ready E O n g0) by (apply (ready_local E o n f1); [intros q OW; symmetry; now apply EQ|now apply AG]).
  destruct (freeze_ready E o n g0 (out s) HE Ho Hdot (names_case selected SEP n Hn) R0 L0) as (h & FZ & AC). exists s, h.
  split; [exact RB|]. split; [exact L0|]. split; [exact FZ|]. rewrite (acc_md _ _ _ _ _ AC). exact L0.
Qed.
Print Assumptions C80_outputs_reviewable_partial.

(** C81. The setting point_error_pos and the report have no influence: output, verdict, counts and the position in the snapshot
    are the same. *)
Theorem C81_point_error_pos_only_in_report :
  forall cc refloat file p1 p2 ops,
  match run_body cc refloat file p1 ops, run_body cc refloat file p2 ops with
  | Some s1, Some s2 => out s1 = out s2 /\ out_line s1 = out_line s2 /\ diffs s1 = diffs s2 /\ errors s1 = errors s2 /\
      line_diff s1 = line_diff s2 /\ line_error s1 = line_error s2 /\ rd s1 = rd s2 /\ forall e, verdict e s1 = verdict e s2
  | None, None => True
  | _, _ => False
  end.
Proof.
  intros cc refloat file p1 p2 ops. destruct (run_point cc refloat file p1 p2 ops) as [r ->]. destruct (run_body cc refloat file p1 ops) as [s|]; cbn [option_map]; [|exact I].
  repeat (split; [reflexivity|]). reflexivity.
Qed.
Print Assumptions C81_point_error_pos_only_in_report.

(** With C72: a green run vouches for every checked line of every selected test. *)
Theorem C76_green_run_vouches :
  forall cc, TokClassOK cc -> forall refloat E O c body b (D : Type) (show_dur : D -> str) parse_dur sp dur all_names metrics selected answers f recs rest g n pre o post,
  plain_dir E -> plain_dir O -> batch c -> accept c = false -> update c = false -> cont c = false -> Forall proper selected ->
  run_async cc refloat E O O c body show_dur parse_dur sp dur all_names metrics selected answers f = Some (Ret (OK, recs, rest) g) ->
  In n selected -> ~ path_prefix O (E ++ SLASH :: n ++ lit ".md") -> ~ path_prefix (E ++ SLASH :: n ++ lit ".md") O ->
  (forall h, body n h = b) -> all_ops b = pre ++ o :: post -> placed true false (pre ++ o :: post) = true ->
  fold_left start_after pre true = true -> Forall (fun l => ~ In NL l) (checked_lines o) ->
  exists t, lookup (E ++ SLASH :: n ++ lit ".md") f = Some t /\ incl (checked_lines o) (snapshot_lines t).
Proof.
  intros cc TOK refloat E O c body b D show_dur parse_dur sp dur all_names metrics selected answers f recs rest g n pre o post HE HO HB HA HU HC P H Hn N1 N2 HBD EO PL ST NL1.
  destruct (C76_green_run_compared cc refloat E O c body D show_dur parse_dur sp dur all_names metrics selected answers f recs rest g n HE HO HB HA HU HC P H Hn N1 N2)
    as (f1 & t & s & L & R & _ & _ & V).
  exists t. split; [exact L|]. rewrite HBD, EO in R. exact (C72_ok_vouches cc TOK refloat t _ pre o post s PL R V ST NL1).
Qed.
Print Assumptions C76_green_run_vouches.

(** ** Examples *)
Definition demo_E := lit "books".
Definition demo_o := lit ".out".
Definition demo_O := demo_E ++ SLASH :: demo_o.
Definition demo_conf (acc : bool) : config :=
  {| always_interactive := false; interactive := false; update := false; accept := acc; cont := false; fail_fast := false; point_error_pos := true |}.
Definition demo_text (n : str) : body_run :=
  {| b_ops := [OH 1 n; OTln (lit "one 1"); OTln (lit "two 2"); OIln (lit "took 3.5 ms")]; b_exc := None; b_files := [(lit "data.json", lit "{}")];
     b_tmp := [(lit "x", lit "y")]; b_log := lit "log"; b_value := Some n |}.
Definition demo_body (n : str) (_ : fs) : body_run := demo_text n.
Definition demo_go (acc : bool) (selected : list str) (f : fs) :=
  run_async ascii_class no_float demo_E demo_O demo_O (demo_conf acc) demo_body (fun d : str => d) Some (fun c => N.eqb c SP) (fun _ => lit "7") selected (lit "{}") selected [] f.
Definition verdict_of {A} (x : run (result * A * list str)) : option result :=
  match x with Some (Ret (r, _, _) _) => Some r | _ => None end.
Definition after {A} (x : run A) : fs := match x with Some y => fs_of y | None => [] end.
(** a project with the snapshots of two tests (one of them old), output of earlier runs and a file of somebody else *)
Definition demo_two : list str := [lit "t/a"; lit "t/b"].
Definition demo_f0 : fs :=
  [(lit "books/t/a.md", lines_text [lit "# t/a"; lit ""; lit "one 1"; lit "two 2"; lit "took 4.5 ms"]);
   (lit "books/t/b.md", lines_text [lit "# t/b"; lit ""; lit "one 1"]); (lit "books/t/b/old.json", lit "1");
   (lit "books/.out/t/a.md", lit "old"); (lit "books/.out/t/b/x", lit "old"); (lit "src/x.py", lit "code")].
Definition demo_f1 : fs := after (demo_go true demo_two demo_f0).

Lemma readyb_ok E O n f :
  is_file (E ++ SLASH :: n) f || is_dir (E ++ SLASH :: n ++ lit ".md") f || is_file (O ++ SLASH :: n) f || is_file (O ++ SLASH :: n ++ lit ".tmp") f ||
  existsb (fun x => is_dir (O ++ SLASH :: n ++ x) f) [lit ".md"; lit ".txt"; lit ".log"; lit ".bin"] = false -> ready E O n f.
Proof.
  intros H. rewrite !orb_false_iff in H. destruct H as ((((H1 & H2) & H3) & H4) & H5). unfold is_file in *. split; [|split; [|split; [|split]]].
  - now destruct (lookup (E ++ SLASH :: n) f).
  - exact H2.
  - now destruct (lookup (O ++ SLASH :: n) f).
  - now destruct (lookup (O ++ SLASH :: n ++ lit ".tmp") f).
  - intros x Hx. destruct (is_dir (O ++ SLASH :: n ++ x) f) eqn:X; [|reflexivity]. rewrite <- H5. symmetry. apply existsb_exists. eauto.
Qed.

Lemma proper_parts (parts : list str) :
  parts <> [] -> Forall (fun p => p <> [] /\ existsb (N.eqb SLASH) p = false) parts -> proper (join_with [SLASH] parts).
Proof.
  intros NE F. exists parts. split; [exact NE|]. split; [|reflexivity]. eapply Forall_impl; [|exact F]. intros p [H1 H2]. split; [exact H1|]. intros X.
  enough (existsb (N.eqb SLASH) p = true) by congruence. apply existsb_exists. exists SLASH. split; [exact X|reflexivity].
Qed.
Lemma demo_separate : separate demo_two.
Proof.
  assert (C : forall x, In x [lit "a"; lit "b"] -> case_name (lit "t/" ++ x)).
  { intros x Hx. split; [|split; [|split]].
    - change (lit "t/" ++ x) with (join_with [SLASH] [lit "t"; x]). apply proper_parts; [discriminate|]. destruct Hx as [<-|[<-|[]]]; repeat constructor; discriminate.
    - destruct Hx as [<-|[<-|[]]]; vm_compute; intuition discriminate.
    - destruct Hx as [<-|[<-|[]]]; discriminate.
    - destruct Hx as [<-|[<-|[]]]; discriminate. }
  split.
  - constructor; [exact (C (lit "a") (or_introl eq_refl))|]. constructor; [exact (C (lit "b") (or_intror (or_introl eq_refl)))|constructor].
  - intros n m [<-|[<-|[]]] [<-|[<-|[]]] [H|[r H]]; try reflexivity; discriminate H.
Qed.
Lemma demo_steady n : In n demo_two -> steady ascii_class (demo_text n).
Proof.
  intros Hn. split; [reflexivity|]. split; [|split].
  - apply repeatableb_ok. destruct Hn as [<-|[<-|[]]]; vm_compute; reflexivity.
  - apply freeb_ok. destruct Hn as [<-|[<-|[]]]; vm_compute; reflexivity.
  - destruct Hn as [<-|[<-|[]]]; (eexists; split; [vm_compute; reflexivity|]); (apply well_pieced_of; [exact ascii_TokClassOK|]);
      (apply tokenize_iff; [exact ascii_TokClassOK|]); vm_compute; reflexivity.
Qed.
Lemma demo_dirs : plain_dir demo_E /\ plain demo_o /\ plain_dir demo_O.
Proof. repeat split; discriminate || reflexivity. Qed.

(** the hypotheses of C75 to C80 are met, and what the conclusions then say *)
Example C75_to_C80_example :
  (forall n, In n demo_two -> ready demo_E demo_O n demo_f0) /\
  (* a plain run: a is OK, b differs *)
  verdict_of (demo_go false demo_two demo_f0) = Some DIFF /\
  lookup (lit "books/t/b.md") (after (demo_go false demo_two demo_f0)) = lookup (lit "books/t/b.md") demo_f0 /\
  (* accepting, then green *)
  verdict_of (demo_go true demo_two demo_f0) = Some OK /\
  lookup (lit "books/t/b.md") demo_f1 = Some (lines_text [lit "# t/b"; lit ""; lit "one 1"; lit "two 2"; lit "took 3.5 ms"]) /\
  lookup (lit "books/t/b/old.json") demo_f1 = None /\ lookup (lit "books/t/b/data.json") demo_f1 = Some (lit "{}") /\
  lookup (lit "src/x.py") demo_f1 = Some (lit "code") /\
  verdict_of (demo_go false demo_two demo_f1) = Some OK.
Proof.
  split; [intros n [<-|[<-|[]]]; apply readyb_ok; vm_compute; reflexivity|].
  repeat (split; [vm_compute; reflexivity|]). vm_compute. reflexivity.
Qed.

(** The table of contents overwrites the snapshot of a test whose name is "index": accepted in one run, different in the next. *)
Theorem C78_accept_then_green_refuted :
  exists n recs rest g,
    plain_dir demo_E /\ plain demo_o /\ batch (demo_conf true) /\ proper n /\ ~ In DOT n /\ steady ascii_class (demo_text n) /\ ready demo_E demo_O n [] /\
    demo_go true [n] [] = Some (Ret (OK, recs, rest) g) /\ verdict_of (demo_go false [n] g) = Some DIFF.
Proof.
  exists (lit "index"). eexists. eexists. eexists.
  split; [exact (proj1 demo_dirs)|]. split; [exact (proj1 (proj2 demo_dirs))|]. split; [split; reflexivity|].
  split; [change (lit "index") with (join_with [SLASH] [lit "index"]); apply proper_parts; [discriminate|repeat constructor; discriminate]|].
  split; [vm_compute; intuition discriminate|].
  split.
  { split; [reflexivity|]. split; [|split].
    - apply repeatableb_ok. vm_compute. reflexivity.
    - apply freeb_ok. vm_compute. reflexivity.
    - eexists. split; [vm_compute; reflexivity|]. apply well_pieced_of; [exact ascii_TokClassOK|]. apply tokenize_iff; [exact ascii_TokClassOK|]. vm_compute. reflexivity. }
  split; [apply readyb_ok; vm_compute; reflexivity|].
  split; [vm_compute; reflexivity|]. vm_compute. reflexivity.
Qed.
Print Assumptions C78_accept_then_green_refuted.

(** Running the test "a" removes the output of the test "a/b", and accepting "a/b" in review then fails. *)
Theorem C80_outputs_reviewable_refuted :
  exists x g h,
    let selected := [lit "a/b"; lit "a"] in
    Forall proper selected /\ (forall n, In n selected -> ~ In DOT n /\ ready demo_E demo_O n []) /\
    demo_go false selected [] = Some (Ret x g) /\ fst (fst x) = DIFF /\
    lookup (demo_O ++ SLASH :: lit "a/b.md") g = None /\ freeze_case demo_E demo_O (lit "a/b") g = Raise h.
Proof.
  eexists. eexists. eexists. cbv zeta. split.
  { constructor; [|constructor; [|constructor]].
    - change (lit "a/b") with (join_with [SLASH] [lit "a"; lit "b"]). apply proper_parts; [discriminate|repeat constructor; discriminate].
    - change (lit "a") with (join_with [SLASH] [lit "a"]). apply proper_parts; [discriminate|repeat constructor; discriminate]. }
  split.
  { intros n [<-|[<-|[]]]; (split; [vm_compute; intuition discriminate|apply readyb_ok; vm_compute; reflexivity]). }
  split; [vm_compute; reflexivity|]. split; [reflexivity|]. split; [vm_compute; reflexivity|]. vm_compute. reflexivity.
Qed.
Print Assumptions C80_outputs_reviewable_refuted.

(** the two settings of point_error_pos write different reports about the same run *)
Example C81_example :
  exists s1 s2, run_body ascii_class no_float (Some (lit "a b")) true [OTln (lit "a c")] = Some s1 /\
    run_body ascii_class no_float (Some (lit "a b")) false [OTln (lit "a c")] = Some s2 /\ rep s1 <> rep s2 /\ verdict true s1 = DIFF.
Proof. eexists. eexists. split; [vm_compute; reflexivity|]. split; [vm_compute; reflexivity|]. split; [discriminate|reflexivity]. Qed.
