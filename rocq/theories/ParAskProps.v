(** C127: questions, fail-fast and 'q' in parallel runs. *)
From Verif Require Import PyStrFacts CaseRunProps RunCaseProps ReportsProofs RunnerProofs ReviewProofs.
From Verif Require Export ParAskProofs ParProps.

(** the same configuration for a run in which nobody is asked and which goes on after failures *)
Definition unattended (c : config) : config :=
  {| always_interactive := false; interactive := false; update := update c; accept := accept c; cont := cont c; fail_fast := false; point_error_pos := point_error_pos c |}.

(** the result that is recorded for a test with the result [v], reviewed with the request [r] *)
Definition final (v : result) (r : request) : result := match r with FREEZE => OK | _ => v end.
(** this review is the last *)
Definition stops (c : config) (v : result) (r : request) : Prop := r = ABORT \/ (fail_fast c = true /\ final v r <> OK).
(** the tests are reviewed one after the other, with the answers [answers], of which [rest] are left *)
Inductive reviews (c : config) (res : str -> result) : list str -> list (str * request) -> list str -> Prop :=
| rv_none answers : reviews c res answers [] answers
| rv_next answers n r rest done left :
    reviewed c (res n) answers r rest -> (done <> [] -> ~ stops c (res n) r) -> reviews c res rest done left ->
    reviews c res answers ((n, r) :: done) left.

Lemma solo_ask E O c n r a f : solo (ask_proc E O c n r a) f = solo_io (case_review E O n r c a f).
Proof.
  unfold ask_proc, case_review. cbv zeta. match goal with |- context [if ?b then interact r a else ?z] => destruct (if b then interact r a else z) as [[req rest]|] end; [|reflexivity].
  destruct (_ || _); [|reflexivity]. rewrite solo_bind, solo_freeze. destruct (freeze_case E O n f) as [[] g|g]; reflexivity.
Qed.

Section Files.
Variables (E o : str).
Hypothesis HE : plain_dir E.
Hypothesis Ho : plain o.
Hypothesis Hdot : starts_with [DOT] o = true.
Notation O := (E ++ SLASH :: o).
(** what a review may touch *)
Definition touched (n p : str) : Prop := (path_prefix (E ++ SLASH :: n) p \/ p = E ++ SLASH :: n ++ lit ".md") \/ path_prefix (O ++ SLASH :: n) p \/ p = O ++ SLASH :: n ++ lit ".md".
Definition unkept (p : str) : Prop := p = O ++ SLASH :: lit "metrics.json" \/ p = E ++ SLASH :: lit "index.md" \/ p = O ++ SLASH :: lit "output.txt".

Lemma touched_own n p : touched n p -> own E o n p.
Proof.
  intros [[H| ->]|[H| ->]].
  - apply (own_E E o n []); [now left|]. now rewrite app_nil_r.
  - apply (own_E E o n (lit ".md")); [right; now left|apply prefix_refl].
  - apply (own_O E o n []); [now left|]. now rewrite app_nil_r.
  - apply (own_O E o n (lit ".md")); [right; now left|apply prefix_refl].
Qed.
Lemma touched_dec n p : touched n p \/ ~ touched n p.
Proof.
  unfold touched. destruct (prefix_dec (E ++ SLASH :: n) p); [tauto|]. destruct (prefix_dec (O ++ SLASH :: n) p); [tauto|].
  destruct (list_eq_dec N.eq_dec p (E ++ SLASH :: n ++ lit ".md")); [tauto|]. destruct (list_eq_dec N.eq_dec p (O ++ SLASH :: n ++ lit ".md")); tauto.
Qed.
Lemma touched_bin n : case_name n -> ~ touched n (O ++ SLASH :: n ++ lit ".bin").
Proof.
  intros C H. assert (X : area O n (O ++ SLASH :: n ++ lit ".bin")) by (exists (lit ".bin"); split; [unfold case_exts; cbn [In]; tauto|apply prefix_refl]).
  destruct H as [H|[H|H]].
  - assert (Y : area E n (O ++ SLASH :: n ++ lit ".bin")).
    { destruct H as [H|H]; [exists []; rewrite app_nil_r; split; [now left|exact H]|]. exists (lit ".md"). split; [right; now left|]. rewrite <- H. apply prefix_refl. }
    destruct (areas_meet E o Hdot E O n n _ (or_introl eq_refl) (or_intror eq_refl) C C Y X) as [Z _].
    rewrite <- (app_nil_r E) in Z at 1. apply app_inv_head in Z. discriminate Z.
  - apply prefix_split in H as (t & T & H). rewrite <- (app_assoc (E ++ SLASH :: o)) in H. apply app_inv_head in H. injection H as H. apply app_inv_head in H.
    destruct T as [->|[r ->]]; discriminate H.
  - apply app_inv_head in H. injection H as H. apply app_inv_head in H. discriminate H.
Qed.
Lemma unkept_booked p : unkept p -> booked E o p.
Proof. intros [->|[->| ->]]; [left; right; right; now left|now right|left; right; right; right; now left]. Qed.
Lemma unkept_bdir n p : unkept p -> ~ path_prefix (bdir E o n) p.
Proof.
  intros [->|[->| ->]]; [apply metrics_not_bdir|now apply index_not_bdir|]. intros H. apply (bdir_below E o n) in H. apply prefix_split in H as (t & _ & X).
  rewrite <- (app_assoc (E ++ SLASH :: o)) in X. apply app_inv_head in X. discriminate X.
Qed.
Lemma bdir_not_touched n p : case_name n -> n <> lit "output" -> path_prefix (bdir E o n) p -> ~ touched n p.
Proof. intros C N H T. apply touched_own in T. revert H. now apply (own_not_bdir E o Hdot n n p). Qed.

Lemma ask_local (R : str -> Prop) c n r a : case_name n -> (forall p, own E o n p -> R p) -> local R (touched n) (ask_proc E O c n r a).
Proof.
  intros C OR. pose proof (proper_plain n (proj1 C)) as (NE & NS & _).
  assert (NSx : forall x, starts_with [SLASH] (n ++ x) = false) by (intros x; destruct n; [easy|exact NS]).
  assert (PO : plain_dir O) by now apply HO.
  unfold ask_proc. cbv zeta. match goal with |- context [if ?b then interact r a else ?z] => destruct (if b then interact r a else z) as [[req rest]|] end; [|constructor]. destruct (_ || _); [|constructor].
  apply local_bind; [|constructor]. unfold freeze_proc. cbv zeta.
  rewrite !path_join_name by (try exact HE; try exact PO; try exact NS; apply NSx).
  assert (C1 : covers (touched n) (E ++ SLASH :: n)) by (intros p H; left; now left).
  assert (C2 : covers (touched n) (O ++ SLASH :: n)) by (intros p H; right; now left).
  assert (M1 : touched n (E ++ SLASH :: n ++ lit ".md")) by (left; now right).
  assert (M2 : touched n (O ++ SLASH :: n ++ lit ".md")) by (right; now right).
  assert (RC : forall d, covers (touched n) d -> covers R d) by (intros d H p HP; apply OR, touched_own; auto).
  assert (C3 : covers R (E ++ SLASH :: n ++ lit ".md")) by (intros p H; apply OR; apply (own_E E o n (lit ".md")); [right; now left|exact H]).
  apply local_bind; [now apply lo_exists, RC|]. intros old. apply local_bind; [apply lo_when, local_prim, lop_rmtree; auto|]. intros _.
  apply local_bind; [apply local_prim, lop_rename_file; auto; now apply OR, touched_own|]. intros _.
  apply local_bind; [now apply lo_exists, RC|]. intros new. apply lo_when, local_prim, lop_rename_path; auto.
Qed.

Lemma files_same all_names m todo f p : ~ unkept p -> lookup p (ask_files E O all_names m todo f) = lookup p f.
Proof.
  intros N. unfold ask_files. assert (PO : plain_dir O) by now apply HO. rewrite !path_join_name by (try exact HE; try exact PO; reflexivity).
  rewrite !lookup_write.
  repeat match goal with |- context [str_eqb ?q p] => destruct (str_eqb_spec q p) as [<-|_]; [exfalso; apply N; unfold unkept; tauto|] end. reflexivity.
Qed.
End Files.

(** a review with these answers *)
Lemma review_ends E o c n v a f : plain_dir E -> plain o -> starts_with [DOT] o = true -> let O := E ++ SLASH :: o in case_name n -> auto c v = false ->
  ready E O n f -> (asked c v -> v <> FAIL -> exists t, lookup (O ++ SLASH :: n ++ lit ".md") f = Some t) ->
  (exists r rest, reviewed c v a r rest /\ snd (solo (ask_proc E O c n v a) f) = Value (final v r, r, rest) /\
     if match r with FREEZE => true | _ => false end then accepted E O n f (fst (solo (ask_proc E O c n v a) f)) else fst (solo (ask_proc E O c n v a) f) = f) \/
  (asked c v /\ (forall r rest, ~ decision v a r rest) /\ snd (solo (ask_proc E O c n v a) f) = Crashed /\ fst (solo (ask_proc E O c n v a) f) = f).
Proof.
  intros HE Ho Hdot O C AU RD MD. rewrite solo_ask.
  assert (NA : ~ automatic c v) by (intros [[-> X]|[-> X]]; cbn [auto] in AU; congruence).
  destruct (case_review_cases E O n v c a f) as [(r & rest & Hr & [[[->|Hc] He]|(H1 & H2 & H3)])|(H1 & H2 & H3)]; [|contradiction| |].
  - assert (NF : asked c v /\ v <> FAIL) by (destruct Hr as [[HA H]|(_ & H & _)]; [split; [exact HA|now apply decision_freeze in H]|discriminate]). destruct (MD (proj1 NF) (proj2 NF)) as [t T].
    destruct (freeze_ready E o n f t HE Ho Hdot C RD T) as (h & FZ & AC). left. exists FREEZE, rest. split; [exact Hr|]. rewrite He. fold O in FZ. rewrite FZ. cbn [io_bind solo_io fst snd final]. auto.
  - left. exists r, rest. split; [exact Hr|]. rewrite H3. cbn [solo_io fst snd]. destruct r; [auto|auto|congruence] || (destruct r; try congruence; auto).
  - right. split; [exact H1|]. split; [exact H2|]. rewrite H3. now split.
Qed.

(** a review in between *)
Lemma ask_part E O c n v a f q g : auto c v = false -> part f (ask_proc E O c n v a) q g ->
  g = f \/ (asked c v /\ exists z, decision v a FREEZE z) /\ freeze_killed E O n f g.
Proof.
  intros AU H. unfold ask_proc in H. cbv zeta in H.
  assert (AU2 : (is_ok v && update c) || (match v with DIFF => true | _ => false end && accept c) = false) by (destruct v; cbn [auto is_ok andb orb] in *; rewrite ?orb_false_r; auto).
  destruct (always_interactive c || (negb (is_ok v) && interactive c)) eqn:A.
  - destruct (interact v a) as [[r z]|] eqn:I; [|apply part_halt in H as [_ ->]; now left]. rewrite <- orb_assoc, AU2, orb_false_r in H.
    destruct r; try (apply part_halt in H as [_ ->]; now left). right. split; [split; [now apply asked_iff|]; exists z; now apply interact_iff|].
    apply part_bind in H as [(q' & H & _)|(u & h & R & H)]; [now apply freeze_part in H|]. apply part_halt in H as [_ ->].
    rewrite solo_freeze in R. destruct (freeze_case E O n f) as [[] h'|h'] eqn:FZ; cbn [solo_io] in R; [injection R as -> _|discriminate R]. now apply killed_after.
  - rewrite <- orb_assoc, AU2 in H. cbn [orb] in H. apply part_halt in H as [_ ->]. now left.
Qed.

(** the tests that were reviewed, with their requests *)
Definition asked_of (hist : list past) : list (str * request) := map (fun h => (p_name h, p_req h)) hist.

Lemma chain_reviews c res hist : forall a left, chain a hist left ->
  (forall n b v, In (n, b, v) hist -> exists r z, v = (final (res n) r, r, z) /\ reviewed c (res n) b r z) ->
  (forall h x h', hist = h ++ x :: h' -> p_stops c x = true -> h' = []) -> reviews c res a (asked_of hist) left.
Proof.
  induction hist as [|[[n b] [[w q] z]] hist IH]; intros a left CH HH ST; cbn [chain asked_of map] in *; [subst; constructor|]. destruct CH as [-> CH].
  destruct (HH n a (w, q, z) (or_introl eq_refl)) as (r & z' & EQ & RV). injection EQ as -> -> ->. cbn [p_name p_req fst snd]. econstructor; [exact RV| |apply IH; [exact CH| |]].
  - intros NE X. assert (hist = []) as ->; [|now apply NE]. apply (ST [] (n, a, (final (res n) r, r, z')) hist eq_refl). unfold p_stops, p_req, p_res. cbn [fst snd].
    destruct X as [->|[X Y]]; [reflexivity|]. rewrite X. destruct (final (res n) r); [now elim Y| |]; apply orb_true_r.
  - intros m b' v Hm. apply HH. now right.
  - intros h x h' EQ. apply (ST ((n, a, (final (res n) r, r, z')) :: h) x h'). now rewrite EQ.
Qed.
Lemma NoDup_prefix {A} (a b : list A) : NoDup (a ++ b) -> NoDup a.
Proof. intros H. induction a as [|x a IH]; [constructor|]. cbn [app] in H. inversion H as [|? ? N ND]; subst. constructor; [|auto]. intros X. apply N. apply in_or_app. now left. Qed.

Definition over {D} (y : ask_state (D := D)) : Prop := exists recs, k_end y = Some recs /\ forall n, In n (k_sched y) -> ended (k_st y n).
Lemma all_ended {A} (st : str -> proc A) l : (exists n s, In n l /\ st n = Act s) \/ forall n, In n l -> ended (st n).
Proof.
  induction l as [|n l [(m & s & H1 & H2)|IH]]; [right; intros n []|left; exists m, s; split; [now right|exact H2]|].
  destruct (st n) as [oc|s] eqn:E; [right; intros m [<-|Hm]; [now exists oc|auto]|left; exists n, s; split; [now left|exact E]].
Qed.
Lemma some_missing (l seen : list str) : (forall n, In n l -> In n seen) \/ exists a n b, l = a ++ n :: b /\ ~ In n seen /\ forall d, In d a -> In d seen.
Proof.
  induction l as [|n l [IH|(a & m & b & -> & H1 & H2)]]; [left; intros n []| |];
    (destruct (in_dec (list_eq_dec N.eq_dec) n seen) as [X|X]; [|right; exists [], n; eexists; split; [reflexivity|split; [exact X|intros d []]]]).
  - left. intros m [<-|Hm]; auto.
  - right. exists (n :: a), m, b. split; [reflexivity|]. split; [exact H1|]. intros d [<-|Hd]; auto.
Qed.

Lemma asking :
  forall cc refloat E o c body (D : Type) (show_dur : D -> str) parse_dur sp durS durP all_names printed metrics_of metricsS metricsP names deps
    selected answersS answers f rv recs rest g,
  plain_dir E -> plain o -> starts_with [DOT] o = true -> let O := E ++ SLASH :: o in
  update c = false -> (always_interactive c = true -> accept c = false) -> durations_ok show_dur parse_dur -> space_ok sp ->
  separate names -> ~ In (lit "output") names ->
  (forall n, In n names -> field_ok n /\ incl (deps n) names /\ reads_deps E O deps n (body n)) ->
  NoDup selected -> incl selected names -> deps_first deps selected -> (forall n, In n selected -> ready E O n f) ->
  run_async cc refloat E O O (unattended c) body show_dur parse_dur sp durS all_names metricsS selected answersS f = Some (Ret (rv, recs, rest) g) ->
  let todo := par_todo O c parse_dur sp selected f in let kept := par_kept O c parse_dur sp selected f in
  let start := ask_start cc refloat E O c body show_dur parse_dur sp durP all_names printed metrics_of selected answers f in
  exists res, recs = kept ++ map (fun n => (n, res n, durS n)) todo /\
  (forall y, ask_steps E O c parse_dur sp all_names metricsP deps todo start y -> over y \/ exists z, ask_step E O c parse_dur sp all_names metricsP deps todo y z) /\
  forall y recs', ask_steps E O c parse_dur sp all_names metricsP deps todo start y -> k_end y = Some recs' -> (forall n, In n (k_sched y) -> ended (k_st y n)) ->
  exists hist cur pending,
    let done := asked_of hist in let lost := cur_name cur in let left := k_answers y in let started := k_sched y in let h := k_fs y in
    let ctrl_c := match k_cut y with Some (Interrupted _) => true | _ => false end in
    reviews c res answers done left /\ k_ok y = forallb (fun d => is_ok (final (res (fst d)) (snd d))) done /\
    recs' = map (fun d => (fst d, final (res (fst d)) (snd d), durP (fst d))) done ++ map (fun n => (n, res n, durP n)) pending /\ k_recs y = map (fun d => (fst d, final (res (fst d)) (snd d), durP (fst d))) done /\
    match k_cut y with
    | None => lost = [] /\ ((exists n r, In (n, r) done /\ stops c (res n) r) \/ (pending = [] /\ forall n, In n todo -> In n (map fst done)))
    | Some (Interrupted _) => True
    | Some Failed => exists n, lost = [n] /\ asked c (res n) /\ forall r z, ~ decision (res n) left r z
    end /\
    NoDup (map fst done ++ lost ++ pending) /\ incl (map fst done ++ lost ++ pending) started /\ incl started todo /\
    (forall n d, In n started -> In d (deps n) -> In d todo -> In d started) /\
    (forall n p, In n todo -> area E n p \/ area O n p ->
       (~ In n started -> lookup p h = lookup p f) /\
       (In n started -> ~ In (n, FREEZE) done -> ~ In n lost -> lookup p h = lookup p g)) /\
    (forall n, In (n, FREEZE) done -> exists g', accepted E O n g g' /\ forall p, area E n p \/ area O n p -> lookup p h = lookup p g') /\
    (** the interrupted review was possibly about to accept the output *)
    (forall n, In n lost -> exists g', (g' = g \/ ctrl_c = true /\ asked c (res n) /\ (exists z, decision (res n) left FREEZE z) /\ freeze_killed E O n g g') /\
       forall p, area E n p \/ area O n p -> lookup p h = lookup p g') /\
    (forall p, ~ bookkeeping O p -> p <> E ++ SLASH :: lit "index.md" -> (forall n, In n todo -> ~ (area E n p \/ area O n p)) -> lookup p h = lookup p f) /\
    (** what was shown *)
    map (fun s => (rec_name (fst (fst s)), snd (fst s))) (k_shown y) = map fst hist ++ match cur with Some x => [x] | None => [] end /\
    (forall n a, cur = Some (n, a) -> a = k_answers y) /\
    (forall r a gs, In (r, a, gs) (k_shown y) -> r = (rec_name r, res (rec_name r), durP (rec_name r)) /\ forall p, area E (rec_name r) p \/ area O (rec_name r) p -> lookup p gs = lookup p g) /\
    chain answers hist (k_answers y) /\ (forall n b v, In (n, b, v) hist -> exists r z, v = (final (res n) r, r, z) /\ reviewed c (res n) b r z) /\
    match k_cut y with
    | Some (Interrupted lf) => NoDup lf /\ (forall n, In n lf -> In n todo /\ ~ In n (map fst done ++ lost)) /\ (forall n, In n todo -> ~ In n lf -> In n (map fst done ++ lost ++ pending))
    | _ => True
    end.
Proof.
  intros cc refloat E o c body D show_dur parse_dur sp durS durP all_names printed metrics_of metricsS metricsP names deps
    selected answersS answers f rv recs rest g HE Ho Hdot O HU HAI DUR SPC SEP NOUT HN ND INS ORD RD H todo kept0 start.
  destruct (parallel_sim cc refloat E o (unattended c) body D show_dur parse_dur sp durS durP all_names printed metrics_of metricsS names deps
    selected answersS f rv recs rest g HE Ho Hdot (conj eq_refl eq_refl) HU eq_refl SEP NOUT HN ND INS ORD RD H) as (res & gl & IN & TND & TORD & TU & RS & ER & EV & SAME & EI).
  change (par_todo (E ++ SLASH :: o) (unattended c) parse_dur sp selected f) with todo in *.
  change (par_kept (E ++ SLASH :: o) (unattended c) parse_dur sp selected f) with kept0 in *.
  change (par_prepare (E ++ SLASH :: o) (unattended c) show_dur parse_dur sp selected f) with (par_prepare O c show_dur parse_dur sp selected f) in *.
  change (worker cc refloat E (E ++ SLASH :: o) (unattended c) body show_dur parse_dur sp durP all_names printed metrics_of) with
    (worker cc refloat E O c body show_dur parse_dur sp durP all_names printed metrics_of) in TU.
  set (W := worker cc refloat E O c body show_dur parse_dur sp durP all_names printed metrics_of) in *. set (f0 := par_prepare O c show_dur parse_dur sp selected f) in *.
  assert (Hdeps : forall n, In n names -> incl (deps n) names) by (intros n Hn; apply HN; exact Hn).
  assert (Hbody : forall n, In n names -> reads_deps E O deps n (body n)) by (intros n Hn; apply HN; exact Hn).
  assert (Hfield : forall n, In n names -> field_ok n) by (intros n Hn; apply HN; exact Hn).
  assert (CN : forall n, In n todo -> case_name n) by (intros n Hn; apply (a_name names SEP); auto).
  assert (NO : forall n, In n todo -> n <> lit "output") by (intros n Hn; apply (not_output names NOUT); auto).
  (* the workers *)
  assert (INIT : forall n, In n todo -> exists s, W n = Act s) by (intros n _; unfold W; apply worker_starts).
  assert (LOC0 : forall n, In n todo -> local (reads E o deps n) (writes E o n) (W n))
    by (intros n Hn; apply (workers_local cc refloat E o HE Ho c body show_dur parse_dur sp durP all_names printed metrics_of names deps SEP Hbody todo IN n Hn)).
  assert (OWNR : forall n p, In n todo -> own' E o n p -> reads E o deps n p) by (intros n p _ X; now left).
  assert (APART : forall n m p, In n todo -> In m todo -> n <> m -> writes E o n p -> own' E o m p -> False)
    by (intros n m p Hn Hm N X Y; exact (workers_apart E o Hdot names SEP NOUT todo IN n m p Hn Hm N X Y)).
  assert (READ : forall n p, In n todo -> reads E o deps n p -> own' E o n p \/ (exists d, In d (deps n) /\ In d todo /\ d <> n /\ own' E o d p) \/ (forall m, In m todo -> ~ writes E o m p))
    by (intros n p Hn X; exact (workers_read E o Hdot names deps SEP NOUT Hdeps todo IN TND TORD n p Hn X)).
  assert (INV : forall st fw, psteps todo deps (W, f0) (st, fw) -> inv todo deps W (own' E o) (reads E o deps) (writes E o) f0 st fw).
  { intros st fw ST. apply (steps_inv todo deps W (own' E o) (reads E o deps) (writes E o) TND TORD INIT LOC0 OWNR APART READ f0 (W, f0) (st, fw) ST).
    split; [|reflexivity]. intros n Hn. split; [now apply LOC0|]. left. split; [reflexivity|apply agree_refl]. }
  assert (LAST : last_fs todo W f0 = gl) by (unfold last_fs; now rewrite TU).
  assert (ENDED : forall st fw n, psteps todo deps (W, f0) (st, fw) -> In n todo -> ended (st n) -> agree (own' E o n) fw gl).
  { intros st fw n ST Hn En. rewrite <- LAST. apply (ended_agree todo deps W (own' E o) (reads E o deps) (writes E o) INIT f0 st fw n (INV st fw ST) Hn En). }
  assert (NB : forall n p, In n names -> own E o n p -> ~ booked E o p) by (intros n p Hn X; exact (no_nb E o Hdot names SEP NOUT n p Hn X)).
  assert (LO : forall n p, In n todo -> unkept E o p -> ~ own' E o n p).
  { intros n p Hn U [X|X]; [exact (NB n p (IN n Hn) X (unkept_booked E o p U))|exact (unkept_bdir E o Hdot n p U X)]. }
  assert (SEPO : forall n m p, In n todo -> In m todo -> own' E o n p -> own' E o m p -> n = m).
  { intros n m p Hn Hm X Y. destruct (list_eq_dec N.eq_dec n m) as [->|NE]; [reflexivity|]. exfalso. apply (APART n m p Hn Hm NE); [now left|exact Y]. }
  assert (RWO : forall n p, In n todo -> touched E o n p -> own' E o n p) by (intros n p _ X; left; now apply touched_own).
  assert (RWR : forall n m p, In n todo -> In m todo -> n <> m -> touched E o n p -> reads E o deps m p -> False).
  { intros n m p Hn Hm NE X [Y|(d & Hd & ->)]; [apply NE; apply (SEPO n m p); auto|].
    assert (Dn : In d names) by (apply (Hdeps m); auto). assert (n = d) as <- by (apply (own_disjoint E o Hdot names n d _ SEP (IN n Hn) Dn (touched_own E o n _ X)); apply bin_own).
    exact (touched_bin E o Hdot n (CN n Hn) X). }
  assert (LR : forall n p, In n todo -> unkept E o p -> ~ reads E o deps n p).
  { intros n p Hn U [X|(d & Hd & ->)]; [exact (LO n p Hn U X)|]. apply (NB d (O ++ SLASH :: d ++ lit ".bin")); [apply (Hdeps n); auto|apply bin_own|now apply unkept_booked]. }
  assert (RECS : forall st fw f n r, psteps todo deps (W, f0) (st, fw) -> In n todo -> ended (st n) -> (forall p, own' E o n p -> ~ touched E o n p -> lookup p f = lookup p fw) ->
    batch_record O parse_dur sp n f = Some r -> r = (n, res n, durP n)).
  { intros st fw f1 n r ST Hn En AG B. unfold batch_record in B. unfold O in B. rewrite (report_eq E o HE Ho n) in B by (apply (a_ne names SEP); auto).
    assert (X : path_prefix (bdir E o n) (bdir E o n ++ SLASH :: lit "cases.txt")) by apply in_bdir.
    rewrite AG in B; [|now right|apply (bdir_not_touched E o Hdot n); auto]. rewrite (ENDED st fw n ST Hn En) in B by now right.
    rewrite (proj1 (proj2 (RS n Hn))) in B. rewrite (of_file_roundtrip show_dur parse_dur sp DUR SPC) in B by (constructor; [apply Hfield; auto|constructor]). now injection B as <-. }
  assert (SIM : forall y, ask_steps E O c parse_dur sp all_names metricsP deps todo start y ->
    exists hist cur fw, sim E O c todo deps W f0 (own' E o) (touched E o) (unkept E o) res durP answers y hist cur fw).
  { intros y STEPS. refine (sim_steps parse_dur sp E O c all_names metricsP todo deps W f0 (own' E o) (reads E o deps) (writes E o) (touched E o) (unkept E o) res durP
      _ OWNR _ _ SEPO LO RWO RWR LR _ RECS _ answers _ y STEPS _).
    - intros st fw n ST Hn. exact (proj1 (proj1 (INV st fw ST) n Hn)).
    - intros n p _. destruct (area_dec E n p) as [X|X]; [left; left; now left|]. destruct (area_dec O n p) as [Y|Y]; [left; left; now right|].
      destruct (prefix_dec (bdir E o n) p) as [Z|Z]; [left; now right|]. right. intros [[A|A]|A]; contradiction.
    - intros n p _ [X|[X|X]]; [now left|right; now left|right; right; now left].
    - intros n r a Hn. apply (ask_local E o HE Ho); [auto|]. intros p X. now left.
    - intros f1 p N. apply (files_same E o HE Ho). exact N.
    - exists [], None, f0. apply sim_start; reflexivity. }
  exists res. split; [exact ER|]. split.
  { intros y STEPS. destruct (SIM y STEPS) as (hist & cur & fw & S). pose proof (s_run _ _ _ _ _ _ _ _ _ _ _ _ _ _ _ _ _ S) as ST.
    pose proof (s_now _ _ _ _ _ _ _ _ _ _ _ _ _ _ _ _ _ S) as SN. pose proof (s_end _ _ _ _ _ _ _ _ _ _ _ _ _ _ _ _ _ S) as SE.
    pose proof (s_sched _ _ _ _ _ _ _ _ _ _ _ _ _ _ _ _ _ S) as SS. pose proof (s_same _ _ _ _ _ _ _ _ _ _ _ _ _ _ _ _ _ S) as SA.
    pose proof (s_in _ _ _ _ _ _ _ _ _ _ _ _ _ _ _ _ _ S) as SI. pose proof (s_seen _ _ _ _ _ _ _ _ _ _ _ _ _ _ _ _ _ S) as SV. clear S STEPS.
    unfold over. destruct y as [st sched f1 seen reports shown now recs1 ok stop ans cut e]. cbn [k_st k_sched k_fs k_seen k_reports k_shown k_now k_recs k_ok k_stop k_answers k_cut k_end] in *.
    destruct cut as [k|].
    { assert (now = None) as -> by (destruct k, cur as [[n a]|]; try exact SN; try (now destruct SN)).
      destruct (all_ended st sched) as [(n & s & Hn & En)|AE]; [right; eexists; eapply KWork; eauto|]. destruct e as [recs2|]; [left; eauto|]. right. eexists. apply KLeave. right. left. discriminate. }
    destruct cur as [[n a]|].
    - destruct SN as (q & -> & -> & _ & _ & Q6 & _). destruct q as [[[[v r] z]| |]|s].
      + right. eexists. apply KReviewed.
      + right. eexists. apply KFail.
      + exfalso. cbn [solo snd] in Q6. rewrite solo_ask in Q6. destruct (case_review _ _ _ _ _ _ _); discriminate Q6.
      + right. eexists. apply KReview.
    - subst now. destruct (all_ended st sched) as [(n & s & Hn & En)|AE]; [right; eexists; eapply KWork; eauto|].
      destruct e as [recs2|]; [left; eauto|]. right. destruct stop; [eexists; apply KLeave; now left|].
      destruct reports as [|r reports]; [|eexists; apply KTake].
      destruct (some_missing todo seen) as [AL|(a & n & b & EQ & NS & BEF)]; [eexists; apply KLeave; right; right; split; [reflexivity|exact AL]|].
      assert (Tn : In n todo) by (rewrite EQ; apply in_or_app; right; now left).
      destruct (in_dec (list_eq_dec N.eq_dec) n sched) as [X|X]; [|eexists; apply (KSchedule _ _ _ _ _ _ _ _ _ _ _ _ _ _ _ _ _ _ _ _ _ n Tn X); intros d H1 H2; apply BEF; exact (TORD a n b EQ d H1 H2)].
      eexists. eapply (KReport _ _ _ _ _ _ _ _ _ _ _ _ _ _ _ _ _ _ _ _ _ _ n); [exact X|now apply AE|exact NS|].
      unfold batch_record, O. rewrite (report_eq E o HE Ho n) by (apply (a_ne names SEP); auto).
      assert (P : path_prefix (bdir E o n) (bdir E o n ++ SLASH :: lit "cases.txt")) by apply in_bdir.
      rewrite SA; [|intros U; apply (LO n _ Tn U); now right|].
      + rewrite (ENDED st fw n ST Tn (AE n X)) by now right. rewrite (proj1 (proj2 (RS n Tn))).
        rewrite (of_file_roundtrip show_dur parse_dur sp DUR SPC) by (constructor; [apply Hfield; auto|constructor]). reflexivity.
      + intros m Hm T. assert (Sm : In m seen) by (apply SI; rewrite app_assoc; apply in_or_app; now left).
        assert (Tm : In m todo) by (apply SS, SV; exact Sm). apply NS. rewrite (SEPO n m _ Tn Tm (or_intror P) (RWO m _ Tm T)). exact Sm. }
  intros y recs' STEPS EE ALLE.
  destruct (SIM y STEPS) as (hist & cur & fw & S). clear SIM.
  pose proof (s_run _ _ _ _ _ _ _ _ _ _ _ _ _ _ _ _ _ S) as ST.
  assert (TAKEN : forall n, In n (map p_name hist ++ cur_name cur) -> In n todo /\ In n (k_sched y) /\ ended (k_st y n)).
  { intros n Hn. assert (X : In n (k_seen y)) by (apply (s_in _ _ _ _ _ _ _ _ _ _ _ _ _ _ _ _ _ S); rewrite app_assoc; apply in_or_app; now left).
    destruct (s_seen _ _ _ _ _ _ _ _ _ _ _ _ _ _ _ _ _ S n X) as [X1 X2]. split; [now apply (s_sched _ _ _ _ _ _ _ _ _ _ _ _ _ _ _ _ _ S)|]. auto. }
  assert (FG : forall n, In n todo -> ended (k_st y n) -> agree (own E o n) fw g).
  { intros n Hn En p X. rewrite (ENDED _ _ n ST Hn En) by now left. apply SAME. apply (NB n); auto. }
  assert (MD : forall n, In n todo -> asked c (res n) -> res n <> FAIL -> exists t, lookup (O ++ SLASH :: n ++ lit ".md") g = Some t).
  { intros n Hn A _. apply (proj2 (proj2 (proj2 (RS n Hn)))). intros X. apply HAI. destruct A as [A|[A _]]; [exact A|congruence]. }
  assert (MDO : forall n, own E o n (O ++ SLASH :: n ++ lit ".md")) by (intros n; apply (own_O E o n (lit ".md")); [right; now left|apply prefix_refl]).
  assert (REV : forall n a, In n (map p_name hist ++ cur_name cur) ->
    (exists r z, reviewed c (res n) a r z /\ snd (solo (ask_proc E O c n (res n) a) fw) = Value (final (res n) r, r, z) /\
       (r = FREEZE -> accepted E O n g (fst (solo (ask_proc E O c n (res n) a) g))) /\ (r <> FREEZE -> fst (solo (ask_proc E O c n (res n) a) g) = g)) \/
    (asked c (res n) /\ (forall r z, ~ decision (res n) a r z) /\ snd (solo (ask_proc E O c n (res n) a) fw) = Crashed /\ fst (solo (ask_proc E O c n (res n) a) g) = g)).
  { intros n a Hn. destruct (TAKEN n Hn) as (Tn & _ & En). destruct (RS n Tn) as (AU & _ & RD1 & _).
    destruct (proj2 (local_solo _ _ _ (ask_local E o HE Ho (own E o n) c n (res n) a (CN n Tn) (fun p X => X))) fw g (FG n Tn En)) as [EQ _]. fold O in EQ. rewrite EQ. clear EQ.
    destruct (review_ends E o c n (res n) a g HE Ho Hdot (CN n Tn) AU RD1 (MD n Tn)) as [(r & z & R1 & R2 & R3)|X]; [left|right; exact X].
    exists r, z. split; [exact R1|]. split; [exact R2|]. destruct r; (split; [intros X; try discriminate X; try exact R3|intros X; try exact R3; now elim X]). }
  assert (HIST : forall n b v, In (n, b, v) hist -> exists r z, v = (final (res n) r, r, z) /\ reviewed c (res n) b r z /\
    (r = FREEZE -> accepted E O n g (fst (solo (ask_proc E O c n (res n) b) g))) /\ (r <> FREEZE -> fst (solo (ask_proc E O c n (res n) b) g) = g)).
  { intros n b v Hn. destruct (s_hist _ _ _ _ _ _ _ _ _ _ _ _ _ _ _ _ _ S n b v Hn) as [X _].
    destruct (REV n b) as [(r & z & R1 & R2 & R3)|(_ & _ & R & _)]; [apply in_or_app; left; apply in_map_iff; now exists (n, b, v)| |congruence].
    exists r, z. rewrite R2 in X. injection X as <-. auto. }
  assert (NAMES : map fst (asked_of hist) = map p_name hist) by (unfold asked_of; rewrite map_map; reflexivity).
  assert (PRES : forall h, In h hist -> p_res h = final (res (p_name h)) (p_req h)).
  { intros [[n b] v] Hn. destruct (HIST n b v Hn) as (r & z & -> & _). reflexivity. }
  assert (STOPI : forall h, In h hist -> p_stops c h = true -> stops c (res (p_name h)) (p_req h)).
  { intros h Hh X. unfold p_stops in X. rewrite (PRES h Hh) in X. apply orb_true_iff in X as [X|X]; [left; destruct (p_req h); [discriminate|reflexivity|discriminate] || (destruct (p_req h); try discriminate X; reflexivity)|].
    apply andb_true_iff in X as [X1 X2]. right. split; [exact X1|]. intros Y. rewrite Y in X2. discriminate X2. }
  assert (NDN : NoDup (map p_name hist)) by (apply (NoDup_prefix _ _ (s_names _ _ _ _ _ _ _ _ _ _ _ _ _ _ _ _ _ S))).
  assert (F0 : forall p, ~ booked E o p -> lookup p f0 = lookup p f).
  { intros p N. unfold f0, par_prepare.
    assert (RF' : path_join O (lit "cases.txt") = O ++ SLASH :: lit "cases.txt") by (apply path_join_name; [now apply HO|reflexivity]). rewrite RF'.
    assert (BC : booked E o (O ++ SLASH :: lit "cases.txt")) by (left; right; now left). rewrite (write_booked E o _ _ (rm_rf _ f) BC p N), lookup_rm.
    assert (BE : batches_dir O = (E ++ SLASH :: o) ++ SLASH :: lit ".batches") by now apply batches_eq. rewrite BE.
    destruct (below _ p || str_eqb _ p) eqn:X; [|reflexivity]. exfalso. apply N. left. left. apply orb_true_iff in X as [X|X]; [now apply prefix_below|].
    apply str_eqb_eq in X. subst p. apply prefix_refl. }
  assert (FRAME : forall p, ~ booked E o p -> (forall n, In n todo -> ~ own E o n p) -> lookup p (k_fs y) = lookup p f).
  { intros p N X. rewrite (s_same _ _ _ _ _ _ _ _ _ _ _ _ _ _ _ _ _ S); [|intros U; apply N; now apply unkept_booked|].
    - rewrite (proj2 (INV _ _ ST) p); [now apply F0|]. intros m Hm [[Y|Y]|[->| ->]]; [now apply (X m)| | |]; apply N; [now apply (booked_bdir E o m)|apply booked_metrics|apply booked_index].
    - intros n Hn Y. apply (X n); [apply TAKEN; exact Hn|now apply touched_own]. }
  pose proof (s_end _ _ _ _ _ _ _ _ _ _ _ _ _ _ _ _ _ S) as SE. rewrite EE in SE. destruct SE as (_ & CN0 & pend & extra & EP & ER' & WHY).
  pose proof (s_names _ _ _ _ _ _ _ _ _ _ _ _ _ _ _ _ _ S) as NDA. rewrite EP, map_app, !app_assoc in NDA. apply NoDup_prefix in NDA. rewrite <- app_assoc in NDA.
  assert (RECS1 : recs_of durP hist = map (fun d => (fst d, final (res (fst d)) (snd d), durP (fst d))) (asked_of hist)).
  { unfold recs_of, asked_of. rewrite map_map. apply map_ext_in. intros h Hh. cbn [fst snd]. now rewrite PRES. }
  assert (RECS2 : pend = map (fun n => (n, res n, durP n)) (map rec_name pend)).
  { rewrite map_map. rewrite <- (map_id pend) at 1. apply map_ext_in. intros r Hr. apply (s_reports _ _ _ _ _ _ _ _ _ _ _ _ _ _ _ _ _ S). rewrite EP. apply in_or_app. now left. }
  assert (ONE : forall n m p, In n todo -> own E o n p -> In m (map p_name hist ++ cur_name cur) -> touched E o m p -> n = m).
  { intros n m p Hn OW Hm T. destruct (TAKEN m Hm) as (Tm & _ & _). exact (own_disjoint E o Hdot names n m p SEP (IN n Hn) (IN m Tm) OW (touched_own E o m p T)). }
  exists hist, cur, (map rec_name pend). cbv zeta. rewrite NAMES. split; [|split; [|split; [|split; [|split; [|split; [|split; [|split; [|split; [|split; [|split; [|split; [|split; [|split; [|split; [|split; [|split; [|split]]]]]]]]]]]]]]]]].
  - apply chain_reviews; [apply (s_chain _ _ _ _ _ _ _ _ _ _ _ _ _ _ _ _ _ S)| |].
    + intros n b v Hn. destruct (HIST n b v Hn) as (r & z & X1 & X2 & _). eauto.
    + intros h x0 h' EQ X. apply (s_stops _ _ _ _ _ _ _ _ _ _ _ _ _ _ _ _ _ S h x0 h' EQ X).
  - rewrite (s_ok _ _ _ _ _ _ _ _ _ _ _ _ _ _ _ _ _ S). unfold asked_of. clear -PRES. induction hist as [|h hist IH]; [reflexivity|].
    cbn [map forallb fst snd]. rewrite IH by (intros h' Hh'; apply PRES; now right). now rewrite PRES by now left.
  - now rewrite <- RECS2, ER', RECS1.
  - now rewrite (s_recs _ _ _ _ _ _ _ _ _ _ _ _ _ _ _ _ _ S).
  - pose proof (s_now _ _ _ _ _ _ _ _ _ _ _ _ _ _ _ _ _ S) as SN. destruct (k_cut y) as [[lf|]|]; [exact I| |].
    + destruct cur as [[n a]|]; [|destruct SN]. destruct SN as (_ & Q2 & _). pose proof (s_answers _ _ _ _ _ _ _ _ _ _ _ _ _ _ _ _ _ S n a eq_refl) as ->.
      destruct (REV n (k_answers y)) as [(r & z & _ & R2 & _)|(R1 & R2 & _)]; [apply in_or_app; right; now left|congruence|]. exists n. auto.
    + rewrite (CN0 eq_refl). split; [reflexivity|]. destruct WHY as [X|[X|[-> X]]]; [left|now elim X|right; now split].
      apply existsb_exists in X as (h & Hh & X). exists (p_name h), (p_req h). split; [|now apply STOPI]. unfold asked_of. apply in_map_iff. now exists h.
  - exact NDA.
  - intros n Hn. apply (s_seen _ _ _ _ _ _ _ _ _ _ _ _ _ _ _ _ _ S), (s_in _ _ _ _ _ _ _ _ _ _ _ _ _ _ _ _ _ S). rewrite EP, map_app, !app_assoc. apply in_or_app. left. now rewrite <- app_assoc.
  - exact (s_sched _ _ _ _ _ _ _ _ _ _ _ _ _ _ _ _ _ S).
  - intros n d Hn Hd Td. destruct (in_dec (list_eq_dec N.eq_dec) d (k_sched y)) as [X|X]; [exact X|]. exfalso.
    destruct (s_deps _ _ _ _ _ _ _ _ _ _ _ _ _ _ _ _ _ S n d Hn Hd Td) as [oc Y]. rewrite (s_wait _ _ _ _ _ _ _ _ _ _ _ _ _ _ _ _ _ S d X) in Y. destruct (INIT d Td) as [s Z]. congruence.
  - intros n p Hn OW. fold (own E o n p) in OW. assert (NBK : ~ booked E o p) by (apply (NB n); auto). assert (NU : ~ unkept E o p) by (intros U; apply NBK; now apply unkept_booked).
    split.
    + intros NS. rewrite (s_same _ _ _ _ _ _ _ _ _ _ _ _ _ _ _ _ _ S); [|exact NU|].
      * rewrite (s_idle _ _ _ _ _ _ _ _ _ _ _ _ _ _ _ _ _ S n Hn NS) by now left. now apply F0.
      * intros m Hm Y. apply NS. destruct (TAKEN m Hm) as (Tm & Sm & _). now rewrite (ONE n m p Hn OW Hm Y).
    + intros SN NF NL. specialize (ALLE n SN). rewrite <- (FG n Hn ALLE p OW).
      destruct (in_dec (list_eq_dec N.eq_dec) n (map p_name hist)) as [X|X]; [destruct (touched_dec E o n p) as [Y|Y]|].
      * apply in_map_iff in X as ([[m b] v] & EQ & Hm). cbn [p_name fst] in EQ. subst m. destruct (HIST n b v Hm) as (r & z & -> & _ & _ & K).
        assert (NZ : r <> FREEZE) by (intros ->; apply NF; unfold asked_of; apply in_map_iff; now exists (n, b, (OK, FREEZE, z))). specialize (K NZ).
        destruct (s_hist _ _ _ _ _ _ _ _ _ _ _ _ _ _ _ _ _ S _ _ _ Hm) as [_ AG]. rewrite (AG p Y).
        destruct (proj2 (local_solo _ _ _ (ask_local E o HE Ho (own E o n) c n (res n) b (CN n Hn) (fun p X => X))) fw g (FG n Hn ALLE)) as [_ AG2]. fold O in AG2.
        rewrite (AG2 p OW), K. symmetry. now apply (FG n Hn ALLE).
      * apply (s_same _ _ _ _ _ _ _ _ _ _ _ _ _ _ _ _ _ S); [exact NU|]. intros m Hm Z. rewrite (ONE n m p Hn OW Hm Z) in Y. contradiction.
      * apply (s_same _ _ _ _ _ _ _ _ _ _ _ _ _ _ _ _ _ S); [exact NU|]. intros m Hm Z. rewrite <- (ONE n m p Hn OW Hm Z) in Hm. apply in_app_or in Hm as [Hm|Hm]; contradiction.
  - intros n Hn. unfold asked_of in Hn. apply in_map_iff in Hn as ([[m b] v] & EQ & Hm). unfold p_name, p_req in EQ. cbn [fst snd] in EQ. injection EQ as -> EQ.
    destruct (HIST n b v Hm) as (r & z & -> & _ & K & _). cbn [fst snd] in EQ. subst r. specialize (K eq_refl).
    assert (Tn : In n todo /\ In n (k_sched y) /\ ended (k_st y n)) by (apply TAKEN; apply in_or_app; left; apply in_map_iff; eexists; split; [|exact Hm]; reflexivity). destruct Tn as (Tn & _ & En).
    pose proof (local_solo _ _ _ (ask_local E o HE Ho (own E o n) c n (res n) b (CN n Tn) (fun p X => X))) as [LS1 LS2]. destruct (LS2 fw g (FG n Tn En)) as [_ AG2]. fold O in LS1, AG2.
    exists (fst (solo (ask_proc E O c n (res n) b) g)). split; [exact K|]. intros p OW. fold (own E o n p) in OW.
    assert (NBK : ~ booked E o p) by (apply (NB n); auto). assert (NU : ~ unkept E o p) by (intros U; apply NBK; now apply unkept_booked).
    destruct (touched_dec E o n p) as [Y|Y].
    + destruct (s_hist _ _ _ _ _ _ _ _ _ _ _ _ _ _ _ _ _ S _ _ _ Hm) as [_ AG]. rewrite (AG p Y). now apply AG2.
    + rewrite (LS1 g p Y). rewrite <- (FG n Tn En p OW). apply (s_same _ _ _ _ _ _ _ _ _ _ _ _ _ _ _ _ _ S); [exact NU|]. intros m Hk Z. rewrite (ONE n m p Tn OW Hk Z) in Y. contradiction.
  - intros n Hn. pose proof (s_now _ _ _ _ _ _ _ _ _ _ _ _ _ _ _ _ _ S) as SN. destruct cur as [[m a]|]; [|destruct Hn]. destruct Hn as [->|[]].
    destruct (TAKEN n) as (Tn & _ & En); [apply in_or_app; right; now left|]. pose proof (s_answers _ _ _ _ _ _ _ _ _ _ _ _ _ _ _ _ _ S n a eq_refl) as ->. pose proof (ask_local E o HE Ho (own E o n) c n (res n) (k_answers y) (CN n Tn) (fun p X => X)) as LA. fold O in LA.
    assert (SUB : forall p, own E o n p -> own' E o n p) by (intros p X; now left).
    destruct (k_cut y) as [[lf|]|].
    + destruct SN as (_ & q & g1 & P1 & P2). destruct (part_local (own E o n) (touched E o n) _ fw g q g1 LA (FG n Tn En) P1) as (_ & g2 & P3 & P4).
      exists g2. split; [|intros p OW; rewrite <- (P4 p OW); apply P2; now left].
      destruct (ask_part E O c n (res n) (k_answers y) g q g2 (proj1 (RS n Tn)) P3) as [->|[[X1 X2] X3]]; [now left|right; auto].
    + destruct SN as (_ & Q2 & Q3). exists g. split; [now left|]. intros p OW. rewrite (Q3 p (SUB p OW)).
      destruct (proj2 (local_solo _ _ _ LA) fw g (FG n Tn En)) as [_ X]. rewrite (X p OW).
      destruct (REV n (k_answers y)) as [(r & z & _ & R2 & _)|(R1 & R2 & _ & ->)]; [apply in_or_app; right; now left|congruence|reflexivity].
    + now discriminate (CN0 eq_refl).
  - intros p N1 N2 N3. assert (NBK : ~ booked E o p) by (intros [X|X]; contradiction). now apply FRAME.
  - exact (s_shown _ _ _ _ _ _ _ _ _ _ _ _ _ _ _ _ _ S).
  - exact (s_answers _ _ _ _ _ _ _ _ _ _ _ _ _ _ _ _ _ S).
  - intros r a gs Hs. destruct (s_shows _ _ _ _ _ _ _ _ _ _ _ _ _ _ _ _ _ S r a gs Hs) as [X1 X2]. split; [exact X1|]. intros p OW.
    destruct (TAKEN (rec_name r)) as (Tn & _ & En); [|rewrite (X2 p (or_introl OW)); now apply (FG (rec_name r) Tn En)].
    assert (X : In (rec_name r, a) (map (fun s => (rec_name (fst (fst s)), snd (fst s))) (k_shown y))) by (apply in_map_iff; now exists (r, a, gs)).
    rewrite (s_shown _ _ _ _ _ _ _ _ _ _ _ _ _ _ _ _ _ S) in X. apply in_app_or in X as [X|X]; apply in_or_app; [left|right].
    + apply in_map_iff in X as (h & E1 & Hh). apply in_map_iff. exists h. split; [|exact Hh]. unfold p_name. now rewrite E1.
    + destruct cur as [[n b]|]; [|destruct X]. destruct X as [X|[]]. injection X as -> _. now left.
  - exact (s_chain _ _ _ _ _ _ _ _ _ _ _ _ _ _ _ _ _ S).
  - intros n b v Hn. destruct (HIST n b v Hn) as (r & z & X1 & X2 & _). eauto.
  - pose proof (s_left _ _ _ _ _ _ _ _ _ _ _ _ _ _ _ _ _ S) as SL. destruct (k_cut y) as [[lf|]|]; [|exact I|exact I]. destruct SL as (X1 & X2 & X3). split; [exact X1|]. split; [exact X2|].
    intros n Hn NI. rewrite app_assoc. apply in_or_app. destruct (X3 n Hn NI) as [X|X]; [now left|]. rewrite EE, ER', map_app in X. apply in_app_or in X as [X|X]; [|now right].
    left. apply in_or_app. left. unfold recs_of in X. rewrite map_map in X. exact X.
Qed.

(** However the main thread, the user and the workers take turns; [ctrl_c]: the run was interrupted. *)
Theorem C127_asking_in_parallel :
  forall cc refloat E o c body (D : Type) (show_dur : D -> str) parse_dur sp durS durP all_names printed metrics_of metricsS metricsP names deps
    selected answersS answers f rv recs rest g,
  plain_dir E -> plain o -> starts_with [DOT] o = true -> let O := E ++ SLASH :: o in
  update c = false -> (always_interactive c = true -> accept c = false) -> durations_ok show_dur parse_dur -> space_ok sp ->
  separate names -> ~ In (lit "output") names ->
  (forall n, In n names -> field_ok n /\ incl (deps n) names /\ reads_deps E O deps n (body n)) ->
  NoDup selected -> incl selected names -> deps_first deps selected -> (forall n, In n selected -> ready E O n f) ->
  run_async cc refloat E O O (unattended c) body show_dur parse_dur sp durS all_names metricsS selected answersS f = Some (Ret (rv, recs, rest) g) ->
  let todo := par_todo O c parse_dur sp selected f in let kept := par_kept O c parse_dur sp selected f in
  exists res, recs = kept ++ map (fun n => (n, res n, durS n)) todo /\
  (** until the run is over, something can be done *)
  (forall y, ask_steps E O c parse_dur sp all_names metricsP deps todo (ask_start cc refloat E O c body show_dur parse_dur sp durP all_names printed metrics_of selected answers f) y ->
     over y \/ exists z, ask_step E O c parse_dur sp all_names metricsP deps todo y z) /\
  forall ctrl_c x, ask_run cc refloat E O c body show_dur parse_dur sp durP all_names printed metrics_of metricsP deps selected answers f ctrl_c x ->
  exists done left lost pending started h,
    let code := forallb (fun d => is_ok (final (res (fst d)) (snd d))) done in
    let all := kept ++ map (fun d => (fst d, final (res (fst d)) (snd d), durP (fst d))) done ++ map (fun n => (n, res n, durP n)) pending in
    reviews c res answers done left /\
    ((** it ends because of the last review, or because all tests were reviewed *)
     (ctrl_c = false /\ x = Ret (code, all) h /\ lost = [] /\
        ((exists n r, In (n, r) done /\ stops c (res n) r) \/ (pending = [] /\ forall n, In n todo -> In n (map fst done)))) \/
     (** it was interrupted *)
     (ctrl_c = true /\ x = Ret (code, all) h /\ length lost <= 1) \/
     (** the user gave no further answer *)
     (ctrl_c = false /\ x = Raise h /\ exists n, lost = [n] /\ asked c (res n) /\ forall r z, ~ decision (res n) left r z)) /\
    NoDup (map fst done ++ lost ++ pending) /\ incl (map fst done ++ lost ++ pending) started /\ incl started todo /\
    (forall n d, In n started -> In d (deps n) -> In d todo -> In d started) /\
    (** the files *)
    (forall n p, In n todo -> area E n p \/ area O n p ->
       (~ In n started -> lookup p h = lookup p f) /\
       (In n started -> ~ In (n, FREEZE) done -> ~ In n lost -> lookup p h = lookup p g)) /\
    (forall n, In (n, FREEZE) done -> exists g', accepted E O n g g' /\ forall p, area E n p \/ area O n p -> lookup p h = lookup p g') /\
    (** the interrupted review was possibly about to accept the output *)
    (forall n, In n lost -> exists g', (g' = g \/ ctrl_c = true /\ asked c (res n) /\ (exists z, decision (res n) left FREEZE z) /\ freeze_killed E O n g g') /\
       forall p, area E n p \/ area O n p -> lookup p h = lookup p g') /\
    (forall p, ~ bookkeeping O p -> p <> E ++ SLASH :: lit "index.md" -> (forall n, In n todo -> ~ (area E n p \/ area O n p)) -> lookup p h = lookup p f) /\
    lookup (O ++ SLASH :: lit "cases.txt") h = Some (report_text show_dur all).
Proof.
  intros cc refloat E o c body D show_dur parse_dur sp durS durP all_names printed metrics_of metricsS metricsP names deps
    selected answersS answers f rv recs rest g HE Ho Hdot O HU HAI DUR SPC SEP NOUT HN ND INS ORD RD H todo kept0.
  destruct (asking cc refloat E o c body D show_dur parse_dur sp durS durP all_names printed metrics_of metricsS metricsP names deps
    selected answersS answers f rv recs rest g HE Ho Hdot HU HAI DUR SPC SEP NOUT HN ND INS ORD RD H) as (res & ER & PR & ALL). fold O in ER, PR, ALL. fold todo kept0 in ER. fold todo in PR, ALL.
  exists res. split; [exact ER|]. split; [exact PR|]. intros ctrl_c x (y & recs' & STEPS & EE & AE & -> & ->). fold O in STEPS. fold todo in STEPS.
  destruct (ALL y recs' STEPS EE AE) as (hist & cur & pending & RV & OKS & ER' & _ & WHY & NDA & IA & IT & DP & F1 & F2 & F3 & F4 & _). clear ALL PR. subst recs'. fold kept0.
  match goal with |- context [report_text show_dur ?z] => set (all := z) end. set (h := write_file (path_join O (lit "cases.txt")) (report_text show_dur all) (k_fs y)).
  assert (CASES : forall p, ~ booked E o p -> lookup p h = lookup p (k_fs y)).
  { intros p N. unfold h. rewrite (path_join_name O (lit "cases.txt")); [|now apply HO|reflexivity]. apply (write_booked E o); [left; right; now left|exact N]. }
  assert (NB : forall n p, In n todo -> own E o n p -> ~ booked E o p).
  { intros n p Hn X. apply (no_nb E o Hdot names SEP NOUT n p); [|exact X]. apply INS. now apply todo_incl in Hn. }
  exists (asked_of hist), (k_answers y), (cur_name cur), pending, (k_sched y), h. cbv zeta.
  split; [exact RV|]. split; [|split; [exact NDA|split; [exact IA|split; [exact IT|split; [exact DP|split; [|split; [|split; [|split]]]]]]]].
  - destruct (k_cut y) as [[lf|]|].
    + right. left. split; [reflexivity|]. split; [rewrite <- OKS; reflexivity|]. destruct cur as [[n a]|]; [apply le_n|apply Nat.le_0_l].
    + right. right. split; [reflexivity|]. split; [reflexivity|exact WHY].
    + left. split; [reflexivity|]. split; [rewrite <- OKS; reflexivity|exact WHY].
  - intros n p Hn OW. rewrite CASES by exact (NB n p Hn OW). now apply F1.
  - intros n Hn. destruct (F2 n Hn) as (g' & X1 & X2). exists g'. split; [exact X1|]. intros p OW. rewrite CASES; [now apply X2|]. apply (NB n p); [|exact OW]. apply IT, IA, in_or_app. left. apply in_map_iff. now exists (n, FREEZE).
  - intros n Hn. destruct (F3 n Hn) as (g' & X1 & X2). exists g'. split; [exact X1|]. intros p OW. rewrite CASES; [now apply X2|]. apply (NB n p); [|exact OW]. apply IT, IA, in_or_app. right. apply in_or_app. now left.
  - intros p N1 N2 N3. rewrite CASES; [now apply F4|]. intros [X|X]; contradiction.
  - unfold h. rewrite (path_join_name O (lit "cases.txt")); [|now apply HO|reflexivity]. now rewrite lookup_write, str_eqb_refl.
Qed.
Print Assumptions C127_asking_in_parallel.

(** Nothing goes on for ever. *)
Theorem C127_asking_ends :
  forall E O c (D : Type) (parse_dur : str -> option D) sp all_names metrics deps todo y,
  Acc (fun z y => ask_step E O c parse_dur sp all_names metrics deps todo y z) y.
Proof. intros. apply ask_ends. Qed.
Print Assumptions C127_asking_ends.

(** ** Examples *)
Section Turn.
Variables exp_dir out_dir : str.
Variable c : config.
Context {D : Type} (parse_dur : str -> option D) (sp : char -> bool).
Variable all_names : list str.
Variable par_metrics : str.
Variable deps : str -> list str.
Variable todo : list str.
Notation step := (ask_step exp_dir out_dir c parse_dur sp all_names par_metrics deps todo).
Notation steps := (ask_steps exp_dir out_dir c parse_dur sp all_names par_metrics deps todo).
Lemma steps_trans x y z : steps x y -> steps y z -> steps x z.
Proof. intros H1 H2. revert H1. induction H2 as [|a b d H2 IH P]; intros H1; [exact H1|]. eapply KS1; [apply IH; exact H1|exact P]. Qed.
Lemma steps_one x y : step x y -> steps x y.
Proof. intros H. econstructor; [constructor|exact H]. Qed.

Lemma work_steps n p : forall st sched f seen reports shown now recs ok stop answers cut e, In n sched -> st n = p -> exists st',
  steps {| k_st := st; k_sched := sched; k_fs := f; k_seen := seen; k_reports := reports; k_shown := shown; k_now := now; k_recs := recs; k_ok := ok; k_stop := stop; k_answers := answers; k_cut := cut; k_end := e |}
        {| k_st := st'; k_sched := sched; k_fs := fst (solo p f); k_seen := seen; k_reports := reports; k_shown := shown; k_now := now; k_recs := recs; k_ok := ok; k_stop := stop; k_answers := answers; k_cut := cut; k_end := e |} /\
  st' n = Halt (snd (solo p f)) /\ forall m, m <> n -> st' m = st m.
Proof.
  induction p as [oc|s IH] using proc_ind2; intros st sched f seen reports shown now recs ok stop answers cut e Hn Ep; cbn [solo].
  - exists st. split; [constructor|]. auto.
  - destruct (IH f (set_proc st n (snd (s f))) sched (fst (s f)) seen reports shown now recs ok stop answers cut e Hn) as (st' & K1 & K2 & K3); [unfold set_proc; now rewrite str_eqb_refl|].
    pose proof (KWork exp_dir out_dir c parse_dur sp all_names par_metrics deps todo st sched f seen reports shown now recs ok stop answers cut e n s Hn Ep) as P.
    exists st'. destruct (s f) as [g q]. cbn [fst snd] in *. split; [eapply steps_trans; [apply steps_one; exact P|exact K1]|]. split; [exact K2|].
    intros m NM. rewrite K3 by exact NM. unfold set_proc. destruct (str_eqb_spec n m); [congruence|reflexivity].
Qed.
Lemma review_steps r q : forall st sched f seen reports shown recs ok stop answers cut e,
  steps {| k_st := st; k_sched := sched; k_fs := f; k_seen := seen; k_reports := reports; k_shown := shown; k_now := Some (r, q); k_recs := recs; k_ok := ok; k_stop := stop; k_answers := answers; k_cut := cut; k_end := e |}
        {| k_st := st; k_sched := sched; k_fs := fst (solo q f); k_seen := seen; k_reports := reports; k_shown := shown; k_now := Some (r, Halt (snd (solo q f))); k_recs := recs; k_ok := ok; k_stop := stop; k_answers := answers; k_cut := cut; k_end := e |}.
Proof.
  induction q as [oc|s IH] using proc_ind2; intros st sched f seen reports shown recs ok stop answers cut e; cbn [solo]; [constructor|].
  specialize (IH f st sched (fst (s f)) seen reports shown recs ok stop answers cut e).
  pose proof (KReview exp_dir out_dir c parse_dur sp all_names par_metrics deps todo st sched f seen reports shown recs ok stop answers cut e r s) as P.
  destruct (s f) as [g q]. cbn [fst snd] in *. eapply steps_trans; [apply steps_one; exact P|exact IH].
Qed.

(** a test runs, and is reviewed before the next one starts *)
Lemma turn st sched f seen shown recs ok answers n p r : In n todo -> ~ In n sched -> ~ In n seen -> (forall d, In d (deps n) -> In d todo -> In d seen) -> st n = p ->
  batch_record out_dir parse_dur sp n (fst (solo p f)) = Some r ->
  let q := solo (ask_proc exp_dir out_dir c (rec_name r) (rec_result r) answers) (fst (solo p f)) in
  exists st', (exists oc, st' n = Halt oc) /\ (forall m, m <> n -> st' m = st m) /\
    steps {| k_st := st; k_sched := sched; k_fs := f; k_seen := seen; k_reports := []; k_shown := shown; k_now := None; k_recs := recs; k_ok := ok; k_stop := false; k_answers := answers; k_cut := None; k_end := None |}
          {| k_st := st'; k_sched := n :: sched; k_fs := fst q; k_seen := n :: seen; k_reports := []; k_shown := shown ++ [(r, answers, fst (solo p f))]; k_now := Some (r, Halt (snd q)); k_recs := recs; k_ok := ok; k_stop := false; k_answers := answers; k_cut := None; k_end := None |}.
Proof.
  intros Hn N1 N2 Hd Ep B q. destruct (work_steps n p st (n :: sched) f seen [] shown None recs ok false answers None None (or_introl eq_refl) Ep) as (st' & K1 & K2 & K3).
  exists st'. split; [eauto|]. split; [exact K3|].
  eapply steps_trans; [apply steps_one; apply KSchedule; [exact Hn|exact N1|exact Hd]|]. eapply steps_trans; [exact K1|].
  eapply steps_trans; [apply steps_one; eapply KReport; [now left|eexists; exact K2|exact N2|exact B]|]. cbn [app].
  eapply steps_trans; [apply steps_one; apply KTake|]. apply review_steps.
Qed.
End Turn.

Definition ask_conf (always acc ff : bool) : config :=
  {| always_interactive := always; interactive := true; update := false; accept := acc; cont := false; fail_fast := ff; point_error_pos := true |}.
Notation demo_ask always acc ff answers ctrl_c x :=
  (ask_run ascii_class no_float demo_E demo_O (ask_conf always acc ff) demo_using (fun _ : unit => lit "7") (fun _ => Some tt) (fun c => N.eqb c SP) (fun _ => tt) demo_two
    (fun n => n) (fun n => n) (lit "{}") demo_deps demo_two answers demo_f0 ctrl_c x).
Notation demo_worker := (worker ascii_class no_float demo_E demo_O (ask_conf false false false) demo_using (fun _ : unit => lit "7") (fun _ => Some tt) (fun c => N.eqb c SP) (fun _ => tt) demo_two (fun n => n) (fun n => n)).

(** The first test passes, the second is shown to the user, who accepts it or stops. *)
Lemma demo_asks (q : bool) : exists recs h, demo_ask false false false [if q then lit "q" else lit "a"] false (Ret (negb q, recs) h) /\
  lookup (lit "books/t/b.md") h = if q then lookup (lit "books/t/b.md") demo_f0 else Some (lit "t/a" ++ [NL]).
Proof.
  pose (c := ask_conf false false false). pose (pd := fun _ : str => Some tt). pose (sd := fun _ : unit => lit "7"). pose (spc := fun k => N.eqb k SP).
  pose (f0 := par_prepare demo_O c sd pd spc demo_two demo_f0).
  pose (ans := [if q then lit "q" else lit "a"]).
  destruct (turn demo_E demo_O c pd spc demo_two (lit "{}") demo_deps demo_two demo_worker [] f0 [] [] [] true ans (lit "t/a") (demo_worker (lit "t/a")) (lit "t/a", OK, tt)) as (st1 & E1 & S1 & T1).
  { now left. }
  { intros []. }
  { intros []. }
  { intros d Hd. vm_compute in Hd. destruct Hd. }
  { reflexivity. }
  { vm_compute. reflexivity. }
  match type of T1 with ask_steps _ _ _ _ _ _ _ _ _ _ ?y => let z := eval cbn [k_shown app] in (k_shown y) in pose (sh1 := z) end.
  set (f1 := fst (solo (ask_proc _ _ _ _ _ _) _)) in T1.
  destruct (turn demo_E demo_O c pd spc demo_two (lit "{}") demo_deps demo_two st1 [lit "t/a"] f1 [lit "t/a"] sh1 [(lit "t/a", OK, tt)] true ans (lit "t/b") (demo_worker (lit "t/b")) (lit "t/b", DIFF, tt)) as (st2 & E2 & S2 & T2).
  { right. now left. }
  { intros [X|[]]; discriminate X. }
  { intros [X|[]]; discriminate X. }
  { intros d Hd _. vm_compute in Hd. destruct Hd as [<-|[]]. now left. }
  { rewrite S1; [reflexivity|discriminate]. }
  { destruct q; vm_compute; reflexivity. }
  match type of T2 with ask_steps _ _ _ _ _ _ _ _ _ _ ?y => let z := eval cbn [k_shown app] in (k_shown y) in pose (sh2 := z) end.
  set (f2 := fst (solo (ask_proc _ _ _ _ _ _) _)) in T2.
  set (o2 := snd (solo (ask_proc _ _ _ _ _ _) _)) in T2.
  assert (O2 : o2 = Value (if q then DIFF else OK, if q then ABORT else FREEZE, [])) by (destruct q; vm_compute; reflexivity). rewrite O2 in T2.
  set (o1 := snd (solo (ask_proc _ _ _ _ _ _) _)) in T1. assert (O1 : o1 = Value (OK, NONE, ans)) by (destruct q; vm_compute; reflexivity). rewrite O1 in T1.
  set (y := {| k_st := st2; k_sched := [lit "t/b"; lit "t/a"]; k_fs := ask_files demo_E demo_O demo_two (lit "{}") demo_two f2; k_seen := [lit "t/b"; lit "t/a"]; k_reports := @nil (case_rec unit); k_shown := sh2; k_now := None;
    k_recs := [(lit "t/a", OK, tt); (lit "t/b", if q then DIFF else OK, tt)]; k_ok := negb q; k_stop := true; k_answers := []; k_cut := None; k_end := Some ([(lit "t/a", OK, tt); (lit "t/b", if q then DIFF else OK, tt)] ++ []) |}).
  do 2 eexists. split.
  - exists y. eexists. split; [|split; [reflexivity|split; [|split; reflexivity]]].
    + eapply steps_trans; [exact T1|]. eapply steps_trans; [apply steps_one, KReviewed|]. cbn [rec_name rec_dur fst snd app andb is_ok is_abort orb negb fail_fast c ask_conf].
      eapply steps_trans; [exact T2|]. eapply steps_trans; [apply steps_one, KReviewed|]. cbn [rec_name rec_dur fst snd app andb is_ok is_abort orb negb fail_fast c ask_conf].
      apply steps_one. unfold y. destruct q; apply KLeave; [now left|]. right. right. split; [reflexivity|]. intros n [<-|[<-|[]]]; cbn [In]; tauto.
    + intros n [<-|[<-|[]]]; [exact E2|]. cbn [k_st y]. rewrite S2; [exact E1|discriminate].
  - destruct q; vm_compute; reflexivity.
Qed.

Lemma demo_alone always acc ff : exists rv recs g, run_async ascii_class no_float demo_E demo_O demo_O (unattended (ask_conf always acc ff)) demo_using (fun _ : unit => lit "7") (fun _ => Some tt) (fun c => N.eqb c SP) (fun _ => tt)
    demo_two (lit "{}") demo_two [] demo_f0 = Some (Ret (rv, recs, []) g) /\ map (fun r => (rec_name r, rec_result r)) recs = [(lit "t/a", OK); (lit "t/b", if acc then OK else DIFF)].
Proof. change (unattended (ask_conf always acc ff)) with (demo_conf acc). destruct acc; (do 3 eexists; split; [vm_compute; reflexivity|reflexivity]). Qed.

(** The hypotheses of C127 are met, there is a run, and what it leads to: with 'a' the second test is accepted, with 'q' not. *)
Example C127_example : forall q : bool, exists res recs h,
  demo_ask false false false [if q then lit "q" else lit "a"] false (Ret (negb q, recs) h) /\
  reviews (ask_conf false false false) res [if q then lit "q" else lit "a"] [(lit "t/a", NONE); (lit "t/b", if q then ABORT else FREEZE)] [] /\
  lookup (lit "books/t/b.md") h = (if q then lookup (lit "books/t/b.md") demo_f0 else Some (lit "t/a" ++ [NL])).
Proof.
  intros q. destruct (demo_asks q) as (recs & h & A & L). destruct (demo_alone false false false) as (rv & recs0 & g & S & R).
  destruct (C127_asking_in_parallel ascii_class no_float demo_E demo_o (ask_conf false false false) demo_using unit (fun _ : unit => lit "7") (fun _ => Some tt) (fun c => N.eqb c SP)
    (fun _ => tt) (fun _ => tt) demo_two (fun n => n) (fun n => n) (lit "{}") (lit "{}") demo_two demo_deps demo_two [] [if q then lit "q" else lit "a"] demo_f0 rv recs0 [] g
    (proj1 demo_dirs) (proj1 (proj2 demo_dirs)) eq_refl eq_refl (fun _ => eq_refl) demo_durations demo_space
    demo_separate demo_not_output demo_tests demo_NoDup (incl_refl _) demo_first demo_ready S) as (res & ER & _ & ALL).
  specialize (ALL _ _ A) as (done & left & lost & pending & started & h' & RV & _).
  exists res, recs, h. split; [exact A|]. split; [|exact L].
  change (par_kept demo_O (ask_conf false false false) (fun _ => Some tt) (fun c => N.eqb c SP) demo_two demo_f0) with (@nil (case_rec unit)) in ER.
  change (par_todo demo_O (ask_conf false false false) (fun _ => Some tt) (fun c => N.eqb c SP) demo_two demo_f0) with demo_two in ER. rewrite ER in R. cbn in R. injection R as RA RB. change (res (lit "t/a") = OK) in RA. change (res (lit "t/b") = DIFF) in RB.
  assert (NA : ~ asked (ask_conf false false false) (res (lit "t/a"))) by (intros [X|[X _]]; [discriminate X|now apply X]).
  assert (AB : asked (ask_conf false false false) (res (lit "t/b"))) by (right; split; [|reflexivity]; intros X; rewrite RB in X; discriminate X).
  eapply rv_next; [right; split; [exact NA|split; reflexivity]| |].
  - intros _ [X|[X _]]; discriminate X.
  - eapply rv_next; [left; split; [exact AB|]|now intros X; elim X|constructor].
    exists [], (if q then lit "q" else lit "a"). split; [now destruct q|]. split; [|intros b r []]. rewrite RB. destruct q; [right; right; now split|left]. split; [reflexivity|]. split; [discriminate|reflexivity].
Qed.

Lemma demo_answers :
    exists recs h, run_async ascii_class no_float demo_E demo_O demo_O (ask_conf true true false) demo_using (fun _ : unit => lit "7") (fun _ => Some tt) (fun c => N.eqb c SP) (fun _ => tt)
      demo_two (lit "{}") demo_two [lit "c"; lit "a"] demo_f0 = Some (Ret (OK, recs, []) h).
Proof. do 2 eexists. vm_compute. reflexivity. Qed.

(** With -I and -a: the worker has accepted the output, the user is asked, too, and an 'a' ends the run with an exception. In a
    sequential run the same answers are fine. *)
Theorem C128_parallel_answers_refuted :
  exists x, demo_ask true true false [lit "c"; lit "a"] false x /\ (exists h, x = Raise h) /\
    exists recs h, run_async ascii_class no_float demo_E demo_O demo_O (ask_conf true true false) demo_using (fun _ : unit => lit "7") (fun _ => Some tt) (fun c => N.eqb c SP) (fun _ => tt)
      demo_two (lit "{}") demo_two [lit "c"; lit "a"] demo_f0 = Some (Ret (OK, recs, []) h).
Proof.
  pose (c := ask_conf true true false). pose (pd := fun _ : str => Some tt). pose (sd := fun _ : unit => lit "7"). pose (spc := fun k => N.eqb k SP).
  pose (f0 := par_prepare demo_O c sd pd spc demo_two demo_f0).
  pose (W := worker ascii_class no_float demo_E demo_O c demo_using sd pd spc (fun _ => tt) demo_two (fun n => n) (fun n => n)).
  destruct (turn demo_E demo_O c pd spc demo_two (lit "{}") demo_deps demo_two W [] f0 [] [] [] true [lit "c"; lit "a"] (lit "t/a") (W (lit "t/a")) (lit "t/a", OK, tt)) as (st1 & E1 & S1 & T1).
  { now left. }
  { intros []. }
  { intros []. }
  { intros d Hd. vm_compute in Hd. destruct Hd. }
  { reflexivity. }
  { vm_compute. reflexivity. }
  match type of T1 with ask_steps _ _ _ _ _ _ _ _ _ _ ?y => let z := eval cbn [k_shown app] in (k_shown y) in pose (sh1 := z) end.
  set (f1 := fst (solo (ask_proc _ _ _ _ _ _) _)) in T1.
  set (o1 := snd (solo (ask_proc _ _ _ _ _ _) _)) in T1. assert (O1 : o1 = Value (OK, NONE, [lit "a"])) by (vm_compute; reflexivity). rewrite O1 in T1.
  destruct (turn demo_E demo_O c pd spc demo_two (lit "{}") demo_deps demo_two st1 [lit "t/a"] f1 [lit "t/a"] sh1 [(lit "t/a", OK, tt)] true [lit "a"] (lit "t/b") (W (lit "t/b")) (lit "t/b", OK, tt)) as (st2 & E2 & S2 & T2).
  { right. now left. }
  { intros [X|[]]; discriminate X. }
  { intros [X|[]]; discriminate X. }
  { intros d Hd _. vm_compute in Hd. destruct Hd as [<-|[]]. now left. }
  { rewrite S1; [reflexivity|discriminate]. }
  { vm_compute. reflexivity. }
  match type of T2 with ask_steps _ _ _ _ _ _ _ _ _ _ ?y => let z := eval cbn [k_shown app] in (k_shown y) in pose (sh2 := z) end.
  set (f2 := fst (solo (ask_proc _ _ _ _ _ _) _)) in T2.
  set (o2 := snd (solo (ask_proc _ _ _ _ _ _) _)) in T2. assert (O2 : o2 = Crashed) by (vm_compute; reflexivity). rewrite O2 in T2.
  eexists. split; [|split; [|]].
  - do 2 eexists. split; [eapply steps_trans; [exact T1|]; eapply steps_trans; [apply steps_one, KReviewed|]; eapply steps_trans; [exact T2|]; eapply steps_trans; [apply steps_one, KFail|]; apply steps_one, KLeave; right; left; discriminate|].
    cbn [k_end k_sched k_st k_cut k_fs]. split; [reflexivity|]. split; [|split; reflexivity]. intros n [<-|[<-|[]]]; [exact E2|]. rewrite S2; [exact E1|discriminate].
  - eauto.
  - exact demo_answers.
Qed.
Print Assumptions C128_parallel_answers_refuted.

(** Without -I and -a together: only if the user gives no answer about a test. *)
Theorem C128_parallel_answers_partial :
  forall cc refloat E o c body (D : Type) (show_dur : D -> str) parse_dur sp durS durP all_names printed metrics_of metricsS metricsP names deps
    selected answersS answers f rv recs rest g,
  plain_dir E -> plain o -> starts_with [DOT] o = true -> let O := E ++ SLASH :: o in
  update c = false -> (always_interactive c = true -> accept c = false) -> durations_ok show_dur parse_dur -> space_ok sp ->
  separate names -> ~ In (lit "output") names ->
  (forall n, In n names -> field_ok n /\ incl (deps n) names /\ reads_deps E O deps n (body n)) ->
  NoDup selected -> incl selected names -> deps_first deps selected -> (forall n, In n selected -> ready E O n f) ->
  run_async cc refloat E O O (unattended c) body show_dur parse_dur sp durS all_names metricsS selected answersS f = Some (Ret (rv, recs, rest) g) ->
  forall ctrl_c h, ask_run cc refloat E O c body show_dur parse_dur sp durP all_names printed metrics_of metricsP deps selected answers f ctrl_c (Raise h) ->
  exists res done left n, reviews c res answers done left /\ In n selected /\ asked c (res n) /\ forall r z, ~ decision (res n) left r z.
Proof.
  intros cc refloat E o c body D show_dur parse_dur sp durS durP all_names printed metrics_of metricsS metricsP names deps
    selected answersS answers f rv recs rest g HE Ho Hdot O HU HAI DUR SPC SEP NOUT HN ND INS ORD RD H ctrl_c h X.
  destruct (C127_asking_in_parallel cc refloat E o c body D show_dur parse_dur sp durS durP all_names printed metrics_of metricsS metricsP names deps
    selected answersS answers f rv recs rest g HE Ho Hdot HU HAI DUR SPC SEP NOUT HN ND INS ORD RD H) as (res & _ & _ & ALL).
  destruct (ALL _ _ X) as (done & left & lost & pending & started & h' & RV & WHY & _ & IA & IT & _).
  destruct WHY as [(_ & Y & _)|[(_ & Y & _)|(_ & _ & n & -> & A & ND')]]; [discriminate Y|discriminate Y|].
  exists res, done, left, n. split; [exact RV|]. split; [|now split]. assert (Tn : In n started) by (apply IA, in_or_app; right; now left). apply IT in Tn. now apply todo_incl in Tn.
Qed.
Print Assumptions C128_parallel_answers_partial.

(** no answer at all *)
Example C128_example : exists h, demo_ask false false false [] false (Raise h) /\ ~ exists r z, decision DIFF [] r z.
Proof.
  pose (c := ask_conf false false false). pose (pd := fun _ : str => Some tt). pose (sd := fun _ : unit => lit "7"). pose (spc := fun k => N.eqb k SP).
  pose (f0 := par_prepare demo_O c sd pd spc demo_two demo_f0).
  destruct (turn demo_E demo_O c pd spc demo_two (lit "{}") demo_deps demo_two demo_worker [] f0 [] [] [] true [] (lit "t/a") (demo_worker (lit "t/a")) (lit "t/a", OK, tt)) as (st1 & E1 & S1 & T1).
  { now left. }
  { intros []. }
  { intros []. }
  { intros d Hd. vm_compute in Hd. destruct Hd. }
  { reflexivity. }
  { vm_compute. reflexivity. }
  match type of T1 with ask_steps _ _ _ _ _ _ _ _ _ _ ?y => let z := eval cbn [k_shown app] in (k_shown y) in pose (sh1 := z) end.
  set (f1 := fst (solo (ask_proc _ _ _ _ _ _) _)) in T1.
  set (o1 := snd (solo (ask_proc _ _ _ _ _ _) _)) in T1. assert (O1 : o1 = Value (OK, NONE, [])) by (vm_compute; reflexivity). rewrite O1 in T1.
  destruct (turn demo_E demo_O c pd spc demo_two (lit "{}") demo_deps demo_two st1 [lit "t/a"] f1 [lit "t/a"] sh1 [(lit "t/a", OK, tt)] true [] (lit "t/b") (demo_worker (lit "t/b")) (lit "t/b", DIFF, tt)) as (st2 & E2 & S2 & T2).
  { right. now left. }
  { intros [X|[]]; discriminate X. }
  { intros [X|[]]; discriminate X. }
  { intros d Hd _. vm_compute in Hd. destruct Hd as [<-|[]]. now left. }
  { rewrite S1; [reflexivity|discriminate]. }
  { vm_compute. reflexivity. }
  match type of T2 with ask_steps _ _ _ _ _ _ _ _ _ _ ?y => let z := eval cbn [k_shown app] in (k_shown y) in pose (sh2 := z) end.
  set (f2 := fst (solo (ask_proc _ _ _ _ _ _) _)) in T2.
  set (o2 := snd (solo (ask_proc _ _ _ _ _ _) _)) in T2. assert (O2 : o2 = Crashed) by (vm_compute; reflexivity). rewrite O2 in T2.
  eexists. split.
  - do 2 eexists. split; [eapply steps_trans; [exact T1|]; eapply steps_trans; [apply steps_one, KReviewed|]; eapply steps_trans; [exact T2|]; eapply steps_trans; [apply steps_one, KFail|]; apply steps_one, KLeave; right; left; discriminate|].
    cbn [k_end k_sched k_st k_cut k_fs]. split; [reflexivity|]. split; [|split; reflexivity]. intros n [<-|[<-|[]]]; [exact E2|]. rewrite S2; [exact E1|discriminate].
  - intros (r & z & before & a & X & _). destruct before; discriminate X.
Qed.
