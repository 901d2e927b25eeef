(** Towards C132: a run of some of the tests after a run that was not finished, compared with a run of all. *)
From Verif Require Import PyStrFacts FsFacts CaseRunProps RunCaseProps ReportsProofs RunnerProofs.
From Verif Require Export ParProps.

(** the code of [n] reads nothing but the files of [n], without the value of an earlier run, and the values of the tests it depends on *)
Definition reads_fresh (E O : str) (deps : str -> list str) (n : str) (body : fs -> body_run) : Prop :=
  forall f g, (forall p, area E n p \/ area O n p -> p <> O ++ SLASH :: n ++ lit ".bin" -> lookup p f = lookup p g) ->
    (forall d, In d (deps n) -> lookup (O ++ SLASH :: d ++ lit ".bin") f = lookup (O ++ SLASH :: d ++ lit ".bin") g) -> body f = body g.

Lemma fresh_deps E O deps n body : reads_fresh E O deps n body -> reads_deps E O deps n body.
Proof. intros H f g H1 H2. apply H; auto. Qed.

Section Resume.
Variable cc : CharClass.
Variable refloat : str -> option str.
Variables (E o : str).
Hypothesis HE : plain_dir E.
Hypothesis Ho : plain o.
Hypothesis Hdot : starts_with [DOT] o = true.
Notation O := (E ++ SLASH :: o).
Variables c c2 : config.
Hypothesis HB : batch c.
Hypothesis HB2 : batch c2.
Hypothesis HA : forall v, auto c v = false.
Hypothesis HA2 : forall v, auto c2 v = false.
Hypothesis HF : fail_fast c = false.
Hypothesis HF2 : fail_fast c2 = false.
Hypothesis HP : point_error_pos c2 = point_error_pos c.
Variable body : str -> fs -> body_run.
Context {D : Type} (show_dur : D -> str).
Variables dur dur2 : str -> D.
Variable names : list str.
Variable deps : str -> list str.
Hypothesis Hsep : separate names.
Hypothesis Hout : ~ In (lit "output") names.
Hypothesis Hdeps : forall n, In n names -> incl (deps n) names.
Hypothesis Hbody : forall n, In n names -> reads_fresh E O deps n (body n).
Notation bin d := (O ++ SLASH :: d ++ lit ".bin").

Lemma name_of n : In n names -> case_name n.
Proof. apply (a_name names Hsep). Qed.

Ltac ext := unfold case_exts; cbn [In]; tauto.
Ltac exts H := unfold case_exts in H; destruct H as [<-|[<-|[<-|[<-|[<-|[<-|[]]]]]]].
Lemma below_slash a r : below a (a ++ SLASH :: r) = true.
Proof. apply below_iff. eauto. Qed.

(** what a case finds when its code begins *)
Lemma start_same n f h f1 h1 s1 s2 : case_name n -> ready E O n f -> ready E O n h -> (forall p, area E n p -> lookup p f = lookup p h) ->
  case_start E O n f = Ret s1 f1 -> case_start E O n h = Ret s2 h1 ->
  (forall p, area E n p \/ area O n p -> p <> bin n -> lookup p f1 = lookup p h1) /\
  (forall p, ~ area O n p -> lookup p f1 = lookup p f /\ lookup p h1 = lookup p h).
Proof.
  intros C R1 R2 AG S1 S2. destruct (start_ok E o HE Ho Hdot n f C R1) as (g1 & X1 & L1). rewrite S1 in X1. injection X1 as -> <-.
  destruct (start_ok E o HE Ho Hdot n h C R2) as (g2 & X2 & L2). rewrite S2 in X2. injection X2 as -> <-. split.
  - intros p Hp NB. rewrite L1, L2. destruct (str_eqb_spec (O ++ SLASH :: n ++ lit ".log") p) as [_|N1]; [reflexivity|]. destruct (str_eqb_spec (O ++ SLASH :: n ++ lit ".txt") p) as [_|N2]; [reflexivity|].
    destruct (str_eqb_spec (O ++ SLASH :: n ++ lit ".md") p) as [_|N3]; [reflexivity|]. destruct (below (O ++ SLASH :: n ++ lit ".tmp") p) eqn:B1; [reflexivity|].
    destruct (below (O ++ SLASH :: n ++ []) p) eqn:B2; [reflexivity|]. destruct Hp as [Hp|(x & Hx & Hp)]; [now apply AG|].
    destruct R1 as (_ & _ & Q3 & Q4 & Q5). destruct R2 as (_ & _ & W3 & W4 & W5).
    assert (BEL : forall y, In y [lit ".md"; lit ".txt"; lit ".log"; lit ".bin"] -> forall r, lookup ((O ++ SLASH :: n ++ y) ++ SLASH :: r) f = lookup ((O ++ SLASH :: n ++ y) ++ SLASH :: r) h).
    { intros y Hy r. rewrite (is_dir_false _ _ _ (Q5 y Hy)) by apply below_slash. rewrite (is_dir_false _ _ _ (W5 y Hy)) by apply below_slash. reflexivity. }
    exts Hx; destruct Hp as [->|[r ->]]; try (apply BEL; cbn [In]; tauto); try congruence; try (rewrite below_slash in *; discriminate). rewrite app_nil_r. congruence.
  - assert (G : forall k k1 p, ~ area O n p -> (forall p, lookup p k1 =
      if str_eqb (O ++ SLASH :: n ++ lit ".log") p then Some [] else if str_eqb (O ++ SLASH :: n ++ lit ".txt") p then Some [] else
      if str_eqb (O ++ SLASH :: n ++ lit ".md") p then Some [] else
      if below (O ++ SLASH :: n ++ lit ".tmp") p then None else if below (O ++ SLASH :: n ++ []) p then None else lookup p k) -> lookup p k1 = lookup p k).
    { intros k k1 p N L. rewrite L. assert (K : forall x, In x case_exts -> ~ path_prefix (O ++ SLASH :: n ++ x) p) by (intros x Hx X; apply N; now exists x).
      destruct (str_eqb_spec (O ++ SLASH :: n ++ lit ".log") p) as [X|_]; [elim (K (lit ".log")); [ext|now left]|].
      destruct (str_eqb_spec (O ++ SLASH :: n ++ lit ".txt") p) as [X|_]; [elim (K (lit ".txt")); [ext|now left]|].
      destruct (str_eqb_spec (O ++ SLASH :: n ++ lit ".md") p) as [X|_]; [elim (K (lit ".md")); [ext|now left]|].
      destruct (below (O ++ SLASH :: n ++ lit ".tmp") p) eqn:B1; [elim (K (lit ".tmp")); [ext|now apply prefix_below]|].
      destruct (below (O ++ SLASH :: n ++ []) p) eqn:B2; [elim (K []); [ext|now apply prefix_below]|reflexivity]. }
    intros p N. split; apply G; auto.
Qed.

(** the files of a case that ran on both sides *)
Lemma ran_same n b s res f h f' h' : case_name n -> case_ran E O n b s false res f f' -> case_ran E O n b s false res h h' -> ready E O n f' -> ready E O n h' ->
  (forall p, area E n p -> lookup p f = lookup p h) -> (is_fail res = true -> lookup (bin n) f = lookup (bin n) h) ->
  forall p, own E o n p -> lookup p f' = lookup p h'.
Proof.
  intros C CF CH R1 R2 AG BN p OW. destruct R1 as (P1 & P2 & Q3 & Q4 & Q5). destruct R2 as (V1 & V2 & W3 & W4 & W5).
  pose proof (proper_nonempty n (proj1 C)) as NE. pose proof (proj1 (proj2 C)) as ND.
  assert (NOO : forall y, ~ area O n (E ++ SLASH :: n ++ y)).
  { intros y (x & _ & X). apply prefix_split in X as (t & _ & X). rewrite in_case in X. revert X. now apply name_vs_out. }
  assert (EX : forall y, (forall r, E ++ SLASH :: n ++ y <> E ++ SLASH :: n ++ SLASH :: r) -> y <> lit ".md" -> (exists x, In x case_exts /\ path_prefix (E ++ SLASH :: n ++ x) (E ++ SLASH :: n ++ y)) ->
    lookup (E ++ SLASH :: n ++ y) f' = lookup (E ++ SLASH :: n ++ y) h').
  { intros y N1 N2 AR. assert (NC : ~ case_file E n (E ++ SLASH :: n ++ y)).
    { intros [X|[r X]]; [|now apply (N1 r)]. apply N2. rewrite !at_case in X. now apply app_inv_head in X. }
    rewrite (cr_rest _ _ _ _ _ _ _ _ _ CF) by auto. rewrite (cr_rest _ _ _ _ _ _ _ _ _ CH) by auto. now apply AG. }
  destruct OW as [(x & Hx & Hp)|(x & Hx & Hp)].
  - exts Hx; destruct Hp as [->|[r ->]].
    + rewrite app_nil_r. congruence.
    + rewrite app_nil_r, <- app_assoc. cbn [app]. rewrite (cr_files _ _ _ _ _ _ _ _ _ CF), (cr_files _ _ _ _ _ _ _ _ _ CH). apply AG. exists []. split; [ext|]. right. exists r. now rewrite app_nil_r, <- app_assoc.
    + rewrite (cr_snapshot _ _ _ _ _ _ _ _ _ CF), (cr_snapshot _ _ _ _ _ _ _ _ _ CH). apply AG. exists (lit ".md"). split; [ext|now left].
    + rewrite (is_dir_false _ _ _ P2) by apply below_slash. rewrite (is_dir_false _ _ _ V2) by apply below_slash. reflexivity.
    + apply EX; [|discriminate|exists (lit ".txt"); split; [ext|now left]]. intros r X. rewrite !at_case in X. apply app_inv_head in X. discriminate X.
    + rewrite in_case. apply EX; [|discriminate|exists (lit ".txt"); split; [ext|right; exists r; now rewrite in_case]]. intros r' X. rewrite !at_case in X. apply app_inv_head in X. discriminate X.
    + apply EX; [|discriminate|exists (lit ".log"); split; [ext|now left]]. intros r X. rewrite !at_case in X. apply app_inv_head in X. discriminate X.
    + rewrite in_case. apply EX; [|discriminate|exists (lit ".log"); split; [ext|right; exists r; now rewrite in_case]]. intros r' X. rewrite !at_case in X. apply app_inv_head in X. discriminate X.
    + apply EX; [|discriminate|exists (lit ".bin"); split; [ext|now left]]. intros r X. rewrite !at_case in X. apply app_inv_head in X. discriminate X.
    + rewrite in_case. apply EX; [|discriminate|exists (lit ".bin"); split; [ext|right; exists r; now rewrite in_case]]. intros r' X. rewrite !at_case in X. apply app_inv_head in X. discriminate X.
    + apply EX; [|discriminate|exists (lit ".tmp"); split; [ext|now left]]. intros r X. rewrite !at_case in X. apply app_inv_head in X. discriminate X.
    + rewrite in_case. apply EX; [|discriminate|exists (lit ".tmp"); split; [ext|right; exists r; now rewrite in_case]]. intros r' X. rewrite !at_case in X. apply app_inv_head in X. discriminate X.
  - assert (BEL : forall y, In y [lit ".md"; lit ".txt"; lit ".log"; lit ".bin"] -> forall r, lookup ((O ++ SLASH :: n ++ y) ++ SLASH :: r) f' = lookup ((O ++ SLASH :: n ++ y) ++ SLASH :: r) h').
    { intros y Hy r. rewrite (is_dir_false _ _ _ (Q5 y Hy)) by apply below_slash. rewrite (is_dir_false _ _ _ (W5 y Hy)) by apply below_slash. reflexivity. }
    exts Hx; destruct Hp as [->|[r ->]]; try (apply BEL; cbn [In]; tauto).
    + rewrite app_nil_r. congruence.
    + rewrite app_nil_r, <- app_assoc. cbn [app]. now rewrite (cr_dir _ _ _ _ _ _ _ _ _ CF), (cr_dir _ _ _ _ _ _ _ _ _ CH).
    + now rewrite (cr_md _ _ _ _ _ _ _ _ _ CF), (cr_md _ _ _ _ _ _ _ _ _ CH).
    + now rewrite (cr_txt _ _ _ _ _ _ _ _ _ CF), (cr_txt _ _ _ _ _ _ _ _ _ CH).
    + now rewrite (cr_log _ _ _ _ _ _ _ _ _ CF), (cr_log _ _ _ _ _ _ _ _ _ CH).
    + rewrite (cr_bin _ _ _ _ _ _ _ _ _ CF), (cr_bin _ _ _ _ _ _ _ _ _ CH). destruct (is_fail res); [now apply BN|reflexivity].
    + congruence.
    + rewrite in_case. now rewrite (cr_tmp _ _ _ _ _ _ _ _ _ CF), (cr_tmp _ _ _ _ _ _ _ _ _ CH).
Qed.

(** one case on both sides *)
Lemma case_same n a a2 f h res req rest f' : In n names -> ready E O n f -> ready E O n h -> (forall p, area E n p -> lookup p f = lookup p h) ->
  (forall d, In d (deps n) -> d <> n /\ lookup (bin d) f = lookup (bin d) h) -> (res = FAIL -> lookup (bin n) h = lookup (bin n) f \/ lookup (bin n) h = lookup (bin n) f') ->
  run_case cc refloat E O c body n a f = Some (Ret (res, req, rest) f') ->
  req = NONE /\ rest = a /\ exists b s h', run_case cc refloat E O c2 body n a2 h = Some (Ret (res, NONE, a2) h') /\ case_ran E O n b s false res f f' /\ case_ran E O n b s false res h h' /\
    ready E O n f' /\ ready E O n h' /\ forall p, own E o n p -> lookup p f' = lookup p h'.
Proof.
  intros Hn R1 R2 AG DP BN H. pose proof (name_of n Hn) as C.
  destruct (run_case_exact E o HE Ho Hdot cc refloat c body HB n a f C R1) as (f1 & S1 & X).
  destruct (run_case_exact E o HE Ho Hdot cc refloat c2 body HB2 n a2 h C R2) as (h1 & S2 & Y).
  destruct (start_same n f h f1 h1 _ _ C R1 R2 AG S1 S2) as [SA SB].
  assert (BEQ : body n f1 = body n h1).
  { apply (Hbody n Hn); [exact SA|]. intros d Hd. destruct (DP d Hd) as [N L].
    assert (NA : ~ area O n (bin d)).
    { intros X'. apply N. apply (own_disjoint E o Hdot names d n (bin d)); auto. - apply (Hdeps n); auto. - apply bin_own. - now right. }
    destruct (SB _ NA) as [-> ->]. exact L. }
  assert (SN : lookup (E ++ SLASH :: n ++ lit ".md") f = lookup (E ++ SLASH :: n ++ lit ".md") h) by (apply AG; exists (lit ".md"); split; [ext|now left]).
  rewrite <- BEQ, <- SN, HP in Y. destruct (run_body _ _ _ _ _) as [s|]; [|congruence]. cbv zeta in X, Y. set (v := verdict _ s) in *. rewrite HA in X. rewrite HA2 in Y.
  destruct X as (f'' & X & CF & RF). rewrite H in X. injection X as -> -> -> ->. destruct Y as (h' & Y & CH & RH).
  split; [reflexivity|]. split; [reflexivity|]. exists (body n f1), s, h'. do 5 (split; [assumption|]). apply (ran_same n (body n f1) s v f h); auto.
  intros FL. destruct BN as [BN|BN]; [now destruct v|now symmetry|]. pose proof (cr_bin _ _ _ _ _ _ _ _ _ CF) as CB. rewrite FL in CB. congruence.
Qed.

(** a run that accepts nothing leaves the snapshots *)
Lemma case_snapshots n a f res req rest f' : In n names -> ready E O n f -> run_case cc refloat E O c body n a f = Some (Ret (res, req, rest) f') ->
  req = NONE /\ rest = a /\ (forall p, ~ area O n p -> lookup p f' = lookup p f) /\ ready E O n f'.
Proof.
  intros Hn R1 H. pose proof (name_of n Hn) as C. destruct (run_case_exact E o HE Ho Hdot cc refloat c body HB n a f C R1) as (f1 & _ & X).
  destruct (run_body _ _ _ _ _) as [s|]; [|congruence]. cbv zeta in X. set (v := verdict _ s) in *. rewrite HA in X.
  destruct X as (f'' & X & CF & RF). rewrite H in X. injection X as -> -> -> ->. split; [reflexivity|]. split; [reflexivity|]. split; [|exact RF].
  intros p N. destruct (str_eqb_spec (E ++ SLASH :: n ++ lit ".md") p) as [<-|N1]; [exact (cr_snapshot _ _ _ _ _ _ _ _ _ CF)|].
  destruct (below (E ++ SLASH :: n) p) eqn:B.
  - apply below_iff in B as [r ->]. rewrite <- app_assoc. cbn [app]. exact (cr_files _ _ _ _ _ _ _ _ _ CF r).
  - apply (cr_rest _ _ _ _ _ _ _ _ _ CF); [|exact N]. intros [X|[r X]]; [congruence|]. subst p. rewrite at_case, below_slash in B. discriminate.
Qed.
Lemma snapshots_stay l : incl l names -> NoDup l -> forall rv fails recs a f x g, (forall n, In n l -> ready E O n f) ->
  run_todo cc refloat E O O c body show_dur dur l rv fails recs a f = Some (Ret x g) -> forall n p, In n names -> area E n p -> lookup p g = lookup p f.
Proof.
  induction l as [|m l IH]; intros IN ND rv fails recs a f x g RD H n p Hn Hp; cbn [run_todo] in H; [now injection H as _ <-|].
  assert (Hm : In m names) by (apply IN; now left). apply NoDup_cons_iff in ND as [NI ND].
  destruct (run_case cc refloat E O c body m a f) as [[[[res req] a1] f1|f1]|] eqn:RC; [|discriminate|discriminate]. cbn [run_bind] in H.
  destruct (case_snapshots m a f res req a1 f1 Hm (RD m (or_introl eq_refl)) RC) as (-> & -> & SN & _). rewrite HF in H. cbn [is_abort orb andb] in H.
  set (f2 := write_file (report_file O) _ f1) in H.
  assert (F2 : forall k q, In k names -> own E o k q -> lookup q f2 = lookup q f1).
  { intros k q Hk OW. unfold f2. apply (write_special refloat E o Hdot names Hsep k); auto. apply (report_special E o HE Ho). }
  assert (DIS : forall k q, In k names -> area E k q -> ~ area O m q).
  { intros k q Hk (y & _ & Y) (z & _ & Z). pose proof (name_of k Hk) as (P & ND' & _). apply prefix_split in Y as (t & _ & ->). apply prefix_split in Z as (t' & _ & Z). rewrite !in_case in Z.
    revert Z. apply (name_vs_out E o Hdot); [now apply proper_nonempty|exact ND']. }
  transitivity (lookup p f2); [|rewrite (F2 n p) by (auto || now left); apply SN; now apply (DIS n)].
  eapply (IH ltac:(intros k Hk; apply IN; now right) ND); [|exact H|exact Hn|exact Hp].
  - intros k Hk. assert (Hkn : In k names) by (apply IN; now right). apply (ready_local E o k f); [|now apply RD; right]. intros q OW. rewrite (F2 k q) by auto. symmetry. apply SN. intros Z.
    apply NI. replace m with k; [exact Hk|]. apply (own_disjoint E o Hdot names k m q); auto. now right.
Qed.

Lemma deps_first_tail n l : NoDup (n :: l) -> deps_first deps (n :: l) -> deps_first deps l.
Proof.
  intros ND H a m b EQ d Hd Il. assert (X : In d (n :: a)) by (apply (H (n :: a) m b); [now rewrite EQ|exact Hd|now right]). destruct X as [<-|X]; [|exact X].
  exfalso. now apply NoDup_cons_iff in ND as [ND _].
Qed.

Lemma todo_extends l : forall rv fails recs a f rv' recs' rest g,
  run_todo cc refloat E O O c body show_dur dur l rv fails recs a f = Some (Ret (rv', recs', rest) g) ->
  exists new, recs' = recs ++ new /\ incl (map rec_name new) l.
Proof.
  induction l as [|n l IH]; intros rv fails recs a f rv' recs' rest g H; cbn [run_todo] in H; [injection H as _ <- _ _; exists []; split; [now rewrite app_nil_r|easy]|].
  destruct (run_case cc refloat E O c body n a f) as [[[[res req] a1] f1|f1]|]; [|discriminate|discriminate]. cbn [run_bind] in H.
  destruct (is_abort req || _).
  - injection H as _ <- _ _. eexists. split; [reflexivity|]. intros m [<-|[]]. now left.
  - apply IH in H as (new & -> & I). rewrite <- app_assoc. eexists. split; [reflexivity|]. intros m [<-|Hm]; [now left|right; now apply I].
Qed.

(** the tests [keep] run again *)
Lemma resume_todo (keep : str -> bool) l : incl l names -> NoDup l -> deps_first deps l -> forall rv fails recs a f rv' recs' rest g rv2 fails2 recs2 a2 h,
  run_todo cc refloat E O O c body show_dur dur l rv fails recs a f = Some (Ret (rv', recs', rest) g) ->
  (forall n, In n l -> ready E O n f /\ ready E O n h) ->
  (forall n p, In n l -> keep n = true -> area E n p -> lookup p f = lookup p h) ->
  (forall n, In n l -> keep n = true -> (exists d, In (n, FAIL, d) recs') -> lookup (bin n) h = lookup (bin n) f \/ lookup (bin n) h = lookup (bin n) g) ->
  (forall n p, In n l -> keep n = false -> own E o n p -> lookup p h = lookup p g) ->
  (forall n, In n names -> ~ In n l -> lookup (bin n) f = lookup (bin n) h) ->
  exists rs h', map fst rs = l /\ recs' = recs ++ runs_of rs dur /\ rv' = fold_left add_result (map snd rs) rv /\
    run_todo cc refloat E O O c2 body show_dur dur2 (filter keep l) rv2 fails2 recs2 a2 h =
      Some (Ret (fold_left add_result (map snd (filter (fun x => keep (fst x)) rs)) rv2, recs2 ++ runs_of (filter (fun x => keep (fst x)) rs) dur2, a2) h') /\
    (forall n p, In n l -> own E o n p -> lookup p h' = lookup p g) /\
    (forall p, ~ booked E o p -> (forall n, In n l -> ~ own E o n p) -> lookup p h' = lookup p h /\ lookup p g = lookup p f).
Proof.
  induction l as [|n l IH]; intros IN ND ORD rv fails recs a f rv' recs' rest g rv2 fails2 recs2 a2 h H RD AG BN SK DN.
  - cbn [run_todo] in H. injection H as <- <- <- <-. exists [], h. cbn. rewrite !app_nil_r. repeat split; auto; intros; contradiction.
  - assert (Hn : In n names) by (apply IN; now left). assert (NI : ~ In n l) by now apply NoDup_cons_iff in ND. assert (NDl : NoDup l) by now apply NoDup_cons_iff in ND.
    assert (IN' : incl l names) by (intros m Hm; apply IN; now right). pose proof (deps_first_tail n l ND ORD) as ORD'.
    cbn [run_todo] in H. destruct (run_case cc refloat E O c body n a f) as [[[[res req] a1] f1|f1]|] eqn:RC; [|discriminate|discriminate]. cbn [run_bind] in H.
    assert (DP : forall d, In d (deps n) -> d <> n /\ In d names /\ ~ In d (n :: l)).
    { intros d Hd. assert (X : ~ In d (n :: l)) by (intros X; exact (ORD [] n l eq_refl d Hd X)). split; [intros ->; apply X; now left|]. split; [now apply (Hdeps n)|exact X]. }
    assert (UP : update c = false) by exact (HA OK).
    destruct (settled cc refloat E o HE Ho Hdot c HB UP body names Hsep n a f res req a1 f1 Hn (proj1 (RD n (or_introl eq_refl))) RC) as (_ & -> & -> & RF1 & _ & b0 & s0 & fr0 & CF0).
    rewrite HF in H. cbn [is_abort orb andb] in H. set (f2 := write_file (report_file O) _ f1) in H.
    assert (BRF : booked E o (report_file O)) by (left; right; left; symmetry; apply path_join_name; [now apply HO|reflexivity]).
    assert (F2 : forall m p, In m names -> own E o m p -> lookup p f2 = lookup p f1).
    { intros m p Hm OW. unfold f2. apply (write_special refloat E o Hdot names Hsep m); auto. apply (report_special E o HE Ho). }
    assert (F2O : forall m p, In m names -> m <> n -> own E o m p -> lookup p f2 = lookup p f).
    { intros m p Hm N OW. rewrite (F2 m p Hm OW). apply (ran_other E o Hdot names Hsep n m b0 s0 fr0 res f f1 p); auto. }
    assert (FR : forall p, own E o n p -> lookup p g = lookup p f1).
    { intros p OW. rewrite <- (F2 n p Hn OW). eapply (todo_frame cc refloat E o HE Ho Hdot c HB UP HF body show_dur dur names Hsep l IN' n Hn NI _ _ _ _ f2 _ _ p); [|exact H|exact OW].
      intros m Hm. apply (ready_local E o m f); [|now apply RD; right]. intros q OQ. symmetry. apply (F2O m q); auto. intros ->. contradiction. }
    assert (NBO : forall m p, In m names -> own E o m p -> ~ booked E o p) by (intros m p Hm; apply (no_nb E o Hdot names Hsep Hout m p Hm)).
    cbn [filter]. destruct (keep n) eqn:KN.
    + (* n runs again *)
      destruct (case_same n a a2 f h res NONE a f1 Hn) as (_ & _ & b & s & h1 & RH & CF & CH & RF & RH1 & SAME); auto.
      { now apply RD; left. } { now apply RD; left. }
      { intros p Hp. apply (AG n p); auto. now left. }
      { intros d Hd. destruct (DP d Hd) as (N1 & N2 & N3). split; [exact N1|]. now apply DN. }
      { intros ->. destruct (BN n (or_introl eq_refl) KN) as [X|X]; [|now left|right; rewrite X; apply FR, bin_own].
        destruct (todo_extends _ _ _ _ _ _ _ _ _ _ H) as (new & -> & _). exists (dur n). rewrite !in_app_iff. left. right. now left. }
      cbn [run_todo]. rewrite RH. cbn [run_bind]. rewrite HF2. cbn [is_abort orb andb]. set (h2 := write_file (report_file O) _ h1).
      assert (H2 : forall m p, In m names -> own E o m p -> lookup p h2 = lookup p h1).
      { intros m p Hm OW. unfold h2. apply (write_special refloat E o Hdot names Hsep m); auto. apply (report_special E o HE Ho). }
      assert (H2O : forall m p, In m names -> m <> n -> own E o m p -> lookup p h2 = lookup p h).
      { intros m p Hm N OW. rewrite (H2 m p Hm OW). apply (ran_other E o Hdot names Hsep n m b s false res h h1 p); auto. }
      assert (NE : forall m, In m l -> m <> n) by (intros m Hm ->; contradiction).
      destruct (IH IN' NDl ORD' _ _ _ _ f2 _ _ _ g (add_result rv2 res) (fails2 || negb (is_ok res)) (recs2 ++ [(n, res, dur2 n)]) a2 h2 H) as (rs & h' & M & ER & EV & RT & OWN & REST).
      * intros m Hm. destruct (RD m (or_intror Hm)) as [X Y]. split.
        -- apply (ready_local E o m f); [|exact X]. intros p OW. symmetry. apply (F2O m p); auto.
        -- apply (ready_local E o m h); [|exact Y]. intros p OW. symmetry. apply (H2O m p); auto.
      * intros m p Hm KM Hp. rewrite (F2O m p), (H2O m p) by (auto || now left). apply (AG m p); auto. now right.
      * intros m Hm KM FL. rewrite (F2O m (bin m)), (H2O m (bin m)) by (auto || apply bin_own). apply BN; [now right|exact KM|exact FL].
      * intros m p Hm KM OW. rewrite (H2O m p) by auto. apply SK with (n := m); auto. now right.
      * intros m Hm NM. destruct (list_eq_dec N.eq_dec m n) as [->|N].
        -- rewrite (F2 n), (H2 n) by (auto || apply bin_own). apply SAME, bin_own.
        -- rewrite (F2O m), (H2O m) by (auto || apply bin_own). apply DN; [exact Hm|]. intros [<-|X]; auto.
      * exists ((n, res) :: rs), h'. cbn [map fst snd fold_left filter]. rewrite KN. cbn [map fst snd fold_left runs_of]. fold (runs_of (filter (fun x => keep (fst x)) rs) dur2). fold (runs_of rs dur).
        split; [now rewrite M|]. split; [rewrite ER, <- app_assoc; reflexivity|]. split; [exact EV|]. split; [rewrite RT, <- app_assoc; reflexivity|]. split.
        -- intros m p [<-|Hm] OW; [|now apply (OWN m)]. destruct (REST p) as [X Y]; [now apply (NBO n)| |].
           { intros k Hk OK'. apply (NE k Hk). apply (own_disjoint E o Hdot names k n p); auto. }
           rewrite X, Y, (F2 n p), (H2 n p) by auto. symmetry. now apply SAME.
        -- intros p NB NO. destruct (REST p NB) as [X Y]; [intros m Hm; apply NO; now right|]. rewrite X, Y. unfold f2, h2.
           rewrite (write_booked E o _ _ h1 BRF p NB), (write_booked E o _ _ f1 BRF p NB). assert (NN : ~ own E o n p) by (apply NO; now left).
           split; [apply (cr_rest _ _ _ _ _ _ _ _ _ CH)|apply (cr_rest _ _ _ _ _ _ _ _ _ CF)]; intros Z; apply NN; solve [apply case_file_own; now left|now right].
    + (* n is not run again *)
      assert (NE : forall m, In m l -> m <> n) by (intros m Hm ->; contradiction).
      destruct (IH IN' NDl ORD' _ _ _ _ f2 _ _ _ g rv2 fails2 recs2 a2 h H) as (rs & h' & M & ER & EV & RT & OWN & REST).
      * intros m Hm. destruct (RD m (or_intror Hm)) as [X Y]. split; [|exact Y]. apply (ready_local E o m f); [|exact X]. intros p OW. symmetry. apply (F2O m p); auto.
      * intros m p Hm KM Hp. rewrite (F2O m p) by (auto || now left). apply (AG m p); auto. now right.
      * intros m Hm KM FL. rewrite (F2O m (bin m)) by (auto || apply bin_own). apply BN; [now right|exact KM|exact FL].
      * intros m p Hm KM OW. apply SK with (n := m); auto. now right.
      * intros m Hm NM. destruct (list_eq_dec N.eq_dec m n) as [->|N].
        -- rewrite (F2 n) by (auto || apply bin_own). rewrite (SK n (bin n)) by (auto using bin_own; now left). symmetry. apply FR, bin_own.
        -- rewrite (F2O m) by (auto || apply bin_own). apply DN; [exact Hm|]. intros [<-|X]; auto.
      * exists ((n, res) :: rs), h'. cbn [map fst snd fold_left filter]. rewrite KN. cbn [map fst snd fold_left runs_of]. fold (runs_of rs dur).
        split; [now rewrite M|]. split; [rewrite ER, <- app_assoc; reflexivity|]. split; [exact EV|]. split; [exact RT|]. split.
        -- intros m p [<-|Hm] OW; [|now apply (OWN m)]. destruct (REST p) as [X Y]; [now apply (NBO n)| |].
           { intros k Hk OK'. apply (NE k Hk). apply (own_disjoint E o Hdot names k n p); auto. }
           rewrite X. apply (SK n p); auto. now left.
        -- intros p NB NO. destruct (REST p NB) as [X Y]; [intros m Hm; apply NO; now right|]. rewrite X, Y. unfold f2.
           rewrite (write_booked E o _ _ f1 BRF p NB). assert (NN : ~ own E o n p) by (apply NO; now left).
           split; [reflexivity|]. apply (cr_rest _ _ _ _ _ _ _ _ _ CF0); intros Z; apply NN; solve [apply case_file_own; now left|now right].
Qed.
End Resume.
