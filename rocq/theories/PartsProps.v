(** C147: running the tests in two parts, one after the other, ends like running them together. *)
From Verif Require Import PyStrFacts CaseRunProps RunCaseProps ReportsProofs RunnerProofs ParProps OrderProps.

Lemma todo_app {D} (old : list (case_rec D)) k a b :
  snd (cases_to_done_and_todo old k (a ++ b)) = snd (cases_to_done_and_todo old k a) ++ snd (cases_to_done_and_todo old k b).
Proof.
  unfold cases_to_done_and_todo. destruct k; [|reflexivity]. induction a as [|i a IH]; [reflexivity|]. cbn [app done_and_todo].
  destruct (done_and_todo old (a ++ b)) as [d1 t1]. destruct (done_and_todo old a) as [d2 t2]. destruct (done_and_todo old b) as [d3 t3]. cbn [snd] in *. subst t1.
  destruct (by_name i old) as [|r l]; [reflexivity|]. destruct (is_ok (rec_result r)); reflexivity.
Qed.
Lemma todo_same_old {D} (old new : list (case_rec D)) k l : (forall i, In i l -> by_name i old = by_name i new) ->
  snd (cases_to_done_and_todo old k l) = snd (cases_to_done_and_todo new k l).
Proof.
  intros H. unfold cases_to_done_and_todo. destruct k; [|reflexivity]. induction l as [|i l IH]; [reflexivity|]. cbn [done_and_todo].
  specialize (IH ltac:(intros j Hj; apply H; now right)). rewrite (H i (or_introl eq_refl)).
  destruct (done_and_todo old l) as [d1 t1]. destruct (done_and_todo new l) as [d2 t2]. cbn [snd] in IH. subst t2.
  destruct (by_name i new) as [|r q]; [reflexivity|]. destruct (is_ok (rec_result r)); reflexivity.
Qed.
Lemma by_name_none {D} i (l : list (case_rec D)) : ~ In i (map rec_name l) -> by_name i l = [].
Proof.
  induction l as [|r l IH]; intros N; [reflexivity|]. cbn [by_name filter]. destruct (str_eqb_spec (rec_name r) i) as [<-|_]; [destruct N; now left|]. apply IH. intros X. apply N. now right.
Qed.
Lemma by_name_kept {D} i (old : list (case_rec D)) t : ~ In i t -> by_name i (kept old t) = by_name i old.
Proof.
  intros N. unfold kept, by_name. induction old as [|r old IH]; [reflexivity|]. cbn [filter]. destruct (str_mem (rec_name r) t) eqn:M; cbn [negb filter].
  - rewrite IH. destruct (str_eqb_spec (rec_name r) i) as [<-|_]; [apply str_mem_In in M; contradiction|reflexivity].
  - now rewrite IH.
Qed.
Lemma by_name_app {D} i (a b : list (case_rec D)) : by_name i (a ++ b) = by_name i a ++ by_name i b.
Proof. apply filter_app. Qed.
Lemma kept_app {D} (a b : list (case_rec D)) t : kept (a ++ b) t = kept a t ++ kept b t.
Proof. apply filter_app. Qed.
Lemma kept_kept {D} (old : list (case_rec D)) a b : kept (kept old a) b = kept old (a ++ b).
Proof.
  unfold kept. induction old as [|r old IH]; [reflexivity|]. cbn [filter]. assert (X : str_mem (rec_name r) (a ++ b) = str_mem (rec_name r) a || str_mem (rec_name r) b) by apply existsb_app.
  rewrite X. destruct (str_mem (rec_name r) a); cbn [negb orb filter]; [exact IH|]. destruct (str_mem (rec_name r) b); cbn [negb]; now rewrite IH.
Qed.
Lemma kept_all {D} (l : list (case_rec D)) t : (forall n, In n (map rec_name l) -> ~ In n t) -> kept l t = l.
Proof.
  intros H. unfold kept. induction l as [|r l IH]; [reflexivity|]. cbn [filter]. destruct (str_mem (rec_name r) t) eqn:M.
  - exfalso. apply str_mem_In in M. revert M. apply H. now left.
  - cbn [negb]. f_equal. apply IH. intros n Hn. apply H. now right.
Qed.
Lemma add_assoc a b d : add_result (add_result a b) d = add_result a (add_result b d).
Proof. destruct a, b, d; reflexivity. Qed.
Lemma fold_add l : forall rv, fold_left add_result l rv = add_result rv (fold_left add_result l OK).
Proof.
  induction l as [|x l IH]; intros rv; cbn [fold_left]; [now destruct rv|]. rewrite IH, (IH (add_result OK x)), add_assoc. f_equal. rewrite <- IH. f_equal. now destruct x.
Qed.
Lemma NoDup_app_l {A} (a b : list A) : NoDup (a ++ b) -> NoDup a.
Proof. induction a as [|x a IH]; intros H; [constructor|]. inversion H; subst. constructor; [intros X; apply H2; apply in_app_iff; now left|auto]. Qed.
Lemma NoDup_app_r {A} (a b : list A) : NoDup (a ++ b) -> NoDup b.
Proof. induction a as [|x a IH]; intros H; [exact H|]. inversion H; auto. Qed.
Lemma NoDup_app_disj {A} (a b : list A) : NoDup (a ++ b) -> forall x, In x a -> ~ In x b.
Proof. induction a as [|y a IH]; intros H x []; inversion H; subst; [intros X; apply H3, in_app_iff; now right|auto]. Qed.

Section Two.
Variable cc : CharClass.
Variable refloat : str -> option str.
Variables (E o : str).
Hypothesis HE : plain_dir E.
Hypothesis Ho : plain o.
Hypothesis Hdot : starts_with [DOT] o = true.
Notation O := (E ++ SLASH :: o).
Variable c : config.
Hypothesis HB : batch c.
Hypothesis HF : fail_fast c = false.
Variable body : str -> fs -> body_run.
Variable names : list str.
Variable deps : str -> list str.
Hypothesis Hnames : separate names.
Hypothesis Hdeps : forall n, In n names -> incl (deps n) names.
Hypothesis Hbody : forall n, In n names -> reads_deps E O deps n (body n).
Context {D : Type} (show_dur : D -> str) (parse_dur : str -> option D) (sp : char -> bool).

(** the files that belong to no test *)
Definition free (p : str) : Prop := ~ In p [O ++ SLASH :: lit "cases.txt"; O ++ SLASH :: lit "metrics.json"; E ++ SLASH :: lit "index.md"].
Lemma own_free n p : In n names -> own E o n p -> free p.
Proof. intros Hn OW X. revert OW. apply (special_not_own refloat E o Hdot); [now apply (a_name names Hnames)|exact X]. Qed.
Lemma write_free p t f : ~ free p -> agree free (write_file p t f) f.
Proof. intros NF q Fq. rewrite lookup_write. destruct (str_eqb_spec p q) as [<-|_]; [contradiction|reflexivity]. Qed.
Lemma not_free x : In x [O ++ SLASH :: lit "cases.txt"; O ++ SLASH :: lit "metrics.json"; E ++ SLASH :: lit "index.md"] -> ~ free x.
Proof. intros H F. now apply F. Qed.

Lemma case_same n a f g b res1 req1 rest1 h1 res2 req2 rest2 h2 : In n names -> agree free f g ->
  run_case cc refloat E O c body n a f = Some (Ret (res1, req1, rest1) h1) -> run_case cc refloat E O c body n b g = Some (Ret (res2, req2, rest2) h2) ->
  res1 = res2 /\ agree free h1 h2.
Proof.
  intros Hn A R1 R2. apply (solo_case cc refloat E O c body n a f res1 req1 rest1 h1 HB) in R1. apply (solo_case cc refloat E O c body n b g res2 req2 rest2 h2 HB) in R2.
  assert (L : local free free (case_proc cc refloat E O (job_config c) body n)).
  { apply (case_local cc refloat E o HE Ho c body names deps Hnames Hbody); [exact Hn| |].
    - intros p OW. split; now apply (own_free n).
    - intros d Hd. apply (own_free d); [now apply (Hdeps n)|apply bin_own]. }
  destruct (local_solo _ _ _ L) as [_ S]. destruct (S f g A) as [S1 S2].
  change (case_proc cc refloat E O (job_config c) body n) with (case_proc cc refloat E O c body n) in S1, S2. rewrite R1, R2 in S1, S2. cbn [fst snd] in *. split; [congruence|exact S2].
Qed.

Lemma after_case n answers f res req rest h : In n names -> ready E O n f -> run_case cc refloat E O c body n answers f = Some (Ret (res, req, rest) h) ->
  req = NONE /\ rest = answers /\ forall m p, In m names -> m <> n -> own E o m p -> lookup p h = lookup p f.
Proof.
  intros Hn R H. destruct (run_case_exact E o HE Ho Hdot cc refloat c body HB n answers f (a_name names Hnames n Hn) R) as (f1 & _ & K).
  destruct (run_body _ _ _ _ _) as [s|] in K; [|congruence]. cbv zeta in K. destruct K as (h' & RC & CR & _). rewrite H in RC. injection RC as -> -> -> ->.
  split; [reflexivity|]. split; [reflexivity|]. intros m p Hm N OW. apply (cr_rest _ _ _ _ _ _ _ _ _ CR).
  - intros X. apply N. apply (own_disjoint E o Hdot names m n p); auto. apply case_file_own. now left.
  - intros X. apply N. apply (own_disjoint E o Hdot names m n p); auto. now right.
Qed.

Lemma RF : report_file O = O ++ SLASH :: lit "cases.txt".
Proof. apply path_join_name; [now apply HO|reflexivity]. Qed.
Lemma ready_free n f g : In n names -> agree free f g -> ready E O n f -> ready E O n g.
Proof. intros Hn A. apply (ready_local E o n f g). intros p OW. apply A. now apply (own_free n). Qed.
Lemma ready_next n todo f h t : incl (n :: todo) names -> NoDup (n :: todo) -> (forall m, In m (n :: todo) -> ready E O m f) ->
  (forall m p, In m names -> m <> n -> own E o m p -> lookup p h = lookup p f) ->
  forall m, In m todo -> ready E O m (write_file (O ++ SLASH :: lit "cases.txt") t h).
Proof.
  intros IN ND RD OT m Hm. inversion ND as [|? ? NI _]; subst. assert (Hn : In m names) by (apply IN; now right).
  apply (ready_free m h); [exact Hn|apply agree_sym, write_free, not_free; now left|]. apply (ready_local E o m f); [|apply RD; now right].
  intros p OW. symmetry. apply (OT m); auto. intros ->. contradiction.
Qed.

Lemma todo_same durA durB todo : incl todo names -> NoDup todo -> forall rvA failsA recsA aA f rvA' recsA' restA f' rvB failsB recsB aB g rvB' recsB' restB g',
  (forall n, In n todo -> ready E O n f) -> agree free f g ->
  run_todo cc refloat E O O c body show_dur durA todo rvA failsA recsA aA f = Some (Ret (rvA', recsA', restA) f') ->
  run_todo cc refloat E O O c body show_dur durB todo rvB failsB recsB aB g = Some (Ret (rvB', recsB', restB) g') ->
  exists res : list (str * result), map fst res = todo /\
    recsA' = recsA ++ map (fun x => (fst x, snd x, durA (fst x))) res /\ recsB' = recsB ++ map (fun x => (fst x, snd x, durB (fst x))) res /\
    rvA' = fold_left add_result (map snd res) rvA /\ rvB' = fold_left add_result (map snd res) rvB /\ agree free f' g'.
Proof.
  induction todo as [|n todo IH]; intros IN ND rvA failsA recsA aA f rvA' recsA' restA f' rvB failsB recsB aB g rvB' recsB' restB g' RD A HA HB'; cbn [run_todo] in HA, HB'.
  - injection HA as <- <- <- <-. injection HB' as <- <- <- <-. exists []. cbn [map]. rewrite !app_nil_r. repeat split; auto.
  - assert (Hn : In n names) by (apply IN; now left). inversion ND as [|? ? NI ND']; subst. pose proof (RD n (or_introl eq_refl)) as R1.
    pose proof (ready_free n f g Hn A R1) as R2.
    destruct (run_case _ _ _ _ _ _ n aA f) as [[[[r1 q1] a1] h1|h1]|] eqn:C1; [|discriminate|discriminate]. cbn [run_bind] in HA.
    destruct (run_case _ _ _ _ _ _ n aB g) as [[[[r2 q2] a2] h2|h2]|] eqn:C2; [|discriminate|discriminate]. cbn [run_bind] in HB'.
    destruct (case_same n aA f g aB r1 q1 a1 h1 r2 q2 a2 h2 Hn A C1 C2) as [<- A1].
    destruct (after_case n aA f r1 q1 a1 h1 Hn R1 C1) as (-> & -> & OT). destruct (after_case n aB g r1 q2 a2 h2 Hn R2 C2) as (-> & -> & _).
    rewrite HF in HA, HB'. cbn [is_abort orb andb] in HA, HB'. rewrite RF in HA, HB'.
    assert (AW : forall t u, agree free (write_file (O ++ SLASH :: lit "cases.txt") t h1) (write_file (O ++ SLASH :: lit "cases.txt") u h2)).
    { intros t u. eapply agree_trans; [apply write_free, not_free; now left|]. eapply agree_trans; [exact A1|]. apply agree_sym, write_free, not_free. now left. }
    destruct (IH ltac:(intros m Hm; apply IN; now right) ND' _ _ _ _ _ _ _ _ _ _ _ _ _ _ _ _ _ _ ltac:(apply (ready_next n todo f h1); assumption) (AW _ _) HA HB')
      as (res & E1 & E2 & E3 & E4 & E5 & E6).
    exists ((n, r1) :: res). cbn [map fst snd fold_left]. split; [now rewrite E1|]. split; [rewrite E2, <- app_assoc; reflexivity|]. split; [rewrite E3, <- app_assoc; reflexivity|]. auto.
Qed.

Lemma todo_split dur l1 l2 : incl (l1 ++ l2) names -> NoDup (l1 ++ l2) -> forall rv fails recs a f rv' recs' rest g, (forall n, In n (l1 ++ l2) -> ready E O n f) ->
  run_todo cc refloat E O O c body show_dur dur (l1 ++ l2) rv fails recs a f = Some (Ret (rv', recs', rest) g) ->
  exists rv1 fails1 recs1 f1, run_todo cc refloat E O O c body show_dur dur l1 rv fails recs a f = Some (Ret (rv1, recs1, a) f1) /\
    run_todo cc refloat E O O c body show_dur dur l2 rv1 fails1 recs1 a f1 = Some (Ret (rv', recs', rest) g) /\ (forall n, In n l2 -> ready E O n f1).
Proof.
  induction l1 as [|n l1 IH]; intros IN ND rv fails recs a f rv' recs' rest g RD H.
  - exists rv, fails, recs, f. split; [reflexivity|]. split; [exact H|exact RD].
  - cbn [app] in *. cbn [run_todo] in H |- *. assert (Hn : In n names) by (apply IN; now left). pose proof (RD n (or_introl eq_refl)) as R1.
    destruct (run_case _ _ _ _ _ _ n a f) as [[[[r1 q1] a1] h1|h1]|] eqn:C1; [|discriminate|discriminate]. cbn [run_bind] in *.
    destruct (after_case n a f r1 q1 a1 h1 Hn R1 C1) as (-> & -> & OT). rewrite HF in *. cbn [is_abort orb andb] in *. rewrite RF in *.
    pose proof ND as ND0. inversion ND as [|? ? NI ND']; subst.
    apply (IH ltac:(intros m Hm; apply IN; now right) ND' _ _ _ _ _ _ _ _ _ ltac:(apply (ready_next n (l1 ++ l2) f h1); assumption) H).
Qed.
End Two.

Section Inv.
Variable cc : CharClass.
Variable refloat : str -> option str.
Variables (E o : str).
Hypothesis HE : plain_dir E.
Hypothesis Ho : plain o.
Notation O := (E ++ SLASH :: o).
Variable c : config.
Variable body : str -> fs -> body_run.
Context {D : Type} (show_dur : D -> str) (parse_dur : str -> option D) (sp : char -> bool) (dur : str -> D).
Lemma run_inv all_names metrics selected answers f rv recs rest g :
  run_async cc refloat E O O c body show_dur parse_dur sp dur all_names metrics selected answers f = Some (Ret (rv, recs, rest) g) ->
  let old := of_file parse_dur sp (lookup (O ++ SLASH :: lit "cases.txt") f) in let todo := snd (cases_to_done_and_todo old (cont c) selected) in
  exists f2, run_todo cc refloat E O O c body show_dur dur todo OK false (kept old todo) answers (write_file (O ++ SLASH :: lit "cases.txt") (report_text show_dur (kept old todo)) f)
      = Some (Ret (rv, recs, rest) f2) /\
    g = write_file (E ++ SLASH :: lit "index.md") (index_text all_names) (write_file (O ++ SLASH :: lit "metrics.json") metrics f2).
Proof.
  intros H old todo. unfold run_async in H. cbv zeta in H. rewrite (RF E o HE Ho) in H.
  assert (ME : path_join O (lit "metrics.json") = O ++ SLASH :: lit "metrics.json") by now apply metrics_eq.
  assert (IE : path_join E (lit "index.md") = E ++ SLASH :: lit "index.md") by now apply index_eq. rewrite ME, IE in H.
  fold old in H. fold todo in H. destruct (run_todo _ _ _ _ _ _ _ _ _ _ _ _ _ _ _) as [[[[rv0 recs0] rest0] f2|f2]|] eqn:RT in H; [|discriminate|discriminate]. cbn [run_bind] in H.
  exists f2. rewrite RT. split; [injection H as -> -> -> _; reflexivity|]. injection H; auto.
Qed.
End Inv.

Theorem C147_in_parts :
  forall cc refloat E o c body (D : Type) (show_dur : D -> str) parse_dur sp dur dur1 dur2 all_names metrics metrics1 metrics2 names deps
    s1 s2 answers answers1 answers2 f rv recs rest g rv1 recs1 rest1 g1 rv2 recs2 rest2 g2,
  plain_dir E -> plain o -> starts_with [DOT] o = true -> let O := E ++ SLASH :: o in
  batch c -> fail_fast c = false -> durations_ok show_dur parse_dur -> space_ok sp -> separate names ->
  (forall n, In n names -> field_ok n /\ incl (deps n) names /\ reads_deps E O deps n (body n)) ->
  NoDup (s1 ++ s2) -> incl (s1 ++ s2) names -> (forall n, In n (s1 ++ s2) -> ready E O n f) ->
  run_async cc refloat E O O c body show_dur parse_dur sp dur all_names metrics (s1 ++ s2) answers f = Some (Ret (rv, recs, rest) g) ->
  run_async cc refloat E O O c body show_dur parse_dur sp dur1 all_names metrics1 s1 answers1 f = Some (Ret (rv1, recs1, rest1) g1) ->
  run_async cc refloat E O O c body show_dur parse_dur sp dur2 all_names metrics2 s2 answers2 g1 = Some (Ret (rv2, recs2, rest2) g2) ->
  rv = add_result rv1 rv2 /\
  map (fun r => (rec_name r, rec_result r)) recs2 = map (fun r => (rec_name r, rec_result r)) recs /\
  ((forall n, In n s1 -> dur1 n = dur n) -> (forall n, In n s2 -> dur2 n = dur n) -> recs2 = recs) /\
  lookup (O ++ SLASH :: lit "cases.txt") g = Some (report_text show_dur recs) /\ lookup (O ++ SLASH :: lit "cases.txt") g2 = Some (report_text show_dur recs2) /\
  forall p, p <> O ++ SLASH :: lit "cases.txt" -> p <> O ++ SLASH :: lit "metrics.json" -> lookup p g2 = lookup p g.
Proof.
  intros cc refloat E o c body D show_dur parse_dur sp dur dur1 dur2 all_names metrics metrics1 metrics2 names deps
    s1 s2 answers answers1 answers2 f rv recs rest g rv1 recs1 rest1 g1 rv2 recs2 rest2 g2 HE Ho Hdot O HB HF DUR SPC SEP HN ND IN RD H H1 H2.
  assert (Hd : forall n, In n names -> incl (deps n) names) by (intros n Hn; apply HN; exact Hn).
  assert (Hb : forall n, In n names -> reads_deps E O deps n (body n)) by (intros n Hn; apply HN; exact Hn).
  assert (IN1 : incl s1 names) by (intros n Hn; apply IN, in_app_iff; now left). assert (IN2 : incl s2 names) by (intros n Hn; apply IN, in_app_iff; now right).
  assert (ND1 : NoDup s1) by (eapply NoDup_app_l; exact ND). assert (ND2 : NoDup s2) by (eapply NoDup_app_r; exact ND).
  assert (DIS : forall n, In n s1 -> ~ In n s2) by (apply NoDup_app_disj; exact ND).
  assert (RD1 : forall n, In n s1 -> ready E O n f) by (intros n Hn; apply RD, in_app_iff; now left).
  assert (NF : forall x, In x [O ++ SLASH :: lit "cases.txt"; O ++ SLASH :: lit "metrics.json"; E ++ SLASH :: lit "index.md"] -> forall t h, agree (free E o) (write_file x t h) h).
  { intros x Hx t h. apply write_free. now apply not_free. }
  destruct (run_facts cc refloat E o HE Ho Hdot c HB HF body names SEP show_dur parse_dur sp dur all_names metrics (s1 ++ s2) answers f rv recs rest g IN ND RD H) as (_ & _ & _ & _ & _ & CT & _).
  destruct (run_facts cc refloat E o HE Ho Hdot c HB HF body names SEP show_dur parse_dur sp dur1 all_names metrics1 s1 answers1 f rv1 recs1 rest1 g1 IN1 ND1 RD1 H1) as (_ & _ & _ & _ & _ & CT1 & FR1).
  assert (RD2 : forall n, In n s2 -> ready E O n g1).
  { intros n Hn. apply (ready_local E o n f); [|apply RD, in_app_iff; now right]. intros p OW. symmetry. assert (NS := own_free refloat E o Hdot names SEP n p (IN2 n Hn) OW). unfold free in NS.
    apply FR1; [|intros ->; apply NS; now left|intros ->; apply NS; right; now left|intros ->; apply NS; right; right; now left].
    intros m Hm X. apply todo_incl in Hm. apply (DIS m Hm). replace m with n; [exact Hn|]. apply (own_disjoint E o Hdot names n m p); auto. }
  destruct (run_facts cc refloat E o HE Ho Hdot c HB HF body names SEP show_dur parse_dur sp dur2 all_names metrics2 s2 answers2 g1 rv2 recs2 rest2 g2 IN2 ND2 RD2 H2) as (_ & _ & _ & _ & _ & CT2 & _).
  clear FR1. apply (run_inv cc refloat E o HE Ho) in H, H1, H2. cbv zeta in H, H1, H2. fold O in H, H1, H2, CT, CT1, CT2.
  set (old := of_file parse_dur sp (lookup (O ++ SLASH :: lit "cases.txt") f)) in *.
  rewrite todo_app in H. set (t1 := snd (cases_to_done_and_todo old (cont c) s1)) in *. set (t2 := snd (cases_to_done_and_todo old (cont c) s2)) in *.
  assert (I1 : incl t1 s1) by apply todo_incl. assert (I2 : incl t2 s2) by apply todo_incl.
  assert (NDt : NoDup (t1 ++ t2)) by (unfold t1, t2; rewrite <- todo_app; now apply todo_NoDup).
  assert (INt : incl (t1 ++ t2) names) by (intros n Hn; apply in_app_iff in Hn as [Hn|Hn]; [apply IN1, I1|apply IN2, I2]; exact Hn).
  destruct H as (fz & RT & EG), H1 as (f1 & RT1 & EG1), H2 as (f2 & RT2 & EG2).
  assert (RDt : forall x t h n, In x [O ++ SLASH :: lit "cases.txt"; O ++ SLASH :: lit "metrics.json"; E ++ SLASH :: lit "index.md"] -> In n names -> ready E O n h -> ready E O n (write_file x t h)).
  { intros x t h n Hx Hn. apply (ready_free refloat E o Hdot names SEP); [exact Hn|]. apply agree_sym. now apply NF. }
  destruct (todo_split cc refloat E o HE Ho Hdot c HB HF body names SEP show_dur dur t1 t2 INt NDt _ _ _ _ _ _ _ _ _
    ltac:(intros n Hn; apply RDt; [now left|now apply INt|apply RD; apply in_app_iff in Hn as [Hn|Hn]; apply in_app_iff; [left; now apply I1|right; now apply I2]]) RT)
    as (rvm & failsm & recsm & fm & RTm & RTz & RDm).
  destruct (todo_same cc refloat E o HE Ho Hdot c HB HF body names deps SEP Hd Hb show_dur dur dur1 t1 ltac:(intros n Hn; now apply IN1, I1) ltac:(eapply NoDup_app_l; exact NDt)
    _ _ _ _ _ _ _ _ _ _ _ _ _ _ _ _ _ _
    ltac:(intros n Hn; apply RDt; [now left|now apply IN1, I1|now apply RD1, I1]) ltac:(eapply agree_trans; [apply NF; now left|apply agree_sym, NF; now left]) RTm RT1)
    as (res1 & N1 & E1 & E1' & V1 & V1' & A1).
  (* the second part starts from the records of the first *)
  assert (NK : names_ok recs1).
  { rewrite E1'. apply Forall_app. split.
    - apply Forall_forall. intros r Hr. apply kept_In in Hr as [Hr _]. revert r Hr. apply Forall_forall. apply (read_names_ok parse_dur sp).
    - apply Forall_forall. intros r Hr. apply in_map_iff in Hr as (x & <- & Hx). apply HN, IN1, I1. change (In (fst x) t1). rewrite <- N1. now apply in_map. }
  rewrite CT1, (of_file_roundtrip _ _ _ DUR SPC recs1 NK) in RT2.
  assert (NR1 : map rec_name (map (fun x => (fst x, snd x, dur1 (fst x))) res1) = t1) by (rewrite map_map; exact N1).
  assert (T2 : snd (cases_to_done_and_todo recs1 (cont c) s2) = t2).
  { apply todo_same_old. intros i Hi. assert (NI : ~ In i t1) by (intros X; apply (DIS i (I1 i X) Hi)).
    rewrite E1', by_name_app, by_name_kept by exact NI. rewrite (by_name_none i (map _ res1)) by (intros X; apply NI; rewrite <- NR1; exact X). apply app_nil_r. }
  rewrite T2 in RT2.
  assert (K2 : kept recs1 t2 = kept old (t1 ++ t2) ++ map (fun x => (fst x, snd x, dur1 (fst x))) res1).
  { rewrite E1', kept_app, kept_kept. f_equal. apply kept_all. rewrite NR1. intros n A B. apply (DIS n (I1 n A)). now apply I2. }
  rewrite K2 in RT2.
  assert (A12 : forall t, agree (free E o) fm (write_file (O ++ SLASH :: lit "cases.txt") t g1)).
  { intros t. eapply agree_trans; [exact A1|]. apply agree_sym. eapply agree_trans; [apply NF; now left|]. rewrite EG1. eapply agree_trans; [apply NF; right; right; now left|apply NF; right; now left]. }
  destruct (todo_same cc refloat E o HE Ho Hdot c HB HF body names deps SEP Hd Hb show_dur dur dur2 t2 ltac:(intros n Hn; now apply IN2, I2) ltac:(eapply NoDup_app_r; exact NDt)
    _ _ _ _ _ _ _ _ _ _ _ _ _ _ _ _ _ _ RDm
    (A12 _) RTz RT2) as (res2 & N2 & E2 & E2' & V2 & V2' & A2).
  split; [rewrite V2, V1, V2', V1'; apply fold_add|].
  split; [rewrite E2, E2', E1, !map_app, !map_map; reflexivity|].
  split.
  { intros D1 D2. rewrite E2, E2', E1. f_equal; [f_equal|]; apply map_ext_in; intros x Hx; f_equal; [apply D1, I1; rewrite <- N1|apply D2, I2; rewrite <- N2]; now apply in_map. }
  split; [exact CT|]. split; [exact CT2|]. intros p NC NM. rewrite EG, EG2, !lookup_write.
  destruct (str_eqb_spec (E ++ SLASH :: lit "index.md") p) as [_|NI]; [reflexivity|]. destruct (str_eqb_spec (O ++ SLASH :: lit "metrics.json") p) as [X|_]; [now symmetry in X|].
  symmetry. apply A2. intros [X|[X|[X|[]]]]; [now symmetry in X|now symmetry in X|contradiction].
Qed.
Print Assumptions C147_in_parts.

(** The whole run returns exactly if the two parts do. *)
Section Returns.
Variable cc : CharClass.
Variable refloat : str -> option str.
Variables (E o : str).
Hypothesis HE : plain_dir E.
Hypothesis Ho : plain o.
Hypothesis Hdot : starts_with [DOT] o = true.
Notation O := (E ++ SLASH :: o).
Variable c : config.
Hypothesis HB : batch c.
Hypothesis HF : fail_fast c = false.
Variable body : str -> fs -> body_run.
Variable names : list str.
Variable deps : str -> list str.
Hypothesis Hnames : separate names.
Hypothesis Hdeps : forall n, In n names -> incl (deps n) names.
Hypothesis Hbody : forall n, In n names -> reads_deps E O deps n (body n).
Context {D : Type} (show_dur : D -> str) (parse_dur : str -> option D) (sp : char -> bool).

Lemma case_returns n a f g b x h : In n names -> agree (free E o) f g -> ready E O n g ->
  run_case cc refloat E O c body n a f = Some (Ret x h) -> exists res h', run_case cc refloat E O c body n b g = Some (Ret (res, NONE, b) h').
Proof.
  intros Hn A RG R1. destruct x as [[r q] a']. apply (solo_case cc refloat E O c body n a f r q a' h HB) in R1.
  assert (L : local (free E o) (free E o) (case_proc cc refloat E O (job_config c) body n)).
  { apply (case_local cc refloat E o HE Ho c body names deps Hnames Hbody); [exact Hn| |].
    - intros p OW. split; now apply (own_free refloat E o Hdot names Hnames n).
    - intros d Hd. apply (own_free refloat E o Hdot names Hnames d); [now apply (Hdeps n)|apply bin_own]. }
  destruct (local_solo _ _ _ L) as [_ S]. destruct (S f g A) as [S1 _].
  change (case_proc cc refloat E O (job_config c) body n) with (case_proc cc refloat E O c body n) in S1. rewrite R1 in S1. cbn [snd] in S1.
  destruct (run_case_exact E o HE Ho Hdot cc refloat c body HB n b g (a_name names Hnames n Hn) RG) as (g1 & ST & K).
  destruct (run_body _ _ _ _ _) as [s|] eqn:RB in K.
  - cbv zeta in K. destruct K as (h' & RC & _). eauto.
  - exfalso. unfold case_proc in S1. rewrite solo_bind, solo_start, ST in S1. cbn [solo_io] in S1. rewrite solo_bind, solo_reading, RB in S1. discriminate S1.
Qed.

Lemma todo_returns durA durB todo : incl todo names -> NoDup todo -> forall rvA failsA recsA aA f x f' rvB failsB recsB aB g,
  (forall n, In n todo -> ready E O n f) -> agree (free E o) f g ->
  run_todo cc refloat E O O c body show_dur durA todo rvA failsA recsA aA f = Some (Ret x f') ->
  exists y g', run_todo cc refloat E O O c body show_dur durB todo rvB failsB recsB aB g = Some (Ret y g').
Proof.
  induction todo as [|n todo IH]; intros IN ND rvA failsA recsA aA f x f' rvB failsB recsB aB g RD A HA; cbn [run_todo] in *; [eauto|].
  assert (Hn : In n names) by (apply IN; now left). inversion ND as [|? ? NI ND']; subst. pose proof (RD n (or_introl eq_refl)) as R1.
  pose proof (ready_free refloat E o Hdot names Hnames n f g Hn A R1) as R2.
  destruct (run_case _ _ _ _ _ _ n aA f) as [[[[r1 q1] a1] h1|h1]|] eqn:C1; [|discriminate|discriminate]. cbn [run_bind] in HA.
  destruct (case_returns n aA f g aB _ h1 Hn A R2 C1) as (r2 & h2 & C2). rewrite C2. cbn [run_bind].
  destruct (case_same cc refloat E o HE Ho Hdot c HB body names deps Hnames Hdeps Hbody n aA f g aB r1 q1 a1 h1 r2 NONE aB h2 Hn A C1 C2) as [<- A1].
  destruct (after_case cc refloat E o HE Ho Hdot c HB body names Hnames n aA f r1 q1 a1 h1 Hn R1 C1) as (-> & -> & OT).
  rewrite HF in *. cbn [is_abort orb andb] in *. rewrite (RF E o HE Ho) in *.
  eapply IH; [intros m Hm; apply IN; now right|exact ND'| | |exact HA].
  - apply (ready_next refloat E o Hdot names Hnames n todo f h1); assumption.
  - eapply agree_trans; [apply write_free, not_free; now left|]. eapply agree_trans; [exact A1|]. apply agree_sym, write_free, not_free. now left.
Qed.

Lemma todo_join dur l1 : incl l1 names -> NoDup l1 -> forall rv fails recs a f x f1, (forall n, In n l1 -> ready E O n f) ->
  run_todo cc refloat E O O c body show_dur dur l1 rv fails recs a f = Some (Ret x f1) ->
  exists rv1 fails1 recs1 a1, forall l2, run_todo cc refloat E O O c body show_dur dur (l1 ++ l2) rv fails recs a f = run_todo cc refloat E O O c body show_dur dur l2 rv1 fails1 recs1 a1 f1.
Proof.
  induction l1 as [|n l1 IH]; intros IN ND rv fails recs a f x f1 RD H; cbn [run_todo app] in *.
  - injection H as _ <-. exists rv, fails, recs, a. reflexivity.
  - assert (Hn : In n names) by (apply IN; now left). inversion ND as [|? ? NI ND']; subst. pose proof (RD n (or_introl eq_refl)) as R1.
    destruct (run_case _ _ _ _ _ _ n a f) as [[[[r1 q1] a1] h1|h1]|] eqn:C1; [|discriminate|discriminate]. cbn [run_bind] in *.
    destruct (after_case cc refloat E o HE Ho Hdot c HB body names Hnames n a f r1 q1 a1 h1 Hn R1 C1) as (-> & -> & OT).
    rewrite HF in *. cbn [is_abort orb andb] in *. rewrite (RF E o HE Ho) in *.
    eapply IH; [intros m Hm; apply IN; now right|exact ND'| |exact H]. apply (ready_next refloat E o Hdot names Hnames n l1 f h1); assumption.
Qed.

Lemma run_intro dur all_names metrics selected answers f x f2 :
  let old := of_file parse_dur sp (lookup (O ++ SLASH :: lit "cases.txt") f) in let todo := snd (cases_to_done_and_todo old (cont c) selected) in
  run_todo cc refloat E O O c body show_dur dur todo OK false (kept old todo) answers (write_file (O ++ SLASH :: lit "cases.txt") (report_text show_dur (kept old todo)) f) = Some (Ret x f2) ->
  exists g, run_async cc refloat E O O c body show_dur parse_dur sp dur all_names metrics selected answers f = Some (Ret x g).
Proof.
  intros old todo H. unfold run_async. cbv zeta. rewrite (RF E o HE Ho). fold old. fold todo. rewrite H. cbn [run_bind]. eauto.
Qed.

Hypothesis DUR : durations_ok show_dur parse_dur.
Hypothesis SPC : space_ok sp.
Hypothesis Hfield : forall n, In n names -> field_ok n.

(** after the first part the second still has the same tests to run *)
Lemma second_todo dur all_names metrics s1 s2 answers f rv1 recs1 rest1 g1 : NoDup (s1 ++ s2) -> incl (s1 ++ s2) names -> (forall n, In n (s1 ++ s2) -> ready E O n f) ->
  run_async cc refloat E O O c body show_dur parse_dur sp dur all_names metrics s1 answers f = Some (Ret (rv1, recs1, rest1) g1) ->
  snd (cases_to_done_and_todo (of_file parse_dur sp (lookup (O ++ SLASH :: lit "cases.txt") g1)) (cont c) s2)
    = snd (cases_to_done_and_todo (of_file parse_dur sp (lookup (O ++ SLASH :: lit "cases.txt") f)) (cont c) s2) /\
  forall n, In n s2 -> ready E O n g1.
Proof.
  intros ND IN RD H.
  assert (IN1 : incl s1 names) by (intros n Hn; apply IN, in_app_iff; now left). assert (IN2 : incl s2 names) by (intros n Hn; apply IN, in_app_iff; now right).
  pose proof (NoDup_app_disj s1 s2 ND) as DIS.
  destruct (run_facts cc refloat E o HE Ho Hdot c HB HF body names Hnames show_dur parse_dur sp dur all_names metrics s1 answers f rv1 recs1 rest1 g1 IN1 (NoDup_app_l _ _ ND)
    ltac:(intros n Hn; apply RD, in_app_iff; now left) H) as (ran & ER & NR & _ & _ & CT & FR).
  unfold par_kept, par_todo in *. assert (RF' : path_join O (lit "cases.txt") = O ++ SLASH :: lit "cases.txt") by exact (RF E o HE Ho). rewrite RF' in *.
  set (old := of_file parse_dur sp (lookup (O ++ SLASH :: lit "cases.txt") f)) in *. set (t1 := snd (cases_to_done_and_todo old (cont c) s1)) in *.
  assert (I1 : incl t1 s1) by apply todo_incl. split.
  - rewrite CT, (of_file_roundtrip _ _ _ DUR SPC recs1).
    + apply todo_same_old. intros i Hi. assert (NI : ~ In i t1) by (intros X; apply (DIS i (I1 i X) Hi)).
      rewrite ER, by_name_app, by_name_kept by exact NI. rewrite (by_name_none i ran) by (intros X; apply NI; rewrite <- NR; exact X). apply app_nil_r.
    + rewrite ER. apply Forall_app. split.
      * apply Forall_forall. intros r Hr. apply kept_In in Hr as [Hr _]. revert r Hr. apply Forall_forall. apply (read_names_ok parse_dur sp).
      * apply Forall_forall. intros r Hr. apply Hfield, IN1, I1. rewrite <- NR. now apply in_map.
  - intros n Hn. apply (ready_local E o n f); [|apply RD, in_app_iff; now right]. intros p OW. symmetry. assert (NS := own_free refloat E o Hdot names Hnames n p (IN2 n Hn) OW). unfold free in NS.
    apply FR; [|intros ->; apply NS; now left|intros ->; apply NS; right; now left|intros ->; apply NS; right; right; now left].
    intros m Hm X. apply I1 in Hm. apply (DIS m Hm). replace m with n; [exact Hn|]. apply (own_disjoint E o Hdot names n m p); auto.
Qed.
End Returns.

Theorem C147_returns :
  forall cc refloat E o c body (D : Type) (show_dur : D -> str) parse_dur sp dur dur1 dur2 all_names metrics metrics1 metrics2 names deps s1 s2 answers answers1 answers2 f,
  plain_dir E -> plain o -> starts_with [DOT] o = true -> let O := E ++ SLASH :: o in
  batch c -> fail_fast c = false -> durations_ok show_dur parse_dur -> space_ok sp -> separate names ->
  (forall n, In n names -> field_ok n /\ incl (deps n) names /\ reads_deps E O deps n (body n)) ->
  NoDup (s1 ++ s2) -> incl (s1 ++ s2) names -> (forall n, In n (s1 ++ s2) -> ready E O n f) ->
  ((exists x g, run_async cc refloat E O O c body show_dur parse_dur sp dur all_names metrics (s1 ++ s2) answers f = Some (Ret x g)) <->
   (exists x1 g1 x2 g2, run_async cc refloat E O O c body show_dur parse_dur sp dur1 all_names metrics1 s1 answers1 f = Some (Ret x1 g1) /\
      run_async cc refloat E O O c body show_dur parse_dur sp dur2 all_names metrics2 s2 answers2 g1 = Some (Ret x2 g2))).
Proof.
  intros cc refloat E o c body D show_dur parse_dur sp dur dur1 dur2 all_names metrics metrics1 metrics2 names deps s1 s2 answers answers1 answers2 f
    HE Ho Hdot O HB HF DUR SPC SEP HN ND IN RD.
  assert (Hd : forall n, In n names -> incl (deps n) names) by (intros n Hn; apply HN; exact Hn).
  assert (Hb : forall n, In n names -> reads_deps E O deps n (body n)) by (intros n Hn; apply HN; exact Hn).
  assert (Hf : forall n, In n names -> field_ok n) by (intros n Hn; apply HN; exact Hn).
  assert (NF : forall x, In x [O ++ SLASH :: lit "cases.txt"; O ++ SLASH :: lit "metrics.json"; E ++ SLASH :: lit "index.md"] -> forall t h, agree (free E o) (write_file x t h) h).
  { intros x Hx t h. apply write_free. now apply not_free. }
  assert (RDw : forall t h n, In n names -> ready E O n h -> ready E O n (write_file (O ++ SLASH :: lit "cases.txt") t h)).
  { intros t h n Hn. apply (ready_free refloat E o Hdot names SEP); [exact Hn|]. apply agree_sym, NF. now left. }
  set (old := of_file parse_dur sp (lookup (O ++ SLASH :: lit "cases.txt") f)).
  set (t1 := snd (cases_to_done_and_todo old (cont c) s1)). set (t2 := snd (cases_to_done_and_todo old (cont c) s2)).
  assert (T : snd (cases_to_done_and_todo old (cont c) (s1 ++ s2)) = t1 ++ t2) by apply todo_app.
  assert (I1 : incl t1 names) by (intros n Hn; apply IN, in_app_iff; left; exact (todo_incl _ _ _ n Hn)).
  assert (I2 : incl t2 names) by (intros n Hn; apply IN, in_app_iff; right; exact (todo_incl _ _ _ n Hn)).
  assert (NDt : NoDup (t1 ++ t2)) by (rewrite <- T; now apply todo_NoDup).
  assert (RDt : forall t n, In n (t1 ++ t2) -> ready E O n (write_file (O ++ SLASH :: lit "cases.txt") t f)).
  { intros t n Hn. apply RDw; [apply in_app_iff in Hn as [Hn|Hn]; [now apply I1|now apply I2]|]. apply RD. rewrite <- T in Hn. exact (todo_incl _ _ _ n Hn). }
  assert (RD1 : forall t n, In n t1 -> ready E O n (write_file (O ++ SLASH :: lit "cases.txt") t f)) by (intros t n Hn; apply RDt, in_app_iff; now left).
  assert (AF : forall t u, agree (free E o) (write_file (O ++ SLASH :: lit "cases.txt") t f) (write_file (O ++ SLASH :: lit "cases.txt") u f)).
  { intros t u. eapply agree_trans; [apply NF; now left|apply agree_sym, NF; now left]. }
  assert (AG : forall t u h f1, agree (free E o) h f1 ->
    agree (free E o) h (write_file (O ++ SLASH :: lit "cases.txt") t (write_file (E ++ SLASH :: lit "index.md") u (write_file (O ++ SLASH :: lit "metrics.json") metrics1 f1)))).
  { intros t u h f1 A. eapply agree_trans; [exact A|]. apply agree_sym. eapply agree_trans; [apply NF; now left|]. eapply agree_trans; [apply NF; right; right; now left|apply NF; right; now left]. }
  split.
  - intros ([[rv recs] rest] & g & H). apply (run_inv cc refloat E o HE Ho) in H. cbv zeta in H. fold O in H. fold old in H. rewrite T in H. destruct H as (fz & RT & _).
    destruct (todo_split cc refloat E o HE Ho Hdot c HB HF body names SEP show_dur dur t1 t2 ltac:(intros n Hn; apply in_app_iff in Hn as [Hn|Hn]; [now apply I1|now apply I2]) NDt
      _ _ _ _ _ _ _ _ _ (RDt _) RT) as (rvm & failsm & recsm & fm & RTm & RTz & RDm).
    destruct (todo_returns cc refloat E o HE Ho Hdot c HB HF body names deps SEP Hd Hb show_dur dur dur1 t1 I1 (NoDup_app_l _ _ NDt) _ _ _ _ _ _ _ OK false (kept old t1) answers1
      _ (RD1 _) (AF _ (report_text show_dur (kept old t1))) RTm) as ([[rv1 recs1] rest1] & f1 & RT1).
    destruct (todo_same cc refloat E o HE Ho Hdot c HB HF body names deps SEP Hd Hb show_dur dur dur1 t1 I1 (NoDup_app_l _ _ NDt) _ _ _ _ _ _ _ _ _ _ _ _ _ _ _ _ _ _
      (RD1 _) (AF _ _) RTm RT1) as (_ & _ & _ & _ & _ & _ & A1).
    destruct (run_intro cc refloat E o HE Ho c body show_dur parse_dur sp dur1 all_names metrics1 s1 answers1 f _ f1 RT1) as (g1 & H1).
    destruct (second_todo cc refloat E o HE Ho Hdot c HB HF body names SEP show_dur parse_dur sp DUR SPC Hf dur1 all_names metrics1 s1 s2 answers1 f rv1 recs1 rest1 g1 ND IN RD H1) as [T2 _].
    fold O in T2. fold old in T2. fold t2 in T2. pose proof H1 as H1'. apply (run_inv cc refloat E o HE Ho) in H1'. cbv zeta in H1'. fold O in H1'. fold old in H1'. fold t1 in H1'.
    destruct H1' as (f1' & RT1' & EG1). fold O in RT1. rewrite RT1 in RT1'. injection RT1' as <-.
    set (old1 := of_file parse_dur sp (lookup (O ++ SLASH :: lit "cases.txt") g1)) in *.
    assert (A12 : forall t, agree (free E o) fm (write_file (O ++ SLASH :: lit "cases.txt") t g1)) by (intros t; rewrite EG1; now apply AG).
    destruct (todo_returns cc refloat E o HE Ho Hdot c HB HF body names deps SEP Hd Hb show_dur dur dur2 t2 I2 (NoDup_app_r _ _ NDt) _ _ _ _ _ _ _ OK false (kept old1 t2) answers2
      _ RDm (A12 (report_text show_dur (kept old1 t2))) RTz) as (x2 & f2 & RT2).
    destruct (run_intro cc refloat E o HE Ho c body show_dur parse_dur sp dur2 all_names metrics2 s2 answers2 g1 x2 f2) as (g2 & H2).
    { fold O. fold old1. rewrite T2. exact RT2. }
    exists (rv1, recs1, rest1), g1, x2, g2. split; [exact H1|exact H2].
  - intros ([[rv1 recs1] rest1] & g1 & [[rv2 recs2] rest2] & g2 & H1 & H2).
    destruct (second_todo cc refloat E o HE Ho Hdot c HB HF body names SEP show_dur parse_dur sp DUR SPC Hf dur1 all_names metrics1 s1 s2 answers1 f rv1 recs1 rest1 g1 ND IN RD H1) as [T2 RD2].
    fold O in T2, RD2. fold old in T2. fold t2 in T2. apply (run_inv cc refloat E o HE Ho) in H1, H2. cbv zeta in H1, H2. fold O in H1, H2. fold old in H1. fold t1 in H1.
    set (old1 := of_file parse_dur sp (lookup (O ++ SLASH :: lit "cases.txt") g1)) in *. rewrite T2 in H2.
    destruct H1 as (f1 & RT1 & EG1), H2 as (f2 & RT2 & _).
    destruct (todo_returns cc refloat E o HE Ho Hdot c HB HF body names deps SEP Hd Hb show_dur dur1 dur t1 I1 (NoDup_app_l _ _ NDt) _ _ _ _ _ _ _ OK false (kept old (t1 ++ t2)) answers
      _ (RD1 _) (AF _ (report_text show_dur (kept old (t1 ++ t2)))) RT1) as ([[rvm recsm] restm] & fm & RTm).
    destruct (todo_same cc refloat E o HE Ho Hdot c HB HF body names deps SEP Hd Hb show_dur dur dur1 t1 I1 (NoDup_app_l _ _ NDt) _ _ _ _ _ _ _ _ _ _ _ _ _ _ _ _ _ _
      (RD1 _) (AF _ _) RTm RT1) as (_ & _ & _ & _ & _ & _ & A1).
    destruct (todo_join cc refloat E o HE Ho Hdot c HB HF body names SEP show_dur dur t1 I1 (NoDup_app_l _ _ NDt) _ _ _ _ _ _ _ (RD1 _) RTm) as (rv' & fails' & recs' & a' & J).
    assert (A12 : forall t, agree (free E o) fm (write_file (O ++ SLASH :: lit "cases.txt") t g1)) by (intros t; rewrite EG1; now apply AG).
    assert (RDx : forall t n, In n t2 -> ready E O n (write_file (O ++ SLASH :: lit "cases.txt") t g1)).
    { intros t n Hn. apply RDw; [now apply I2|]. apply RD2. exact (todo_incl _ _ _ n Hn). }
    destruct (todo_returns cc refloat E o HE Ho Hdot c HB HF body names deps SEP Hd Hb show_dur dur2 dur t2 I2 (NoDup_app_r _ _ NDt) _ _ _ _ _ _ _ rv' fails' recs' a'
      fm (RDx _) (agree_sym _ _ _ (A12 _)) RT2) as (y & fz & RTz).
    rewrite <- J in RTz. exists y. apply (run_intro cc refloat E o HE Ho c body show_dur parse_dur sp dur all_names metrics (s1 ++ s2) answers f y fz).
    fold O. fold old. rewrite T. exact RTz.
Qed.
Print Assumptions C147_returns.

(** The second test writes the value that the first returned in an earlier run; with -a both ways end OK, without both DIFF. *)
Definition demo_part (acc : bool) (sel : list str) (f : fs) :=
  run_async ascii_class no_float demo_E demo_O demo_O (demo_conf acc) demo_using (fun _ : unit => lit "7") (fun _ => Some tt) (fun c => N.eqb c SP) (fun _ => tt) demo_two (lit "{}") sel (@nil str) f.
Lemma demo_part_eq acc sel f : demo_part acc sel f = run_async ascii_class no_float demo_E (demo_E ++ SLASH :: demo_o) (demo_E ++ SLASH :: demo_o) (demo_conf acc) demo_using (fun _ : unit => lit "7") (fun _ => Some tt) (fun c => N.eqb c SP) (fun _ => tt) demo_two (lit "{}") sel (@nil str) f.
Proof. reflexivity. Qed.
Example C147_example : forall acc : bool, exists rv1 recs1 rest1 g1 recs2 rest2 g2 recs rest g,
  let res := if acc then OK else DIFF in
  demo_part acc [lit "t/a"] demo_f0 = Some (Ret (rv1, recs1, rest1) g1) /\ demo_part acc [lit "t/b"] g1 = Some (Ret (res, recs2, rest2) g2) /\
  demo_part acc ([lit "t/a"] ++ [lit "t/b"]) demo_f0 = Some (Ret (res, recs, rest) g) /\
  recs1 = [(lit "t/a", rv1, tt)] /\ recs2 = [(lit "t/a", rv1, tt); (lit "t/b", res, tt)] /\ recs = recs2 /\
  forall p, p <> demo_O ++ SLASH :: lit "cases.txt" -> p <> demo_O ++ SLASH :: lit "metrics.json" -> lookup p g2 = lookup p g.
Proof.
  intros acc. destruct (demo_part acc [lit "t/a"] demo_f0) as [[[[rv1 recs1] rest1] g1|g1]|] eqn:R1; [|destruct acc; vm_compute in R1; discriminate|destruct acc; vm_compute in R1; discriminate].
  assert (X1 : recs1 = [(lit "t/a", rv1, tt)]) by (destruct acc; vm_compute in R1; injection R1 as <- <- _ _; reflexivity).
  destruct (demo_part acc [lit "t/b"] g1) as [[[[rv2 recs2] rest2] g2|g2]|] eqn:R2; [|destruct acc; vm_compute in R1; injection R1 as <- <- <- <-; vm_compute in R2; discriminate|destruct acc; vm_compute in R1; injection R1 as <- <- <- <-; vm_compute in R2; discriminate].
  assert (X2 : rv2 = (if acc then OK else DIFF) /\ recs2 = [(lit "t/a", rv1, tt); (lit "t/b", if acc then OK else DIFF, tt)])
    by (destruct acc; vm_compute in R1; injection R1 as <- <- <- <-; vm_compute in R2; injection R2 as <- <- _ _; split; reflexivity).
  destruct (demo_part acc ([lit "t/a"] ++ [lit "t/b"]) demo_f0) as [[[[rv recs] rest] g|g]|] eqn:R; [|destruct acc; vm_compute in R; discriminate|destruct acc; vm_compute in R; discriminate].
  assert (X : rv = if acc then OK else DIFF) by (clear R1 R2; destruct acc; vm_compute in R; injection R as <- _ _ _; reflexivity).
  destruct X2 as [-> X2]. subst rv. exists rv1, recs1, rest1, g1, recs2, rest2, g2, recs, rest, g. cbv zeta.
  assert (DT : demo_two = [lit "t/a"] ++ [lit "t/b"]) by reflexivity.
  pose proof demo_NoDup as DN. pose proof demo_ready as DR. pose proof (incl_refl demo_two) as DI. rewrite DT in DN, DR. rewrite DT in DI at 1.
  rewrite demo_part_eq in R, R1, R2.
  destruct (C147_in_parts ascii_class no_float demo_E demo_o (demo_conf acc) demo_using unit (fun _ => lit "7") (fun _ => Some tt) (fun c => N.eqb c SP)
    (fun _ => tt) (fun _ => tt) (fun _ => tt) demo_two (lit "{}") (lit "{}") (lit "{}") demo_two demo_deps [lit "t/a"] [lit "t/b"] [] [] [] demo_f0 _ recs rest g _ recs1 rest1 g1 _ recs2 rest2 g2
    (proj1 demo_dirs) (proj1 (proj2 demo_dirs)) eq_refl (demo_conf_batch acc) eq_refl demo_durations demo_space
    demo_separate demo_tests DN DI DR R R1 R2) as (_ & _ & Y & _ & _ & Z).
  repeat (split; [first [reflexivity|assumption]|]). split; [symmetry; apply Y; reflexivity|exact Z].
Qed.
Example C147_returns_example : forall acc : bool, exists x1 g1 x2 g2,
  demo_part acc [lit "t/a"] demo_f0 = Some (Ret x1 g1) /\ demo_part acc [lit "t/b"] g1 = Some (Ret x2 g2).
Proof.
  intros acc. assert (R : exists x g, demo_part acc ([lit "t/a"] ++ [lit "t/b"]) demo_f0 = Some (Ret x g)) by (destruct acc; do 2 eexists; vm_compute; reflexivity).
  assert (DT : demo_two = [lit "t/a"] ++ [lit "t/b"]) by reflexivity.
  pose proof demo_NoDup as DN. pose proof demo_ready as DR. pose proof (incl_refl demo_two) as DI. rewrite DT in DN, DR. rewrite DT in DI at 1.
  destruct (C147_returns ascii_class no_float demo_E demo_o (demo_conf acc) demo_using unit (fun _ => lit "7") (fun _ => Some tt) (fun c => N.eqb c SP)
    (fun _ => tt) (fun _ => tt) (fun _ => tt) demo_two (lit "{}") (lit "{}") (lit "{}") demo_two demo_deps [lit "t/a"] [lit "t/b"] [] [] [] demo_f0
    (proj1 demo_dirs) (proj1 (proj2 demo_dirs)) eq_refl (demo_conf_batch acc) eq_refl demo_durations demo_space demo_separate demo_tests DN DI DR) as [Z _].
  destruct R as (x & g & R). rewrite demo_part_eq in R. destruct (Z (ex_intro _ x (ex_intro _ g R))) as (x1 & g1 & x2 & g2 & R1 & R2).
  exists x1, g1, x2, g2. rewrite !demo_part_eq. split; [exact R1|exact R2].
Qed.
