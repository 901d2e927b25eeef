(** C145 once more: if a run returns, then the run of the same tests in any other order that respects the dependencies returns too, with the same outcome; also with -u. *)
From Verif Require Import PyStrFacts CaseRunProps RunCaseProps ReportsProofs RunnerProofs ParProps OrderProps PartsProps.
From Coq Require Import Permutation.

Section Any.
Variable cc : CharClass.
Variable refloat : str -> option str.
Variables (E o : str).
Hypothesis HE : plain_dir E.
Hypothesis Ho : plain o.
Hypothesis Hdot : starts_with [DOT] o = true.
Notation O := (E ++ SLASH :: o).
Variable c : config.
Hypothesis HB : batch c.
Hypothesis HF : fail_fast c = false.
Variable body : str -> fs -> body_run.
Variable names : list str.
Variable deps : str -> list str.
Hypothesis Hnames : separate names.
Hypothesis Hdeps : forall n, In n names -> incl (deps n) names.
Hypothesis Hbody : forall n, In n names -> reads_deps E O deps n (body n).
Context {D : Type} (show_dur : D -> str).

Lemma report_own m p t h : In m names -> own E o m p -> lookup p (write_file (O ++ SLASH :: lit "cases.txt") t h) = lookup p h.
Proof.
  intros Hm OW. rewrite lookup_write. destruct (str_eqb_spec (O ++ SLASH :: lit "cases.txt") p) as [<-|_]; [|reflexivity].
  exfalso. revert OW. apply (special_not_own refloat E o Hdot); [now apply (a_name names Hnames)|now left].
Qed.

(** the files a test finds and leaves in a run, seen from the beginning and the end of the run *)
Lemma todo_points dur todo : incl todo names -> NoDup todo -> forall rv fails recs answers f rv' recs' rest g, (forall n, In n todo -> ready E O n f) ->
  run_todo cc refloat E O O c body show_dur dur todo rv fails recs answers f = Some (Ret (rv', recs', rest) g) ->
  forall a n b, todo = a ++ n :: b -> exists ans h r h', run_case cc refloat E O c body n ans h = Some (Ret (r, NONE, ans) h') /\ In (n, r, dur n) recs' /\
    (forall m p, In m names -> ~ In m a -> own E o m p -> lookup p h = lookup p f) /\
    (forall m p, In m names -> ~ In m (n :: b) -> own E o m p -> lookup p g = lookup p h) /\
    (forall m p, In m names -> ~ In m b -> own E o m p -> lookup p g = lookup p h').
Proof.
  intros IN ND rv fails recs answers f rv' recs' rest g RD H a. revert todo IN ND rv fails recs answers f RD H.
  induction a as [|k a IH]; intros todo IN ND rv fails recs answers f RD H n b ->; cbn [app run_todo] in *.
  - assert (Hn : In n names) by (apply IN; now left). pose proof ND as ND0. inversion ND as [|? ? NI ND']; subst. pose proof (RD n (or_introl eq_refl)) as R1.
    destruct (run_case _ _ _ _ _ _ n answers f) as [[[[r1 q1] a1] h1|h1]|] eqn:C1; [|discriminate|discriminate]. cbn [run_bind] in H.
    destruct (after_case cc refloat E o HE Ho Hdot c HB body names Hnames n answers f r1 q1 a1 h1 Hn R1 C1) as (-> & -> & OT).
    rewrite HF in H. cbn [is_abort orb andb] in H. rewrite (RF E o HE Ho) in H.
    destruct (todo_facts cc refloat E o HE Ho Hdot c HB HF body names Hnames show_dur dur b ltac:(intros m Hm; apply IN; now right) ND' _ _ _ _ _ _ _ _ _
      ltac:(apply (ready_next refloat E o Hdot names Hnames n b f h1); assumption) H) as (ran & E1 & _ & _ & _ & _ & FR).
    assert (L : forall m p, In m names -> ~ In m b -> own E o m p -> lookup p g = lookup p h1).
    { intros m p Hm NM OW. rewrite FR; [now apply (report_own m)| |].
      - intros k Hk X. apply NM. replace m with k; [exact Hk|]. apply (own_disjoint E o Hdot names k m p); auto. apply IN. now right.
      - intros ->. revert OW. apply (special_not_own refloat E o Hdot); [now apply (a_name names Hnames)|now left]. }
    exists answers, f, r1, h1. split; [exact C1|]. split; [rewrite E1; apply in_app_iff; left; apply in_app_iff; right; now left|]. split; [reflexivity|]. split; [|exact L].
    intros m p Hm NM OW. rewrite (L m); [|exact Hm|intros X; apply NM; now right|exact OW]. apply (OT m); [exact Hm|intros ->; apply NM; now left|exact OW].
  - assert (Hn : In k names) by (apply IN; now left). pose proof ND as ND0. inversion ND as [|? ? NI ND']; subst. pose proof (RD k (or_introl eq_refl)) as R1.
    destruct (run_case _ _ _ _ _ _ k answers f) as [[[[r1 q1] a1] h1|h1]|] eqn:C1; [|discriminate|discriminate]. cbn [run_bind] in H.
    destruct (after_case cc refloat E o HE Ho Hdot c HB body names Hnames k answers f r1 q1 a1 h1 Hn R1 C1) as (-> & -> & OT).
    rewrite HF in H. cbn [is_abort orb andb] in H. rewrite (RF E o HE Ho) in H.
    destruct (IH (a ++ n :: b) ltac:(intros m Hm; apply IN; now right) ND' _ _ _ _ _
      ltac:(apply (ready_next refloat E o Hdot names Hnames k (a ++ n :: b) f h1); assumption) H n b eq_refl) as (ans & h & r & h' & P1 & P2 & P3 & P4 & P5).
    exists ans, h, r, h'. split; [exact P1|]. split; [exact P2|]. split; [|split; [exact P4|exact P5]].
    intros m p Hm NM OW. rewrite (P3 m); [|exact Hm|intros X; apply NM; now right|exact OW]. rewrite (report_own m) by assumption.
    apply (OT m); [exact Hm|intros ->; apply NM; now left|exact OW].
Qed.

Lemma case_at n a h g b r q rest h' : In n names -> (forall m p, m = n \/ In m (deps n) -> own E o m p -> lookup p h = lookup p g) -> ready E O n g ->
  run_case cc refloat E O c body n a h = Some (Ret (r, q, rest) h') ->
  exists g', run_case cc refloat E O c body n b g = Some (Ret (r, NONE, b) g') /\ forall p, own E o n p -> lookup p h' = lookup p g'.
Proof.
  intros Hn A RG R1. apply (solo_case cc refloat E O c body n a h r q rest h' HB) in R1.
  set (P := fun p => exists m, (m = n \/ In m (deps n)) /\ own E o m p).
  assert (L : local P P (case_proc cc refloat E O (job_config c) body n)).
  { apply (case_local cc refloat E o HE Ho c body names deps Hnames Hbody); [exact Hn| |].
    - intros p OW. split; exists n; auto.
    - intros d Hd. exists d. split; [now right|apply bin_own]. }
  change (case_proc cc refloat E O (job_config c) body n) with (case_proc cc refloat E O c body n) in L.
  destruct (local_solo _ _ _ L) as [_ S]. destruct (S h g ltac:(intros p (m & M & OW); now apply (A m))) as [S1 S2]. rewrite R1 in S1, S2. cbn [fst snd] in S1, S2.
  destruct (run_case_exact E o HE Ho Hdot cc refloat c body HB n b g (a_name names Hnames n Hn) RG) as (g1 & ST & X).
  destruct (run_body _ _ _ _ _) as [s|] eqn:RB in X.
  - cbv zeta in X. destruct X as (g' & RC & _). pose proof RC as RC'. apply (solo_case cc refloat E O c body n b g _ _ _ g' HB) in RC'. rewrite RC' in S1, S2. cbn [fst snd] in S1, S2.
    exists g'. rewrite RC. injection S1 as ->. split; [reflexivity|]. intros p OW. apply S2. exists n. auto.
  - exfalso. unfold case_proc in S1. rewrite solo_bind, solo_start, ST in S1. cbn [solo_io] in S1. rewrite solo_bind, solo_reading, RB in S1. discriminate S1.
Qed.

Section Other.
Variables (durA durB : str -> D) (t1 t2 : list str) (rv : result) (fails : bool) (recs : list (case_rec D)) (answers : list str) (f : fs) (rv' : result) (recs' : list (case_rec D)) (rest : list str) (g : fs).
Hypothesis I1 : incl t1 names.
Hypothesis N1 : NoDup t1.
Hypothesis N2 : NoDup t2.
Hypothesis MEM : forall n, In n t1 <-> In n t2.
Hypothesis D1 : deps_first deps t1.
Hypothesis D2 : deps_first deps t2.
Hypothesis RD : forall n, In n t1 -> ready E O n f.
Hypothesis RUN : run_todo cc refloat E O O c body show_dur durA t1 rv fails recs answers f = Some (Ret (rv', recs', rest) g).

Lemma todo_other l : forall a, t2 = a ++ l -> forall rvB failsB recsB aB g0,
  (forall m p, In m a -> own E o m p -> lookup p g0 = lookup p g) -> (forall m p, In m names -> ~ In m a -> own E o m p -> lookup p g0 = lookup p f) ->
  exists (res : list (str * result)) g', map fst res = l /\ (forall x, In x res -> In (fst x, snd x, durA (fst x)) recs') /\
    run_todo cc refloat E O O c body show_dur durB l rvB failsB recsB aB g0
      = Some (Ret (fold_left add_result (map snd res) rvB, recsB ++ map (fun x => (fst x, snd x, durB (fst x))) res, aB) g') /\
    (forall m p, In m t2 -> own E o m p -> lookup p g' = lookup p g).
Proof.
  induction l as [|n l IH]; intros a EQ rvB failsB recsB aB g0 GA GF.
  - exists [], g0. cbn [map run_todo fold_left]. rewrite app_nil_r in EQ |- *. subst a. split; [reflexivity|]. split; [intros x []|]. auto.
  - assert (Hn2 : In n t2) by (rewrite EQ; apply in_app_iff; right; now left). assert (Hn1 : In n t1) by now apply MEM. pose proof (I1 n Hn1) as Hn.
    assert (NA : ~ In n a) by (intros X; rewrite EQ in N2; apply (NoDup_app_disj a (n :: l) N2 n X); now left).
    destruct (in_split n t1 Hn1) as (a1 & b1 & EQ1).
    assert (NA1 : ~ In n a1) by (intros X; rewrite EQ1 in N1; apply (NoDup_app_disj a1 (n :: b1) N1 n X); now left).
    assert (NB1 : ~ In n b1) by (rewrite EQ1 in N1; apply NoDup_app_r in N1; inversion N1; assumption).
    destruct (todo_points durA t1 I1 N1 _ _ _ _ _ _ _ _ _ RD RUN a1 n b1 EQ1) as (ans & h & r & h' & P1 & P2 & P3 & P4 & P5).
    assert (RG : ready E O n g0) by (apply (ready_local E o n f); [intros p OW; symmetry; now apply (GF n)|now apply RD]).
    assert (SAME : forall m p, m = n \/ In m (deps n) -> own E o m p -> lookup p h = lookup p g0).
    { intros m p [->|Hm] OW; [rewrite (P3 n), (GF n) by assumption; reflexivity|]. pose proof (Hdeps n Hn m Hm) as Mn.
      destruct (in_dec (list_eq_dec N.eq_dec) m t1) as [T|T].
      - pose proof (D1 a1 n b1 EQ1 m Hm T) as X1. pose proof (D2 a n l EQ m Hm (proj1 (MEM m) T)) as X2.
        rewrite (GA m) by assumption. symmetry. apply (P4 m); [exact Mn| |exact OW]. intros X. rewrite EQ1 in N1. apply (NoDup_app_disj a1 (n :: b1) N1 m X1 X).
      - rewrite (P3 m), (GF m); auto.
        + intros X. apply T, MEM. rewrite EQ. apply in_app_iff. now left.
        + intros X. apply T. rewrite EQ1. apply in_app_iff. now left. }
    destruct (case_at n ans h g0 aB r NONE ans h' Hn SAME RG P1) as (g2 & C2 & OWN).
    destruct (after_case cc refloat E o HE Ho Hdot c HB body names Hnames n aB g0 r NONE aB g2 Hn RG C2) as (_ & _ & OT).
    cbn [run_todo]. rewrite C2. cbn [run_bind]. rewrite HF. cbn [is_abort orb andb]. rewrite (RF E o HE Ho).
    match goal with |- context [run_todo _ _ _ _ _ _ _ _ _ l ?v ?w ?x ?y ?z] => destruct (IH (a ++ [n]) ltac:(rewrite <- app_assoc; exact EQ) v w x y z) as (res & g' & R1 & R2 & R3 & R4) end.
    + intros m p Hm OW. assert (Mn : In m names) by (apply I1, MEM; rewrite EQ; apply in_app_iff; apply in_app_iff in Hm as [Hm|[<-|[]]]; [now left|right; now left]).
      rewrite (report_own m) by assumption. apply in_app_iff in Hm as [Hm|[<-|[]]].
      * rewrite (OT m p Mn) by (try exact OW; intros ->; contradiction). now apply (GA m).
      * rewrite <- OWN by exact OW. symmetry. now apply (P5 n).
    + intros m p Hm NM OW. rewrite (report_own m) by assumption. rewrite (OT m p Hm) by (try exact OW; intros ->; apply NM, in_app_iff; right; now left).
      apply (GF m); [exact Hm|intros X; apply NM, in_app_iff; now left|exact OW].
    + exists ((n, r) :: res), g'. cbn [map fst snd fold_left]. split; [now rewrite R1|]. split; [intros x [<-|Hx]; [exact P2|now apply R2]|]. split; [|exact R4].
      rewrite R3, <- app_assoc. reflexivity.
Qed.
End Other.
End Any.

Theorem C145_any_order :
  forall cc refloat E o c body (D : Type) (show_dur : D -> str) parse_dur sp dur1 dur2 all_names metrics1 metrics2 names deps s1 s2 answers1 answers2 f rv1 recs1 rest1 g1,
  plain_dir E -> plain o -> starts_with [DOT] o = true -> let O := E ++ SLASH :: o in
  batch c -> fail_fast c = false -> separate names ->
  (forall n, In n names -> incl (deps n) names /\ reads_deps E O deps n (body n)) ->
  NoDup s1 -> incl s1 names -> Permutation s1 s2 -> deps_first deps s1 -> deps_first deps s2 -> (forall n, In n s1 -> ready E O n f) ->
  run_async cc refloat E O O c body show_dur parse_dur sp dur1 all_names metrics1 s1 answers1 f = Some (Ret (rv1, recs1, rest1) g1) ->
  exists recs2 g2,
    run_async cc refloat E O O c body show_dur parse_dur sp dur2 all_names metrics2 s2 answers2 f = Some (Ret (rv1, recs2, answers2) g2) /\
    Permutation (map (fun r => (rec_name r, rec_result r)) recs1) (map (fun r => (rec_name r, rec_result r)) recs2) /\
    lookup (O ++ SLASH :: lit "cases.txt") g1 = Some (report_text show_dur recs1) /\ lookup (O ++ SLASH :: lit "cases.txt") g2 = Some (report_text show_dur recs2) /\
    forall p, p <> O ++ SLASH :: lit "cases.txt" -> p <> O ++ SLASH :: lit "metrics.json" -> lookup p g1 = lookup p g2.
Proof.
  intros cc refloat E o c body D show_dur parse_dur sp dur1 dur2 all_names metrics1 metrics2 names deps s1 s2 answers1 answers2 f rv1 recs1 rest1 g1
    HE Ho Hdot O HB HF SEP HN ND1 IN1 PM ORD1 ORD2 RD1 H1.
  assert (Hd : forall n, In n names -> incl (deps n) names) by (intros n Hn; apply HN; exact Hn).
  assert (Hb : forall n, In n names -> reads_deps E O deps n (body n)) by (intros n Hn; apply HN; exact Hn).
  assert (ND2 : NoDup s2) by (apply (Permutation_NoDup PM ND1)).
  assert (IN2 : incl s2 names) by (intros n Hn; apply IN1; apply (Permutation_in n (Permutation_sym PM)); exact Hn).
  assert (RD2 : forall n, In n s2 -> ready E O n f) by (intros n Hn; apply RD1; apply (Permutation_in n (Permutation_sym PM)); exact Hn).
  destruct (run_facts cc refloat E o HE Ho Hdot c HB HF body names SEP show_dur parse_dur sp dur1 all_names metrics1 s1 answers1 f rv1 recs1 rest1 g1 IN1 ND1 RD1 H1)
    as (ran1 & A1 & A2 & A3 & _ & A5 & A6).
  unfold par_kept, par_todo in A1, A2, A6. assert (RF' : path_join O (lit "cases.txt") = O ++ SLASH :: lit "cases.txt") by exact (RF E o HE Ho). fold O in A1, A2, A5, A6. rewrite RF' in A1, A2, A6.
  apply (run_inv cc refloat E o HE Ho) in H1. cbv zeta in H1. fold O in H1.
  set (old := of_file parse_dur sp (lookup (O ++ SLASH :: lit "cases.txt") f)) in *.
  set (t1 := snd (cases_to_done_and_todo old (cont c) s1)) in *. set (t2 := snd (cases_to_done_and_todo old (cont c) s2)).
  assert (MEM : forall n, In n t1 <-> In n t2) by (apply todo_members; exact PM).
  assert (KE : kept old t2 = kept old t1) by (apply kept_members; intros n; symmetry; apply MEM).
  assert (J1 : incl t1 names) by (intros n Hn; apply IN1; exact (todo_incl _ _ _ n Hn)).
  assert (N1 : NoDup t1) by now apply todo_NoDup. assert (N2 : NoDup t2) by now apply todo_NoDup.
  assert (D1 : deps_first deps t1) by now apply todo_deps_first. assert (D2 : deps_first deps t2) by now apply todo_deps_first.
  destruct H1 as (fz & RT & EG).
  set (f0 := write_file (O ++ SLASH :: lit "cases.txt") (report_text show_dur (kept old t1)) f) in *.
  assert (RDw : forall n, In n t1 -> ready E O n f0).
  { intros n Hn. apply (ready_free refloat E o Hdot names SEP n f); [now apply J1|apply agree_sym, write_free, not_free; now left|]. apply RD1. exact (todo_incl _ _ _ n Hn). }
  destruct (todo_other cc refloat E o HE Ho Hdot c HB HF body names deps SEP Hd Hb show_dur dur1 dur2 t1 t2 OK false (kept old t1) answers1 f0 rv1 recs1 rest1 fz
    J1 N1 N2 MEM D1 D2 RDw RT t2 [] eq_refl OK false (kept old t2) answers2 f0 ltac:(intros m p []) ltac:(auto)) as (res & g' & R1 & R2 & R3 & R4).
  (* the records of the two runs *)
  assert (RP : Permutation (map (fun r => (rec_name r, rec_result r)) ran1) res).
  { symmetry. apply NoDup_Permutation_bis.
    - apply (NoDup_map_inv fst). now rewrite R1.
    - apply Nat.eq_le_incl. rewrite map_length. rewrite <- (map_length rec_name ran1), <- (map_length fst res), A2, R1. apply Permutation_length. apply NoDup_Permutation; auto.
    - intros x Hx. pose proof (R2 x Hx) as X. rewrite A1 in X. apply in_app_iff in X as [X|X].
      + exfalso. apply kept_In in X as [_ X]. apply X. apply MEM. rewrite <- R1. exact (in_map fst res x Hx).
      + apply in_map_iff. exists (fst x, snd x, dur1 (fst x)). split; [now destruct x|exact X]. }
  assert (RV : fold_left add_result (map snd res) OK = rv1).
  { rewrite A3. symmetry. apply fold_perm. pose proof (Permutation_map snd RP) as X. rewrite map_map in X. exact X. }
  rewrite RV in R3. set (recs2 := kept old t2 ++ map (fun x => (fst x, snd x, dur2 (fst x))) res) in R3.
  destruct (run_intro cc refloat E o HE Ho c body show_dur parse_dur sp dur2 all_names metrics2 s2 answers2 f (rv1, recs2, answers2) g') as (g2 & H2).
  { fold O. fold old. fold t2. rewrite KE in *. exact R3. }
  fold O in H2. exists recs2, g2. split; [exact H2|].
  destruct (run_facts cc refloat E o HE Ho Hdot c HB HF body names SEP show_dur parse_dur sp dur2 all_names metrics2 s2 answers2 f rv1 recs2 answers2 g2 IN2 ND2 RD2 H2)
    as (_ & _ & _ & _ & _ & B5 & B6). unfold par_todo in B6. fold O in B5, B6. rewrite RF' in B6. fold old in B6. fold t2 in B6.
  split; [|split; [exact A5|split; [exact B5|]]].
  - rewrite A1. unfold recs2. rewrite KE, !map_app. apply Permutation_app_head. rewrite map_map.
    replace (map (fun x : str * result => (rec_name (fst x, snd x, dur2 (fst x)), rec_result (fst x, snd x, dur2 (fst x)))) res) with res; [exact RP|].
    clear. induction res as [|[n r] res IH]; [reflexivity|]. cbn [map]. rewrite <- IH. reflexivity.
  - apply (run_inv cc refloat E o HE Ho) in H2. cbv zeta in H2. fold O in H2. fold old in H2. fold t2 in H2. destruct H2 as (fy & RT2 & EG2).
    rewrite KE in RT2. fold f0 in RT2. fold O in R3. rewrite KE in R3. rewrite R3 in RT2. injection RT2 as <-.
    intros p NC NM. destruct (list_eq_dec N.eq_dec p (E ++ SLASH :: lit "index.md")) as [->|NI]; [rewrite EG, EG2, !lookup_write, !str_eqb_refl; reflexivity|].
    destruct (some_own E o t1 p) as [(n & Hn & OW)|NO].
    + rewrite EG, EG2, !lookup_write. destruct (str_eqb_spec (E ++ SLASH :: lit "index.md") p) as [<-|_]; [easy|]. destruct (str_eqb_spec (O ++ SLASH :: lit "metrics.json") p) as [<-|_]; [easy|].
      symmetry. apply (R4 n); [now apply MEM|exact OW].
    + rewrite A6 by assumption. rewrite B6; auto. intros n Hn. apply NO. now apply MEM.
Qed.
Print Assumptions C145_any_order.

(** With -u and -a, and the tests in the other order. *)
Definition demo_conf_u : config :=
  {| always_interactive := false; interactive := false; update := true; accept := true; cont := false; fail_fast := false; point_error_pos := true |}.
Definition demo_u (sel : list str) :=
  run_async ascii_class no_float demo_E demo_O demo_O demo_conf_u (fun n (_ : fs) => demo_text n) (fun _ : unit => lit "7") (fun _ => Some tt) (fun c => N.eqb c SP) (fun _ => tt) demo_two (lit "{}") sel (@nil str) demo_f0.
Lemma demo_u_eq sel : demo_u sel =
  run_async ascii_class no_float demo_E (demo_E ++ SLASH :: demo_o) (demo_E ++ SLASH :: demo_o) demo_conf_u (fun n (_ : fs) => demo_text n) (fun _ : unit => lit "7") (fun _ => Some tt) (fun c => N.eqb c SP) (fun _ => tt) demo_two (lit "{}") sel (@nil str) demo_f0.
Proof. reflexivity. Qed.
Example C145_any_order_example : exists recs1 rest1 g1 recs2 g2,
  demo_u demo_two = Some (Ret (OK, recs1, rest1) g1) /\ demo_u demo_rev = Some (Ret (OK, recs2, []) g2) /\
  recs1 = [(lit "t/a", OK, tt); (lit "t/b", OK, tt)] /\
  forall p, p <> demo_O ++ SLASH :: lit "cases.txt" -> p <> demo_O ++ SLASH :: lit "metrics.json" -> lookup p g1 = lookup p g2.
Proof.
  destruct (demo_u demo_two) as [[[[rv1 recs1] rest1] g1|g1]|] eqn:R1; [|vm_compute in R1; discriminate|vm_compute in R1; discriminate].
  assert (X1 : rv1 = OK /\ recs1 = [(lit "t/a", OK, tt); (lit "t/b", OK, tt)]) by (vm_compute in R1; injection R1 as <- <- _ _; split; reflexivity).
  destruct X1 as [-> X1]. rewrite demo_u_eq in R1.
  destruct (C145_any_order ascii_class no_float demo_E demo_o demo_conf_u (fun n (_ : fs) => demo_text n) unit (fun _ => lit "7") (fun _ => Some tt) (fun c => N.eqb c SP)
    (fun _ => tt) (fun _ => tt) demo_two (lit "{}") (lit "{}") demo_two (fun _ : str => @nil str) demo_two demo_rev [] [] demo_f0 _ recs1 rest1 g1
    (proj1 demo_dirs) (proj1 (proj2 demo_dirs)) eq_refl (conj eq_refl eq_refl) eq_refl demo_separate
    ltac:(intros n Hn; split; [intros m []|intros f g _ _; reflexivity]) demo_NoDup (incl_refl _) (perm_swap _ _ _) ltac:(intros a n b _ d []) ltac:(intros a n b _ d []) demo_ready R1) as (recs2 & g2 & R2 & _ & _ & _ & L).
  exists recs1, rest1, g1, recs2, g2. split; [reflexivity|]. split; [rewrite demo_u_eq; exact R2|]. split; [exact X1|exact L].
Qed.
