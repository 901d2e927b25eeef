(** C149: --fail-fast does what the run without it does, up to the first test that is not OK. *)
From Verif Require Import PyStrFacts CaseRunProps RunCaseProps ReportsProofs RunnerProofs ParProps OrderProps PartsProps.

Definition no_fail_fast (c : config) : config :=
  {| always_interactive := always_interactive c; interactive := interactive c; update := update c; accept := accept c; cont := cont c; fail_fast := false; point_error_pos := point_error_pos c |}.

Lemma todo_prefix {D} (old : list (case_rec D)) k s a b : snd (cases_to_done_and_todo old k s) = a ++ b -> snd (cases_to_done_and_todo old k a) = a.
Proof.
  unfold cases_to_done_and_todo. destruct k; [|reflexivity]. cbn [snd]. intros H.
  assert (X : forall i, In i a -> forall r, by_name i old <> [] -> hd_error (by_name i old) = Some r -> is_ok (rec_result r) = false).
  { intros i Hi r _ HR. assert (Hi' : In i (snd (done_and_todo old s))) by (rewrite H; apply in_app_iff; now left). clear H Hi. revert i Hi' HR.
    induction s as [|j s IH]; intros i Hi HR; [destruct Hi|]. cbn [done_and_todo] in Hi. destruct (done_and_todo old s) as [d t]. cbn [snd] in IH.
    destruct (by_name j old) as [|q l] eqn:B; [|destruct (is_ok (rec_result q)) eqn:Q]; cbn [snd] in Hi.
    - destruct Hi as [<-|Hi]; [rewrite B in HR; discriminate HR|now apply (IH i)].
    - now apply (IH i).
    - destruct Hi as [<-|Hi]; [rewrite B in HR; injection HR as <-; exact Q|now apply (IH i)]. }
  clear H. induction a as [|i a IH]; [reflexivity|]. cbn [done_and_todo]. specialize (IH ltac:(intros j Hj; apply X; now right)). destruct (done_and_todo old a) as [d t]. cbn [snd] in IH. subst t.
  pose proof (X i (or_introl eq_refl)) as Xi. destruct (by_name i old) as [|r l]; [reflexivity|]. rewrite (Xi r) by (easy || reflexivity). reflexivity.
Qed.

Section Fast.
Variable cc : CharClass.
Variable refloat : str -> option str.
Variables (E o : str).
Hypothesis HE : plain_dir E.
Hypothesis Ho : plain o.
Hypothesis Hdot : starts_with [DOT] o = true.
Notation O := (E ++ SLASH :: o).
Variable c : config.
Hypothesis HB : batch c.
Hypothesis HF : fail_fast c = true.
Variable body : str -> fs -> body_run.
Variable names : list str.
Hypothesis Hnames : separate names.
Context {D : Type} (show_dur : D -> str).

Lemma case_no_fast n a f : run_case cc refloat E O c body n a f = run_case cc refloat E O (no_fail_fast c) body n a f.
Proof. reflexivity. Qed.

Lemma fast_prefix dur todo : incl todo names -> NoDup todo -> forall rv recs ans f rv' recs' rest g, (forall n, In n todo -> ready E O n f) ->
  run_todo cc refloat E O O c body show_dur dur todo rv false recs ans f = Some (Ret (rv', recs', rest) g) ->
  exists a b ran, todo = a ++ b /\ run_todo cc refloat E O O (no_fail_fast c) body show_dur dur a rv false recs ans f = Some (Ret (rv', recs', rest) g) /\
    recs' = recs ++ ran /\ map rec_name ran = a /\
    (b = [] /\ Forall (fun r => rec_result r = OK) ran \/ exists ok x, ran = ok ++ [x] /\ Forall (fun r => rec_result r = OK) ok /\ rec_result x <> OK).
Proof.
  induction todo as [|n todo IH]; intros IN ND rv recs ans f rv' recs' rest g RD H; cbn [run_todo] in H.
  - exists [], [], []. split; [reflexivity|]. split; [exact H|]. injection H as <- <- <- <-. split; [now rewrite app_nil_r|]. split; [reflexivity|]. left. auto.
  - assert (Hn : In n names) by (apply IN; now left). pose proof ND as ND0. inversion ND as [|? ? NI ND']; subst. pose proof (RD n (or_introl eq_refl)) as R1.
    destruct (run_case _ _ _ _ _ _ n ans f) as [[[[r1 q1] a1] h1|h1]|] eqn:C1; [|discriminate|discriminate]. cbn [run_bind] in H.
    destruct (after_case cc refloat E o HE Ho Hdot c HB body names Hnames n ans f r1 q1 a1 h1 Hn R1 C1) as (-> & -> & OT).
    rewrite case_no_fast in C1. rewrite HF in H. cbn [is_abort orb andb] in H. destruct (is_ok r1) eqn:K; cbn [negb] in H.
    + rewrite (RF E o HE Ho) in H.
      destruct (IH ltac:(intros m Hm; apply IN; now right) ND' _ _ _ _ _ _ _ _ ltac:(apply (ready_next refloat E o Hdot names Hnames n todo f h1); assumption) H)
        as (a & b & ran & E1 & E2 & E3 & E4 & E5).
      exists (n :: a), b, ((n, r1, dur n) :: ran). split; [cbn [app]; now f_equal|]. split.
      { cbn [run_todo]. rewrite C1. cbn [run_bind is_abort orb andb no_fail_fast fail_fast]. rewrite K, (RF E o HE Ho). cbn [negb]. exact E2. }
      split; [rewrite E3, <- app_assoc; reflexivity|]. split; [cbn [map]; now rewrite E4|].
      assert (KO : r1 = OK) by now destruct r1. destruct E5 as [[-> F]|(ok & x & -> & F & NX)].
      * left. split; [reflexivity|]. constructor; [exact KO|exact F].
      * right. exists ((n, r1, dur n) :: ok), x. split; [reflexivity|]. split; [|exact NX]. constructor; [exact KO|exact F].
    + exists [n], todo, [(n, r1, dur n)]. split; [reflexivity|]. split.
      { cbn [run_todo]. rewrite C1. cbn [run_bind is_abort orb andb no_fail_fast fail_fast]. exact H. }
      injection H as _ <- _ _. split; [reflexivity|]. split; [reflexivity|]. right. exists [], (n, r1, dur n). split; [reflexivity|]. split; [constructor|].
      cbn [rec_result fst snd]. intros X. change (r1 = OK) in X. rewrite X in K. discriminate K.
Qed.
End Fast.

Theorem C149_fail_fast :
  forall cc refloat E o c body (D : Type) (show_dur : D -> str) parse_dur sp dur all_names metrics metrics1 names deps selected answers answers1 f rv recs rest g,
  plain_dir E -> plain o -> starts_with [DOT] o = true -> let O := E ++ SLASH :: o in
  batch c -> fail_fast c = true -> separate names ->
  (forall n, In n names -> incl (deps n) names /\ reads_deps E O deps n (body n)) ->
  NoDup selected -> incl selected names -> (forall n, In n selected -> ready E O n f) ->
  run_async cc refloat E O O c body show_dur parse_dur sp dur all_names metrics selected answers f = Some (Ret (rv, recs, rest) g) ->
  let old := of_file parse_dur sp (lookup (O ++ SLASH :: lit "cases.txt") f) in
  let todo := snd (cases_to_done_and_todo old (cont c) selected) in
  exists run not_run ran g1,
    todo = run ++ not_run /\ map rec_name ran = run /\
    (not_run = [] /\ Forall (fun r => rec_result r = OK) ran \/ exists ok x, ran = ok ++ [x] /\ Forall (fun r => rec_result r = OK) ok /\ rec_result x <> OK) /\
    (rv = OK <-> Forall (fun r => rec_result r = OK) ran) /\
    recs = filter (fun r => negb (str_mem (rec_name r) todo)) old ++ ran /\
    run_async cc refloat E O O (no_fail_fast c) body show_dur parse_dur sp dur all_names metrics1 run answers1 f
      = Some (Ret (rv, filter (fun r => negb (str_mem (rec_name r) run)) old ++ ran, answers1) g1) /\
    forall p, p <> O ++ SLASH :: lit "cases.txt" -> p <> O ++ SLASH :: lit "metrics.json" -> lookup p g1 = lookup p g.
Proof.
  intros cc refloat E o c body D show_dur parse_dur sp dur all_names metrics metrics1 names deps selected answers answers1 f rv recs rest g
    HE Ho Hdot O HB HF SEP HN ND IN RD H old todo.
  assert (Hd : forall n, In n names -> incl (deps n) names) by (intros n Hn; apply HN; exact Hn).
  assert (Hb : forall n, In n names -> reads_deps E O deps n (body n)) by (intros n Hn; apply HN; exact Hn).
  assert (HB' : batch (no_fail_fast c)) by exact HB. assert (HF' : fail_fast (no_fail_fast c) = false) by reflexivity.
  apply (run_inv cc refloat E o HE Ho) in H. cbv zeta in H. fold O in H. fold old in H. fold todo in H. destruct H as (fz & RT & EG).
  assert (IT : incl todo selected) by apply todo_incl. assert (IN' : incl todo names) by (intros n Hn; now apply IN, IT).
  assert (NDt : NoDup todo) by now apply todo_NoDup.
  assert (RDw : forall t n, In n todo -> ready E O n (write_file (O ++ SLASH :: lit "cases.txt") t f)).
  { intros t n Hn. apply (ready_free refloat E o Hdot names SEP n f); [now apply IN'|apply agree_sym, write_free, not_free; now left|now apply RD, IT]. }
  destruct (fast_prefix cc refloat E o HE Ho Hdot c HB HF body names SEP show_dur dur todo IN' NDt _ _ _ _ _ _ _ _ (RDw _) RT) as (a & b & ran & E1 & E2 & E3 & E4 & E5).
  assert (Ia : incl a todo) by (intros n Hn; rewrite E1; apply in_app_iff; now left). assert (Na : NoDup a) by (rewrite E1 in NDt; eapply NoDup_app_l; exact NDt).
  assert (Ja : incl a names) by (intros n Hn; now apply IN', Ia).
  assert (AF : forall t u, agree (free E o) (write_file (O ++ SLASH :: lit "cases.txt") t f) (write_file (O ++ SLASH :: lit "cases.txt") u f)).
  { intros t u. eapply agree_trans; [apply write_free, not_free; now left|apply agree_sym, write_free, not_free; now left]. }
  assert (RDa : forall t n, In n a -> ready E O n (write_file (O ++ SLASH :: lit "cases.txt") t f)) by (intros t n Hn; now apply RDw, Ia).
  destruct (todo_returns cc refloat E o HE Ho Hdot (no_fail_fast c) HB' HF' body names deps SEP Hd Hb show_dur dur dur a Ja Na _ _ _ _ _ _ _ OK false (kept old a) answers1
    _ (RDa _) (AF _ (report_text show_dur (kept old a))) E2) as ([[rv1 recs1] rest1] & f1 & RT1).
  destruct (todo_same cc refloat E o HE Ho Hdot (no_fail_fast c) HB' HF' body names deps SEP Hd Hb show_dur dur dur a Ja Na _ _ _ _ _ _ _ _ _ _ _ _ _ _ _ _ _ _
    (RDa _) (AF _ _) E2 RT1) as (res & N1 & X1 & X2 & V1 & V2 & A1).
  destruct (todo_facts cc refloat E o HE Ho Hdot (no_fail_fast c) HB' HF' body names SEP show_dur dur a Ja Na _ _ _ _ _ _ _ _ _ (RDa _) RT1) as (_ & _ & _ & _ & -> & _ & _).
  assert (TA : snd (cases_to_done_and_todo old (cont c) a) = a) by (apply (todo_prefix old (cont c) selected a b); exact E1).
  assert (ER : ran = map (fun x => (fst x, snd x, dur (fst x))) res) by (rewrite E3 in X1; now apply app_inv_head in X1). rewrite <- ER in X2.
  destruct (run_intro cc refloat E o HE Ho (no_fail_fast c) body show_dur parse_dur sp dur all_names metrics1 a answers1 f (rv1, recs1, answers1) f1) as (g1 & H1).
  { fold O. fold old. cbn [no_fail_fast cont]. rewrite TA. exact RT1. }
  fold O in H1. assert (RV : rv1 = rv) by now rewrite V1, V2. clear V2. subst rv1.
  exists a, b, ran, g1. split; [exact E1|]. split; [exact E4|]. split; [exact E5|]. split.
  { rewrite V1, ER. assert (FO : forall l q, fold_left add_result l q = OK <-> q = OK /\ Forall (fun r => r = OK) l).
    { clear. induction l as [|x l IH]; intros q; cbn [fold_left]; [split; [intros ->; auto|tauto]|]. rewrite IH. split.
      - intros [A B]. destruct x, q; try discriminate A; auto.
      - intros [-> B]. inversion B; subst. auto. }
    rewrite FO, !Forall_map. split; [intros [_ F]; exact F|intros F; split; [reflexivity|exact F]]. }
  split; [exact E3|]. split; [rewrite H1, X2; reflexivity|].
  apply (run_inv cc refloat E o HE Ho) in H1. cbv zeta in H1. fold O in H1. fold old in H1. cbn [no_fail_fast cont] in H1. rewrite TA in H1. destruct H1 as (f1' & RT1' & EG1).
  fold O in RT1. assert (f1 = f1') as <- by (unfold no_fail_fast in *; rewrite RT1 in RT1'; injection RT1'; auto).
  intros p NC NM. rewrite EG, EG1, !lookup_write. destruct (str_eqb_spec (E ++ SLASH :: lit "index.md") p) as [_|NI]; [reflexivity|].
  destruct (str_eqb_spec (O ++ SLASH :: lit "metrics.json") p) as [X|_]; [now symmetry in X|]. symmetry. apply A1. intros [X|[X|[X|[]]]]; [now symmetry in X|now symmetry in X|contradiction].
Qed.
Print Assumptions C149_fail_fast.

(** Without -a the test t/b differs, and the run stops there. *)
Definition demo_conf_ff : config :=
  {| always_interactive := false; interactive := false; update := false; accept := false; cont := false; fail_fast := true; point_error_pos := true |}.
Definition demo_ff (c : config) (sel : list str) (f : fs) :=
  run_async ascii_class no_float demo_E demo_O demo_O c (fun n (_ : fs) => demo_text n) (fun _ : unit => lit "7") (fun _ => Some tt) (fun c => N.eqb c SP) (fun _ => tt) demo_two (lit "{}") sel (@nil str) f.
Lemma demo_ff_eq c sel f : demo_ff c sel f =
  run_async ascii_class no_float demo_E (demo_E ++ SLASH :: demo_o) (demo_E ++ SLASH :: demo_o) c (fun n (_ : fs) => demo_text n) (fun _ : unit => lit "7") (fun _ => Some tt) (fun c => N.eqb c SP) (fun _ => tt) demo_two (lit "{}") sel (@nil str) f.
Proof. reflexivity. Qed.
Example C149_example : exists recs rest g recs1 g1,
  demo_ff demo_conf_ff demo_rev demo_f0 = Some (Ret (DIFF, recs, rest) g) /\ demo_ff (no_fail_fast demo_conf_ff) [lit "t/b"] demo_f0 = Some (Ret (DIFF, recs1, []) g1) /\
  recs = [(lit "t/b", DIFF, tt)] /\
  forall p, p <> demo_O ++ SLASH :: lit "cases.txt" -> p <> demo_O ++ SLASH :: lit "metrics.json" -> lookup p g1 = lookup p g.
Proof.
  destruct (demo_ff demo_conf_ff demo_rev demo_f0) as [[[[rv recs] rest] g|g]|] eqn:R; [|vm_compute in R; discriminate|vm_compute in R; discriminate].
  assert (X : rv = DIFF /\ recs = [(lit "t/b", DIFF, tt)]) by (vm_compute in R; injection R as <- <- _ _; split; reflexivity). destruct X as [-> X]. rewrite demo_ff_eq in R.
  assert (DR : NoDup demo_rev) by (constructor; [intros [Y|[]]; discriminate Y|constructor; [intros []|constructor]]).
  assert (DI : incl demo_rev demo_two) by (intros n [<-|[<-|[]]]; [right; now left|now left]).
  destruct (C149_fail_fast ascii_class no_float demo_E demo_o demo_conf_ff (fun n (_ : fs) => demo_text n) unit (fun _ => lit "7") (fun _ => Some tt) (fun c => N.eqb c SP)
    (fun _ => tt) demo_two (lit "{}") (lit "{}") demo_two (fun _ : str => @nil str) demo_rev [] [] demo_f0 _ recs rest g
    (proj1 demo_dirs) (proj1 (proj2 demo_dirs)) eq_refl (conj eq_refl eq_refl) eq_refl demo_separate
    ltac:(intros n Hn; split; [intros m []|intros f g0 _ _; reflexivity]) DR DI ltac:(intros n Hn; apply demo_ready; now apply DI) R) as (run & nr & ran & g1 & _ & NR & _ & _ & ER & R1 & L).
  assert (RN : run = [lit "t/b"]).
  { rewrite <- NR. assert (Y : ran = recs) by (rewrite ER; match goal with |- _ = ?l ++ _ => replace l with (@nil (case_rec unit)) by (vm_compute; reflexivity) end; reflexivity). rewrite Y, X. reflexivity. }
  rewrite RN in R1. rewrite <- demo_ff_eq in R1. eexists recs, rest, g, _, g1. split; [reflexivity|]. split; [exact R1|]. split; [exact X|exact L].
Qed.
(** The selected tests that are not run lose their records: t/a was OK before, and is not in the report after the run that stopped before it. *)
Example C149_records_lost : exists f recs rest g recs1 rest1 g1,
  lookup (demo_O ++ SLASH :: lit "cases.txt") f = Some (report_text (fun _ : unit => lit "7") [(lit "t/a", OK, tt)]) /\
  demo_ff demo_conf_ff demo_rev f = Some (Ret (DIFF, recs, rest) g) /\ recs = [(lit "t/b", DIFF, tt)] /\
  demo_ff (no_fail_fast demo_conf_ff) [lit "t/b"] f = Some (Ret (DIFF, recs1, rest1) g1) /\ recs1 = [(lit "t/a", OK, tt); (lit "t/b", DIFF, tt)].
Proof.
  exists (write_file (demo_O ++ SLASH :: lit "cases.txt") (report_text (fun _ : unit => lit "7") [(lit "t/a", OK, tt)]) demo_f0). do 6 eexists.
  split; [vm_compute; reflexivity|]. split; [vm_compute; reflexivity|]. split; [vm_compute; reflexivity|]. split; [vm_compute; reflexivity|]. vm_compute. reflexivity.
Qed.
