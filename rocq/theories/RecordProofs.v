From Coq Require Import Lia.
From Verif Require Import RunCaseSpec PyStrFacts RunCaseProofs RunCaseProps.

(** ** Tests whose code reads the files of their snapshot directory *)
Section Recorded.
Variable cc : CharClass.
Hypothesis TOK : TokClassOK cc.
Variable refloat : str -> option str.
Variables (E o : str).
Hypothesis HE : plain_dir E.
Hypothesis Ho : plain o.
Hypothesis Hdot : starts_with [DOT] o = true.
Notation O := (E ++ SLASH :: o).
Variable b : str -> body_run.
Variable names : list str.
Hypothesis Hnames : separate names.
Hypothesis Hsteady : forall n, In n names -> steady cc (b n).
Notation const := (fun (n : str) (_ : fs) => b n).
Notation passes := (passes cc refloat E b).
Notation all_ready := (all_ready E o names).

(** the files of the snapshot directory of [n] are the files that its code leaves *)
Definition holds (n : str) (h : fs) : Prop := forall r, lookup (E ++ SLASH :: n ++ SLASH :: r) h = last_write r (b_files (b n)).

Lemma own_file n r : own E o n (E ++ SLASH :: n ++ SLASH :: r).
Proof. apply (own_E E o n []); [unfold case_exts; cbn [In]; tauto|]. rewrite app_nil_r. right. exists r. now rewrite <- app_assoc. Qed.
Lemma holds_local n f g : (forall p, own E o n p -> lookup p f = lookup p g) -> holds n f -> holds n g.
Proof. intros H F r. rewrite <- H by apply own_file. apply F. Qed.

(** the code of [n] is run in a state with the same files in the snapshot directory *)
Lemma case_swap c body n answers f : case_name n -> ready E O n f ->
  (forall h, (forall r, lookup (E ++ SLASH :: n ++ SLASH :: r) h = lookup (E ++ SLASH :: n ++ SLASH :: r) f) -> body n h = b n) ->
  run_case cc refloat E O c body n answers f = run_case cc refloat E O c const n answers f.
Proof.
  intros C R H. destruct (start_ok E o HE Ho Hdot n f C R) as (f1 & S & L1). unfold run_case. rewrite S. cbn [run_bind]. rewrite (H f1); [reflexivity|].
  intros r. pose proof (start_changes E O (HO E o HE Ho) n f (proj1 C)) as SC. rewrite S in SC. apply SC.
  intros B. apply below_iff in B as [t X]. destruct C as (P & D & _). exact (name_vs_out E o Hdot n (SLASH :: r) (SLASH :: t) (proper_nonempty n P) D X).
Qed.

(** with -a and -u, a case whose result is OK was accepted *)
Lemma case_record c n answers f x g : batch c -> accept c = true -> update c = true -> In n names -> ready E O n f ->
  run_case cc refloat E O c const n answers f = Some (Ret x g) -> fst (fst x) = OK ->
  snd (fst x) = NONE /\ snd x = answers /\ ready E O n g /\ passes n g /\ holds n g /\ exists s, case_ran E O n (b n) s true OK f g.
Proof.
  intros HB HA HU Hn R H HX.
  destruct (case_to_pass cc TOK refloat E o HE Ho Hdot const b names Hnames (fun _ _ _ => eq_refl) Hsteady c n answers f x g HB Hn R H HX) as (X1 & X2 & RD & PS & _).
  destruct (run_case_exact E o HE Ho Hdot cc refloat c const HB n answers f (name_ok names Hnames n Hn) R) as (f1 & _ & K).
  destruct (run_body cc refloat _ _ _) as [s|]; [|congruence].
  cbv zeta in K. set (v := verdict _ s) in K. destruct K as (h & RC & CR & _). rewrite H in RC. injection RC as EX EH. rewrite <- EH in CR.
  assert (AU : auto c v = true).
  { rewrite EX in HX. cbn [fst] in HX. destruct v; cbn [auto] in *; assumption || discriminate. }
  rewrite AU in CR. split; [exact X1|]. split; [exact X2|]. split; [exact RD|]. split; [exact PS|]. split; [|eauto].
  intros r. apply (cr_files _ _ _ _ _ _ _ _ _ CR).
Qed.

Context {D : Type} (show_dur : D -> str) (parse_dur : str -> option D) (sp : char -> bool).
Lemma report_there : In (report_file O) [O ++ SLASH :: lit "cases.txt"; O ++ SLASH :: lit "metrics.json"; E ++ SLASH :: lit "index.md"].
Proof. left. unfold report_file. symmetry. apply path_join_name; [now apply HO|reflexivity]. Qed.

(** the first run *)
Lemma todo_record c body dur todo : batch c -> accept c = true -> update c = true -> incl todo names -> NoDup todo -> forall recs answers rv f recs' rest g,
  all_ready f ->
  (forall n h, In n todo -> (forall r, lookup (E ++ SLASH :: n ++ SLASH :: r) h = lookup (E ++ SLASH :: n ++ SLASH :: r) f) -> body n h = b n) ->
  run_todo cc refloat E O O c body show_dur dur todo rv false recs answers f = Some (Ret (OK, recs', rest) g) ->
  all_ready g /\ (forall n, In n names -> In n todo \/ passes n f /\ holds n f -> passes n g /\ holds n g).
Proof.
  intros HB HA HU. induction todo as [|n todo IH]; intros IN ND recs answers rv f recs' rest g AR HBODY H; cbn [run_todo] in H.
  - injection H as _ _ _ <-. split; [exact AR|]. intros n _ [[]|X]; exact X.
  - assert (Hn : In n names) by (apply IN; now left). apply NoDup_cons_iff in ND as [NI ND].
    rewrite (case_swap c body n answers f (name_ok names Hnames n Hn) (AR n Hn) (fun h => HBODY n h (or_introl eq_refl))) in H.
    destruct (run_case _ _ _ _ _ _ n answers f) as [[x f1|f1]|] eqn:RC; [|discriminate|discriminate].
    cbn [run_bind] in H. destruct x as [[res req] a1].
    assert (RES : res = OK).
    { destruct res; [reflexivity| |]; exfalso; destruct (is_abort req || _) in H.
      1,3: injection H as H _ _ _; destruct rv; discriminate.
      1,2: apply (run_not_ok cc refloat E O c body show_dur dur) in H; [now apply H|]; intros X; apply add_ok in X as [_ X]; discriminate. }
    subst res. destruct (case_record c n answers f _ f1 HB HA HU Hn (AR n Hn) RC eq_refl) as (E1 & E2 & RD & PS & HH & s & CR). cbn [fst snd] in E1, E2. subst req a1.
    cbn [is_abort is_ok negb orb] in H. rewrite andb_false_r in H.
    set (t := report_text show_dur (recs ++ [(n, OK, dur n)])) in H.
    destruct (after_case cc refloat E o HE Ho Hdot b names Hnames n f f1 s true OK t Hn CR RD AR) as (AR2 & P1 & P2).
    assert (EQ : forall m p, In m names -> m <> n -> own E o m p -> lookup p f = lookup p (write_file (report_file O) t f1)).
    { intros m p Hm N OW. rewrite (write_special refloat E o Hdot names Hnames m) by auto using report_there. symmetry. apply (ran_other E o Hdot names Hnames n m (b n) s true OK f f1 p); auto. }
    assert (HB2 : forall m h, In m todo -> (forall r, lookup (E ++ SLASH :: m ++ SLASH :: r) h = lookup (E ++ SLASH :: m ++ SLASH :: r) (write_file (report_file O) t f1)) -> body m h = b m).
    { intros m h Hm L. apply HBODY; [now right|]. intros r. rewrite L. symmetry. apply (EQ m); [apply IN; now right|intros ->; contradiction|apply own_file]. }
    destruct (IH ltac:(intros m Hm; apply IN; now right) ND _ _ _ _ _ _ _ AR2 HB2 H) as [AG PG].
    split; [exact AG|].
    intros m Hm HM. apply (PG m Hm). destruct (list_eq_dec N.eq_dec m n) as [->|N].
    + right. split; [auto|]. apply (holds_local n f1); [|exact HH]. intros p OW. symmetry. apply (write_special refloat E o Hdot names Hnames n); auto using report_there.
    + destruct HM as [[X|X]|[X1 X2]]; [now elim N|now left|]. right. split; [auto|]. apply (holds_local m f); [|exact X2]. intros p OW. now apply (EQ m).
Qed.

(** a later run *)
Lemma todo_replay c body dur todo : batch c -> incl todo names -> (forall n h, In n names -> holds n h -> body n h = b n) -> forall rv recs answers f,
  all_ready f -> (forall n, In n names -> passes n f /\ holds n f) -> exists recs' g,
  run_todo cc refloat E O O c body show_dur dur todo rv false recs answers f = Some (Ret (rv, recs', answers) g) /\
  recs' = recs ++ map (fun n => (n, OK, dur n)) todo /\ all_ready g /\ (forall n, In n names -> passes n g /\ holds n g).
Proof.
  intros HB IN HBODY. induction todo as [|n todo IH]; intros rv recs answers f AR AP; cbn [run_todo].
  - exists recs, f. split; [reflexivity|]. split; [now rewrite app_nil_r|auto].
  - assert (Hn : In n names) by (apply IN; now left).
    rewrite (case_swap c body n answers f (name_ok names Hnames n Hn) (AR n Hn)).
    2:{ intros h L. apply HBODY; [exact Hn|]. intros r. rewrite L. apply (AP n Hn). }
    destruct (case_passes cc TOK refloat E o HE Ho Hdot const b names Hnames (fun _ _ _ => eq_refl) Hsteady c n answers f HB Hn (AR n Hn) (proj1 (AP n Hn))) as (f1 & s & fr & RC & CR & RD & PS).
    rewrite RC. cbn [run_bind is_abort is_ok negb orb add_result]. rewrite andb_false_r.
    set (t := report_text show_dur (recs ++ [(n, OK, dur n)])).
    destruct (after_case cc refloat E o HE Ho Hdot b names Hnames n f f1 s fr OK t Hn CR RD AR) as (AR2 & P1 & P2).
    destruct (IH ltac:(intros m Hm; apply IN; now right) rv (recs ++ [(n, OK, dur n)]) answers _ AR2) as (recs' & g & RT & ER & AG & PG).
    { intros m Hm. destruct (list_eq_dec N.eq_dec m n) as [->|N].
      - split; [auto|]. apply (holds_local n f1).
        + intros p OW. symmetry. apply (write_special refloat E o Hdot names Hnames n); auto using report_there.
        + intros r. rewrite (cr_files _ _ _ _ _ _ _ _ _ CR). destruct fr; [reflexivity|apply (AP n Hn)].
      - split; [apply P1; auto; apply (AP m Hm)|]. apply (holds_local m f); [|apply (AP m Hm)]. intros p OW.
        rewrite (write_special refloat E o Hdot names Hnames m) by auto using report_there. symmetry. apply (ran_other E o Hdot names Hnames n m (b n) s fr OK f f1 p); auto. }
    exists recs', g. split; [exact RT|]. split; [|auto]. rewrite ER, <- app_assoc. reflexivity.
Qed.
End Recorded.
