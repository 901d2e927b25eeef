(** C137: a test that is accepted with -a or -u, while the process dies, and is run again. *)
From Verif Require Import PyStrFacts FsFacts CaseRunProps RunCaseProofs RunCaseProps ReviewProofs CrashProps KillProofs RepeatProofs RepeatProps CaseRunFacts TokenizerProps.
From Verif Require Export RunCaseSpec AcceptKillModel.

(** [h] has the text of the snapshot of [n] that [g] has, but not its files *)
Definition halfway (E n : str) (g h : fs) : Prop :=
  lookup (E ++ SLASH :: n ++ lit ".md") h = lookup (E ++ SLASH :: n ++ lit ".md") g /\
  exists r, lookup (E ++ SLASH :: n ++ SLASH :: r) h <> lookup (E ++ SLASH :: n ++ SLASH :: r) g.
(** the snapshot of [n] is the same *)
Definition same_snapshot (E n : str) (f g : fs) : Prop :=
  lookup (E ++ SLASH :: n ++ lit ".md") f = lookup (E ++ SLASH :: n ++ lit ".md") g /\
  forall r, lookup (E ++ SLASH :: n ++ SLASH :: r) f = lookup (E ++ SLASH :: n ++ SLASH :: r) g.

Section Die.
Variable cc : CharClass.
Hypothesis TOK : TokClassOK cc.
Variable refloat : str -> option str.
Variables (E o : str).
Hypothesis HE : plain_dir E.
Hypothesis Ho : plain o.
Hypothesis Hdot : starts_with [DOT] o = true.
Notation O := (E ++ SLASH :: o).
Variable c : config.
Hypothesis HB : batch c.
Variable body : str -> fs -> body_run.
Variable n : str.
Variable b : body_run.
Hypothesis Hn : case_name n.
Hypothesis Hbody : forall f, body n f = b.
Hypothesis Hsteady : steady cc b.
Notation md := (E ++ SLASH :: n ++ lit ".md").
Notation file r := (E ++ SLASH :: n ++ SLASH :: r).
Notation go := (run_case cc refloat E O c body n).

Lemma freezes_batch v a : freezes c v a = auto c v.
Proof. destruct HB as [B1 B2]. unfold freezes. rewrite B1, B2. destruct v; cbn [is_ok negb andb orb auto]; rewrite ?orb_false_r; reflexivity. Qed.

Lemma my_ops f : all_ops (body n f) = b_ops b.
Proof. unfold all_ops. rewrite Hbody. destruct Hsteady as (-> & _). apply app_nil_r. Qed.

Lemma one_separate : separate [n].
Proof. split; [repeat constructor; apply Hn|]. intros x y [<-|[]] [<-|[]] _. reflexivity. Qed.

Lemma base_killed f h : freeze_killed (base_dir E n) (base_dir O n) (snd (path_split n)) f h -> freeze_killed E O n f h.
Proof.
  pose proof (proj1 Hn) as P. pose proof (HO E o HE Ho) as PO.
  pose proof (case_path_eq E n [] HE P) as E1. pose proof (case_path_eq E n (lit ".md") HE P) as E2. pose proof (case_path_eq O n (lit ".md") PO P) as E4.
  destruct (plain_join E n HE (proper_plain n P)) as [J1 J2]. destruct (plain_join O n PO (proper_plain n P)) as [J3 J4].
  unfold case_path in *. rewrite app_nil_r in E1. rewrite app_nil_r in E1.
  intros K. destruct K as [|keep D|g h R1 R2|h F].
  - constructor.
  - rewrite E1, <- J1. apply killed_removing. rewrite J1, <- E1. exact D.
  - rewrite E1, <- J1 in R1. rewrite E2, E4, <- J2, <- J4 in R2. now apply (killed_moving E O n f g h).
  - apply killed_after. rewrite <- (base_freeze E O n f HE PO P). exact F.
Qed.

(** the states of freeze_case in between *)
Lemma killed_shape s f g h : after_body E o n b s f g -> freeze_killed E O n g h ->
  (forall p, ~ case_file E n p -> ~ case_file O n p -> lookup p h = lookup p g) /\
  (lookup md h = lookup md g \/ lookup md h = Some (out s) /\ (forall r, lookup (file r) h = None) \/ accepted E O n g h).
Proof.
  intros A K. destruct (name_not_o o Hdot n Hn) as [N1 N2]. destruct (ab_ready _ _ _ _ _ _ _ A) as (R1 & R2 & R3 & R4 & R5).
  pose proof (ab_md _ _ _ _ _ _ _ A) as MD. pose proof (proper_plain n (proj1 Hn)) as PN.
  destruct (C100_crash_partial E o n g (out s) h HE Ho PN N1 N2 MD R1 R3 R2 K) as (C1 & C2 & C3 & C4 & C5). split; [exact C4|].
  destruct (plain_join E n HE PN) as [J1 J2]. destruct (plain_join O n (HO E o HE Ho) PN) as [J3 J4].
  assert (B3 : forall r, below (E ++ SLASH :: n) (file r) = true) by (intros r; apply below_iff; exists r; now rewrite <- app_assoc).
  destruct K as [|keep D|g1 h K1 K2|h F].
  - now left.
  - left. rewrite J1, (lookup_filter md (fun x => negb (below (E ++ SLASH :: n) x) || keep x)), md_not_below_dir. reflexivity.
  - right. left. destruct C1 as [[_ X]|[X X2]].
    + exfalso. rewrite J4 in K2. unfold rename_file in K2. destruct (lookup _ g1); [|discriminate]. destruct (is_dir _ g1); [discriminate|]. injection K2 as <-.
      rewrite J2, lookup_write, lookup_remove, str_eqb_refl in X. destruct (str_eqb_spec md (O ++ SLASH :: n ++ lit ".md")) as [Y|_]; [|discriminate].
      revert Y. apply (name_vs_out E o Hdot n (lit ".md") (SLASH :: n ++ lit ".md")); [apply proper_nonempty, Hn|apply Hn].
    + split; [exact X|]. intros r. destruct (lookup (file r) h) as [t|] eqn:L; [exfalso|reflexivity].
      rewrite J2 in K2. unfold rename_file in K2. destruct (lookup _ g1) as [u|]; [|discriminate]. destruct (is_dir _ g1); [discriminate|]. injection K2 as <-.
      rewrite lookup_write, lookup_remove in L. destruct (str_eqb_spec md (file r)) as [Y|_]; [apply app_inv_head in Y; injection Y as Y; apply app_inv_head in Y; discriminate Y|].
      destruct (str_eqb _ (file r)); [discriminate|]. rewrite J1 in K1. unfold path_exists, is_file in K1. rewrite R1 in K1. cbn [orb] in K1. unfold rmtree in K1.
      destruct (is_dir (E ++ SLASH :: n) g) eqn:DI; injection K1 as <-.
      * rewrite (lookup_filter (file r) (fun x => negb (below (E ++ SLASH :: n) x))), B3 in L. discriminate L.
      * rewrite (is_dir_false _ _ _ DI (B3 r)) in L. discriminate L.
  - right. right. destruct (freeze_ok E o HE Ho Hdot n b s f g Hn A) as (h' & F' & AC). rewrite F in F'. injection F' as <-. exact AC.
Qed.

(** what a process that died leaves: the old text, or the new text with no files or with all *)
Lemma died_effect a f h s : ready E O n f -> case_died cc refloat E O c body n a f h ->
  run_body cc refloat (lookup md f) (point_error_pos c) (b_ops b) = Some s ->
  let v := verdict (match lookup md f with Some _ => true | None => false end) s in
  ready E O n h /\
  (forall p, ~ case_file E n p -> ~ area O n p -> lookup p h = lookup p f) /\
  ((auto c v = true /\ lookup md h = Some (out s) /\ ((forall r, lookup (file r) h = None) \/ forall r, lookup (file r) h = last_write r (b_files b))) \/
   lookup md h = lookup md f /\ (auto c v = false -> forall r, lookup (file r) h = lookup (file r) f)).
Proof.
  intros R K RB v. pose proof (proj1 Hn) as P. pose proof (HO E o HE Ho) as PO.
  assert (CF : forall p, case_file O n p -> area O n p).
  { intros p [->|[r ->]]; [exists (lit ".md")|exists []]; (split; [unfold case_exts; cbn [In]; tauto|]); [apply prefix_refl|]. rewrite app_nil_r. right. exists r. now rewrite <- !app_assoc. }
  assert (OUT : forall y, ~ area O n (E ++ SLASH :: n ++ y)) by (intros y; now apply area_apart).
  destruct K as [h CH|snapshot f1 s' f2 h S1 RB' F2 FZ K|res req rest g h RC NF CH].
  - rewrite !case_path_eq in CH by (exact P || exact PO).
    assert (SAME : forall p, ~ scratch E o n p -> lookup p h = lookup p f).
    { intros p N. assert (DEC : {lookup p h = lookup p f} + {lookup p h <> lookup p f}) by repeat decide equality. destruct DEC as [X|X]; [exact X|]. exfalso. apply N. exact (CH p X). }
    assert (SE : forall y, lookup (E ++ SLASH :: n ++ y) h = lookup (E ++ SLASH :: n ++ y) f) by (intros y; apply SAME; intros X; now apply (OUT y), scratch_area).
    split; [|split].
    + apply (scratch_ready refloat E o Hdot [n] one_separate n f h (or_introl eq_refl) R). auto.
    + intros p _ NA. apply SAME. intros X. now apply NA, scratch_area.
    + right. split; [apply SE|]. intros _ r. apply SE.
  - destruct (body_ok E o HE Ho Hdot n b s f Hn R) as (f1' & g & S' & G & A). rewrite S' in S1. injection S1 as <- <-.
    rewrite my_ops, RB in RB'. injection RB' as <-. rewrite Hbody, G in F2. subst f2. rewrite freezes_batch in FZ. rewrite case_path_eq in FZ by (exact HE || exact P).
    assert (GE : forall y, lookup (E ++ SLASH :: n ++ y) g = lookup (E ++ SLASH :: n ++ y) f).
    { intros y. apply (ab_rest _ _ _ _ _ _ _ A). intros x Hx X. apply (OUT y). exists x. split; [|exact X]. unfold out_exts, case_exts in *. cbn [In] in *. tauto. }
    assert (FV : auto c v = true).
    { rewrite <- FZ. f_equal. unfold v. f_equal. unfold path_exists, is_file. pose proof (ab_ready _ _ _ _ _ _ _ A) as (_ & R2 & _). rewrite R2, orb_false_r, GE. reflexivity. }
    destruct (killed_shape s f g h A (base_killed g h K)) as [REST SH]. split; [|split].
    + apply (rest_ready E o Hdot n g h Hn REST), (ab_ready _ _ _ _ _ _ _ A).
    + intros p N1 N2. rewrite REST; [|exact N1|intros X; now apply N2, CF]. apply (ab_rest _ _ _ _ _ _ _ A). intros x Hx X. apply N2. exists x. split; [|exact X].
      unfold out_exts, case_exts in *. cbn [In] in *. tauto.
    + destruct SH as [X|[[X Y]|X]].
      * right. rewrite X. split; [apply GE|]. congruence.
      * left. auto.
      * left. split; [exact FV|]. rewrite (acc_md _ _ _ _ _ X). split; [apply (ab_md _ _ _ _ _ _ _ A)|]. right. intros r. rewrite (acc_files _ _ _ _ _ X). apply (ab_dir _ _ _ _ _ _ _ A).
  - destruct (run_case_exact E o HE Ho Hdot cc refloat c body HB n a f Hn R) as (f1 & _ & X). rewrite my_ops, RB in X. cbv zeta in X. fold v in X.
    destruct X as (g' & RC' & CR & RD). rewrite RC in RC'. injection RC' as -> -> -> <-. rewrite Hbody in CR.
    rewrite (bin_path E o HE Ho n Hn) in CH.
    assert (CE : forall y, lookup (E ++ SLASH :: n ++ y) h = lookup (E ++ SLASH :: n ++ y) g).
    { intros y. apply CH. intros X. apply (OUT y). rewrite X. exists (lit ".bin"). split; [unfold case_exts; cbn [In]; tauto|apply prefix_refl]. }
    split; [exact (ready_bin E o Hdot n g h Hn CH RD)|]. split.
    + intros p N1 N2. rewrite CH; [now apply (cr_rest _ _ _ _ _ _ _ _ _ CR)|]. intros ->. apply N2. exists (lit ".bin"). split; [unfold case_exts; cbn [In]; tauto|apply prefix_refl].
    + rewrite CE, (cr_snapshot _ _ _ _ _ _ _ _ _ CR). pose proof (cr_files _ _ _ _ _ _ _ _ _ CR) as FI. destruct (auto c v) eqn:AU.
      * left. split; [reflexivity|]. split; [reflexivity|]. right. intros r. rewrite CE. apply FI.
      * right. split; [reflexivity|]. intros _ r. rewrite CE. apply FI.
Qed.

(** running the test again *)
Lemma died_again a a2 f g h : ready E O n f -> go a f = Some (Ret (OK, NONE, a) g) -> case_died cc refloat E O c body n a f h ->
  ready E O n h /\ (forall p, ~ case_file E n p -> ~ area O n p -> lookup p h = lookup p f) /\
  exists g2, go a2 h = Some (Ret (OK, NONE, a2) g2) /\ ready E O n g2 /\ lookup md g2 = lookup md g /\
    (forall p, ~ case_file E n p -> ~ area O n p -> lookup p g2 = lookup p g) /\
    lookup (O ++ SLASH :: n ++ lit ".bin") g2 = lookup (O ++ SLASH :: n ++ lit ".bin") g /\
    (update c = true \/ ~ halfway E n g h -> same_snapshot E n g2 g) /\
    (update c = false -> halfway E n g h -> forall r, lookup (file r) g2 = None).
Proof.
  intros R RC K. destruct (run_case_exact E o HE Ho Hdot cc refloat c body HB n a f Hn R) as (f1 & _ & X). rewrite my_ops in X.
  destruct (run_body cc refloat (lookup md f) (point_error_pos c) (b_ops b)) as [s|] eqn:RB; [|congruence]. cbv zeta in X. set (v := verdict _ s) in X.
  destruct X as (g' & RC' & CR & RD). rewrite RC in RC'. injection RC' as RES <-. rewrite Hbody, <- RES in CR.
  destruct (died_effect a f h s R K RB) as (RH & REST & SH). fold v in SH. split; [exact RH|]. split; [exact REST|].
  destruct (run_case_exact E o HE Ho Hdot cc refloat c body HB n a2 h Hn RH) as (f1' & _ & X). rewrite my_ops in X.
  pose proof (cr_snapshot _ _ _ _ _ _ _ _ _ CR) as SN. pose proof (cr_files _ _ _ _ _ _ _ _ _ CR) as FI.
  assert (BINS : forall s1 fr1 f1 g1, case_ran E O n b s1 fr1 OK f1 g1 -> lookup (O ++ SLASH :: n ++ lit ".bin") g1 = match b_exc b with Some _ => None | None => b_value b end).
  { intros s1 fr1 f0 g1 C1. pose proof (cr_bin _ _ _ _ _ _ _ _ _ C1) as Y. cbn [is_fail] in Y. exact Y. }
  assert (RESTS : forall s1 fr1 g1, case_ran E O n b s1 fr1 OK h g1 -> forall p, ~ case_file E n p -> ~ area O n p -> lookup p g1 = lookup p g).
  { intros s1 fr1 g1 C1 p N1 N2. rewrite (cr_rest _ _ _ _ _ _ _ _ _ C1), (cr_rest _ _ _ _ _ _ _ _ _ CR) by assumption. auto. }
  assert (AG : exists s2, run_body cc refloat (Some (out s)) (point_error_pos c) (b_ops b) = Some s2 /\ verdict true s2 = OK /\ out s2 = out s).
  { destruct Hsteady as (_ & HOP & HCR & ts & HT & HW). destruct (run_body_written cc TOK refloat _ _ _ _ RB) as (W & _ & _). pose proof (written_pieces cc _ [] _ HOP W) as EQ. cbn [app] in EQ.
    destruct (C12_repeat_partial cc TOK refloat (lookup md f) (point_error_pos c) (point_error_pos c) _ ts s RB) as (s2 & Y1 & Y2 & _ & _ & Y3 & _); auto; [|eauto].
    intros Y. apply HCR. rewrite <- EQ. apply in_or_app. now left. }
  destruct SH as [(AU & MH & FH)|[MH FH]].
  - (* the new text *)
    destruct AG as (s2 & RB2 & V2 & O2). rewrite MH, RB2 in X. cbv zeta in X. rewrite V2 in X. assert (Y : (if auto c OK then OK else OK) = OK) by now destruct (auto c OK). rewrite Y in X.
    destruct X as (g2 & RC2 & CR2 & RD2). rewrite Hbody in CR2. exists g2. split; [exact RC2|]. split; [exact RD2|].
    pose proof (cr_snapshot _ _ _ _ _ _ _ _ _ CR2) as SN2. pose proof (cr_files _ _ _ _ _ _ _ _ _ CR2) as FI2. rewrite AU in SN, FI.
    assert (M2 : lookup md g2 = lookup md g) by (rewrite SN2, SN, MH; destruct (auto c OK); now rewrite ?O2). cbn [auto] in FI2.
    split; [exact M2|]. split; [now apply (RESTS s2 (auto c OK))|]. split; [now rewrite (BINS _ _ _ _ CR), (BINS _ _ _ _ CR2)|]. split.
    + intros HW. split; [exact M2|]. intros r. rewrite FI, FI2. destruct (update c); [reflexivity|]. destruct FH as [FH|FH]; [|apply FH].
      destruct HW as [HW|HW]; [discriminate|]. rewrite FH. destruct (last_write r (b_files b)) as [t|] eqn:L; [|reflexivity].
      exfalso. apply HW. split; [now rewrite MH, SN|]. exists r. rewrite FH, FI, L. discriminate.
    + intros U (_ & r0 & HW) r. rewrite FI2, U. destruct FH as [FH|FH]; [apply FH|]. elim HW. now rewrite FH, FI.
  - (* the old text *)
    rewrite MH, RB in X. cbv zeta in X. fold v in X. rewrite <- RES in X. destruct X as (g2 & RC2 & CR2 & RD2). rewrite Hbody in CR2. exists g2. split; [exact RC2|]. split; [exact RD2|].
    pose proof (cr_snapshot _ _ _ _ _ _ _ _ _ CR2) as SN2. pose proof (cr_files _ _ _ _ _ _ _ _ _ CR2) as FI2.
    assert (M2 : lookup md g2 = lookup md g) by (rewrite SN2, SN, MH; reflexivity). assert (FF : forall r, lookup (file r) g2 = lookup (file r) g).
    { intros r. rewrite FI2, FI. destruct (auto c v); [reflexivity|]. now apply FH. }
    split; [exact M2|]. split; [now apply (RESTS s (auto c v))|]. split; [now rewrite (BINS _ _ _ _ CR), (BINS _ _ _ _ CR2)|]. split; [now split|].
    intros U (HM & r0 & HW) r. exfalso. destruct (auto c v) eqn:AU.
    + destruct AG as (s2 & RB2 & V2 & _). rewrite SN, MH in HM. unfold v in AU. rewrite HM in RB, AU. rewrite RB2 in RB. injection RB as <-. rewrite V2 in AU. cbn [auto] in AU. congruence.
    + apply HW. rewrite FI. now apply FH.
Qed.
End Die.

(** C137. A test whose output is accepted with -a or -u, while the process dies at any moment, and that is run again in the same
    way: it ends with the result, the text of the snapshot and the value of a run that does not die, and no file of another test
    is touched. The files of the snapshot are those of such a run too, unless the process died between the two renames of
    freeze_case and -u is not given: then they are lost, and the result is OK all the same. *)
Theorem C137_accept_killed_partial :
  forall cc, TokClassOK cc -> forall refloat E o c body b n answers answers2 f g h,
  plain_dir E -> plain o -> starts_with [DOT] o = true -> let O := E ++ SLASH :: o in
  batch c -> case_name n -> (forall f, body n f = b) -> steady cc b -> ready E O n f ->
  run_case cc refloat E O c body n answers f = Some (Ret (OK, NONE, answers) g) ->
  case_died cc refloat E O c body n answers f h ->
  ready E O n h /\ (forall p, ~ case_file E n p -> ~ area O n p -> lookup p h = lookup p f) /\
  exists g2, run_case cc refloat E O c body n answers2 h = Some (Ret (OK, NONE, answers2) g2) /\ ready E O n g2 /\
    lookup (E ++ SLASH :: n ++ lit ".md") g2 = lookup (E ++ SLASH :: n ++ lit ".md") g /\
    (forall p, ~ case_file E n p -> ~ area O n p -> lookup p g2 = lookup p g) /\
    lookup (O ++ SLASH :: n ++ lit ".bin") g2 = lookup (O ++ SLASH :: n ++ lit ".bin") g /\
    (update c = true \/ ~ halfway E n g h -> same_snapshot E n g2 g) /\
    (update c = false -> halfway E n g h -> forall r, lookup (E ++ SLASH :: n ++ SLASH :: r) g2 = None).
Proof.
  intros cc TOK refloat E o c body b n answers answers2 f g h HE Ho Hdot O HB Hn Hbody Hst R RC K.
  exact (died_again cc TOK refloat E o HE Ho Hdot c HB body n b Hn Hbody Hst answers answers2 f g h R RC K).
Qed.
Print Assumptions C137_accept_killed_partial.

(** [h] is left after any number of runs that died, none of them halfway *)
Inductive deaths (cc : CharClass) (refloat : str -> option str) (E O : str) (c : config) (body : str -> fs -> body_run) (n : str) (f g : fs) : fs -> Prop :=
| no_death : deaths cc refloat E O c body n f g f
| another_death answers h h2 : deaths cc refloat E O c body n f g h -> case_died cc refloat E O c body n answers h h2 ->
    update c = true \/ ~ halfway E n g h2 -> deaths cc refloat E O c body n f g h2.

Theorem C137_accept_killed_often_partial :
  forall cc, TokClassOK cc -> forall refloat E o c body b n answers answers2 f g h,
  plain_dir E -> plain o -> starts_with [DOT] o = true -> let O := E ++ SLASH :: o in
  batch c -> case_name n -> (forall f, body n f = b) -> steady cc b -> ready E O n f ->
  run_case cc refloat E O c body n answers f = Some (Ret (OK, NONE, answers) g) ->
  deaths cc refloat E O c body n f g h ->
  exists g2, run_case cc refloat E O c body n answers2 h = Some (Ret (OK, NONE, answers2) g2) /\ same_snapshot E n g2 g.
Proof.
  intros cc TOK refloat E o c body b n answers answers2 f g h HE Ho Hdot O HB Hn Hbody Hst R RC K.
  assert (ANY : forall a a2 f g, ready E O n f -> run_case cc refloat E O c body n a f = Some (Ret (OK, NONE, a) g) -> run_case cc refloat E O c body n a2 f = Some (Ret (OK, NONE, a2) g)).
  { clear -HE Ho Hdot HB Hn. intros a a2 f g R RC. unfold run_case in *. destruct (case_start E O n f) as [snapshot f1|f1]; [|discriminate]. cbn [run_bind] in *.
    destruct (run_body _ _ _ _ _) as [s|]; [|discriminate].
    rewrite base_review, batch_review in * by (exact HE || exact HB || apply (HO E o HE Ho) || apply Hn).
    set (v := verdict _ s) in *. set (f2 := case_files _ _ _ _ _) in *. destruct (auto c v).
    - destruct (freeze_case E O n f2) as [[] f3|f3]; [|discriminate]. cbn [io_bind run_bind] in *. destruct (save_value _ _ _ f3) as [[] f4|f4]; [|discriminate]. cbn [io_bind] in *. congruence.
    - cbn [run_bind] in *. destruct v; try congruence; (destruct (save_value _ _ _ f2) as [[] f4|f4]; [|discriminate]; cbn [io_bind] in *; congruence). }
  assert (INV : ready E O n h /\ exists g2, run_case cc refloat E O c body n answers2 h = Some (Ret (OK, NONE, answers2) g2) /\ same_snapshot E n g2 g).
  { induction K as [|a h h2 K (RH & g1 & RC1 & SM) D HW].
    - split; [exact R|]. exists g. split; [now apply (ANY answers)|]. now split.
    - assert (HW' : update c = true \/ ~ halfway E n g1 h2).
      { destruct HW as [HW|HW]; [now left|right]. intros (X & r & Y). destruct SM as [S1 S2]. apply HW. split; [congruence|]. exists r. now rewrite <- S2. }
      apply (ANY answers2 a) in RC1; [|exact RH].
      destruct (died_again cc TOK refloat E o HE Ho Hdot c HB body n b Hn Hbody Hst a answers2 h g1 h2 RH RC1 D) as (RH2 & _ & g2 & RC2 & _ & _ & _ & _ & SM2 & _).
      split; [exact RH2|]. exists g2. split; [exact RC2|]. specialize (SM2 HW'). destruct SM as [S1 S2], SM2 as [S3 S4]. split; [congruence|]. intros r. now rewrite S4. }
  exact (proj2 INV).
Qed.
Print Assumptions C137_accept_killed_often_partial.

(** The files of the snapshot are lost: the process dies between the two renames. *)
Definition demo_seen : fs := [(lit "books/t/a.md", lit "old"); (lit "books/t/a/data.json", lit "[]")].
Theorem C137_accept_killed_refuted :
  exists cc refloat E o c body b n f g h g2 r, let O := E ++ SLASH :: o in
  TokClassOK cc /\ plain_dir E /\ plain o /\ starts_with [DOT] o = true /\ batch c /\ accept c = true /\ case_name n /\ (forall f, body n f = b) /\ steady cc b /\ ready E O n f /\
  run_case cc refloat E O c body n [] f = Some (Ret (OK, NONE, []) g) /\ lookup (E ++ SLASH :: n ++ SLASH :: r) f <> None /\ lookup (E ++ SLASH :: n ++ SLASH :: r) g <> None /\
  case_died cc refloat E O c body n [] f h /\
  run_case cc refloat E O c body n [] h = Some (Ret (OK, NONE, []) g2) /\ lookup (E ++ SLASH :: n ++ SLASH :: r) g2 = None.
Proof.
  set (n := lit "t/a"). set (c := demo_conf true).
  set (f1 := match case_start demo_E demo_O n demo_seen with Ret _ f1 => f1 | Raise f1 => f1 end).
  set (s := match run_body ascii_class no_float (Some (lit "old")) true (b_ops (demo_text n)) with Some s => s | None => start ascii_class None true end).
  set (f2 := case_files demo_O n (demo_text n) s f1).
  set (f3 := match rmtree (lit "books/t/a") f2 with Ret _ f3 => f3 | Raise f3 => f3 end).
  set (h := match rename_file (lit "books/.out/t/a.md") (lit "books/t/a.md") f3 with Ret _ h => h | Raise h => h end).
  exists ascii_class, no_float, demo_E, demo_o, c, demo_body, (demo_text n), n, demo_seen.
  exists (after (run_case ascii_class no_float demo_E demo_O c demo_body n [] demo_seen)), h,
    (after (run_case ascii_class no_float demo_E demo_O c demo_body n [] h)), (lit "data.json"). cbv zeta.
  split; [exact ascii_TokClassOK|]. split; [exact (proj1 demo_dirs)|]. split; [exact (proj1 (proj2 demo_dirs))|]. split; [reflexivity|]. split; [split; reflexivity|]. split; [reflexivity|].
  assert (CN : case_name n). { destruct demo_separate as [X _]. inversion X. assumption. }
  split; [exact CN|]. split; [reflexivity|]. split; [apply demo_steady; now left|]. split; [apply readyb_ok; vm_compute; reflexivity|].
  split; [vm_compute; reflexivity|]. split; [vm_compute; discriminate|]. split; [vm_compute; discriminate|]. split; [|split; vm_compute; reflexivity].
  apply (died_accepting _ _ _ _ _ _ _ _ _ (Some (lit "old")) f1 s f2 h).
  - vm_compute. reflexivity.
  - vm_compute. reflexivity.
  - reflexivity.
  - vm_compute. reflexivity.
  - apply (killed_moving _ _ _ _ f3 h); vm_compute; reflexivity.
Qed.
Print Assumptions C137_accept_killed_refuted.

(** the test "t/a" is accepted; the process dies while the old files are removed, and once more while the test runs *)
Example C137_ex : exists g h h2, let c := demo_conf true in
  run_case ascii_class no_float demo_E demo_O c demo_body (lit "t/a") [] demo_seen = Some (Ret (OK, NONE, []) g) /\
  lookup (lit "books/t/a/data.json") h = None /\ lookup (lit "books/t/a.md") h = Some (lit "old") /\ ~ halfway demo_E (lit "t/a") g h /\
  case_died ascii_class no_float demo_E demo_O c demo_body (lit "t/a") [] demo_seen h /\
  lookup (lit "books/.out/t/a.md") h2 = Some (lit "# t") /\ ~ halfway demo_E (lit "t/a") g h2 /\
  deaths ascii_class no_float demo_E demo_O c demo_body (lit "t/a") demo_seen g h2.
Proof.
  set (n := lit "t/a"). set (c := demo_conf true).
  set (f1 := match case_start demo_E demo_O n demo_seen with Ret _ f1 => f1 | Raise f1 => f1 end).
  set (s := match run_body ascii_class no_float (Some (lit "old")) true (b_ops (demo_text n)) with Some s => s | None => start ascii_class None true end).
  set (f2 := case_files demo_O n (demo_text n) s f1).
  set (h := filter (fun e => negb (below (path_join (base_dir demo_E n) (snd (path_split n))) (fst e)) || false) f2).
  set (g := after (run_case ascii_class no_float demo_E demo_O c demo_body n [] demo_seen)).
  set (h2 := write_file (lit "books/.out/t/a.md") (lit "# t") h).
  exists g, h, h2. cbv zeta.
  assert (G : lookup (demo_E ++ SLASH :: n ++ lit ".md") g <> Some (lit "old")) by (vm_compute; discriminate).
  assert (NH : ~ halfway demo_E n g h).
  { intros [X _]. apply G. rewrite <- X. vm_compute. reflexivity. }
  assert (NH2 : ~ halfway demo_E n g h2).
  { intros [X _]. apply G. rewrite <- X. vm_compute. reflexivity. }
  assert (D : case_died ascii_class no_float demo_E demo_O c demo_body n [] demo_seen h).
  { apply (died_accepting _ _ _ _ _ _ _ _ _ (Some (lit "old")) f1 s f2 h).
    - vm_compute. reflexivity.
    - vm_compute. reflexivity.
    - reflexivity.
    - vm_compute. reflexivity.
    - apply (killed_removing _ _ _ _ (fun _ => false)). vm_compute. reflexivity. }
  split; [vm_compute; reflexivity|]. split; [vm_compute; reflexivity|]. split; [vm_compute; reflexivity|]. split; [exact NH|]. split; [exact D|].
  split; [vm_compute; reflexivity|]. split; [exact NH2|].
  apply (another_death _ _ _ _ _ _ _ _ _ [] h h2); [apply (another_death _ _ _ _ _ _ _ _ _ [] demo_seen h); [constructor|exact D|now right]| |now right].
  apply died_running. intros p X. right. right. left. unfold h2 in X. rewrite lookup_write in X. destruct (str_eqb_spec (lit "books/.out/t/a.md") p) as [Y|_]; [|easy].
  rewrite <- Y. vm_compute. reflexivity.
Qed.
