(** C140: a run with -a or -u that is killed any number of times and then repeated or continued. *)
From Verif Require Import PyStrFacts FsFacts CaseRunProps RunCaseProofs RunCaseProps ReviewProofs CrashProps ReportsProofs RunnerProofs KillProofs RepeatProofs RepeatProps CaseRunFacts TokenizerProps.
From Verif Require Export RunCaseSpec AcceptKillProps AcceptRunModel.

(** two runs that accept the same and report alike; -c and --fail-fast may differ *)
Definition alike (c c' : config) : Prop :=
  batch c' /\ update c' = update c /\ accept c' = accept c /\ point_error_pos c' = point_error_pos c.

Section Die.
Variable cc : CharClass.
Hypothesis TOK : TokClassOK cc.
Variable refloat : str -> option str.
Variables (E o : str).
Hypothesis HE : plain_dir E.
Hypothesis Ho : plain o.
Hypothesis Hdot : starts_with [DOT] o = true.
Notation O := (E ++ SLASH :: o).
Variable c : config.
Hypothesis HB : batch c.
Variable body : str -> fs -> body_run.
Variable b : str -> body_run.
Variable names : list str.
Hypothesis SEP : separate names.
Hypothesis Hbody : forall n f, In n names -> body n f = b n.
Hypothesis Hsteady : forall n, In n names -> steady cc (b n).
Notation md n := (E ++ SLASH :: n ++ lit ".md").
Notation file n r := (E ++ SLASH :: n ++ SLASH :: r).
Notation go n := (run_case cc refloat E O c body n).

Definition has (n : str) (t : option str) (fl : str -> option str) (f : fs) : Prop :=
  lookup (md n) f = t /\ forall r, lookup (file n r) f = fl r.
(** running [n] from [f] passes and leaves the snapshot [t], [fl] *)
Definition leads (n : str) (t : option str) (fl : str -> option str) (f : fs) : Prop :=
  ready E O n f /\ forall a, exists g, go n a f = Some (Ret (OK, NONE, a) g) /\ has n t fl g.
Definition half (n : str) (t : option str) (fl : str -> option str) (h : fs) : Prop :=
  lookup (md n) h = t /\ exists r, lookup (file n r) h <> fl r.

Lemma name n : In n names -> case_name n.
Proof. intros H. destruct SEP as [F _]. rewrite Forall_forall in F. auto. Qed.
Lemma own_md n : own E o n (md n).
Proof. apply (own_E E o n (lit ".md")); [unfold case_exts; cbn [In]; tauto|apply prefix_refl]. Qed.
Lemma own_file n r : own E o n (file n r).
Proof. apply (own_E E o n []); [unfold case_exts; cbn [In]; tauto|]. right. exists r. now rewrite app_nil_r, <- app_assoc. Qed.

Lemma has_local n t fl f g : (forall p, own E o n p -> lookup p g = lookup p f) -> has n t fl f -> has n t fl g.
Proof. intros S [H1 H2]. split; [rewrite S; [exact H1|apply own_md]|]. intros r. rewrite S; [apply H2|apply own_file]. Qed.

Lemma leads_ext n t fl fl' f : (forall r, fl r = fl' r) -> leads n t fl f -> leads n t fl' f.
Proof. intros X [R L]. split; [exact R|]. intros a. destruct (L a) as (g & G & H1 & H2). exists g. split; [exact G|]. split; [exact H1|]. intros r. now rewrite H2. Qed.

Lemma leads_run n t fl f a x g : leads n t fl f -> go n a f = Some (Ret x g) -> x = (OK, NONE, a) /\ has n t fl g.
Proof. intros [_ L] G. destruct (L a) as (g' & G' & H). rewrite G in G'. injection G' as -> <-. auto. Qed.

Lemma leads_local n t fl f f' : In n names -> (forall p, own E o n p -> lookup p f' = lookup p f) -> leads n t fl f -> leads n t fl f'.
Proof.
  intros Hn S [R L]. assert (R' : ready E O n f') by (apply (ready_local E o n f); [intros p OW; symmetry; auto|exact R]). split; [exact R'|]. intros a.
  destruct (run_case_exact E o HE Ho Hdot cc refloat c body HB n a f (name n Hn) R) as (f1 & _ & X).
  destruct (run_case_exact E o HE Ho Hdot cc refloat c body HB n a f' (name n Hn) R') as (f1' & _ & X'). unfold all_ops in *. rewrite Hbody in X, X' by exact Hn.
  rewrite (S _ (own_md n)) in X'. destruct (L a) as (g & G & H1 & H2).
  destruct (run_body cc refloat _ _ _) as [s|] in X, X'; [|congruence]. cbv zeta in X, X'. set (v := verdict _ s) in *.
  destruct X as (g1 & G1 & CR & _). rewrite G in G1. injection G1 as RES <-. destruct X' as (g' & G' & CR' & _). rewrite <- RES in *.
  exists g'. split; [exact G'|]. split.
  - rewrite (cr_snapshot _ _ _ _ _ _ _ _ _ CR'), <- H1, (cr_snapshot _ _ _ _ _ _ _ _ _ CR). destruct (auto c v); [reflexivity|]. apply S, own_md.
  - intros r. rewrite (cr_files _ _ _ _ _ _ _ _ _ CR'), <- H2, (cr_files _ _ _ _ _ _ _ _ _ CR). destruct (auto c v); [reflexivity|]. apply S, own_file.
Qed.

(** finitely many files *)
Lemma files_dec n (g h : fs) : (forall r, lookup (file n r) h = lookup (file n r) g) \/ exists r, lookup (file n r) h <> lookup (file n r) g.
Proof.
  set (pre := E ++ SLASH :: n ++ [SLASH]).
  assert (P : forall r, file n r = pre ++ r) by (intros r; unfold pre; now rewrite <- !app_assoc; cbn [app]; rewrite <- app_assoc).
  assert (DEC : forall x y : option str, {x = y} + {x <> y}) by repeat decide equality.
  assert (K : forall keys : list str, (forall r, In (pre ++ r) keys -> lookup (pre ++ r) h = lookup (pre ++ r) g) \/ exists r, lookup (pre ++ r) h <> lookup (pre ++ r) g).
  { induction keys as [|k keys [IH|IH]]; [left; intros r []| |now right].
    destruct (starts_with pre k) eqn:W.
    - apply starts_with_iff in W as [r ->]. destruct (DEC (lookup (pre ++ r) h) (lookup (pre ++ r) g)) as [Y|Y]; [|right; eauto].
      left. intros r' [X|X]; [|now apply IH]. now rewrite <- X.
    - left. intros r [X|X]; [|now apply IH]. exfalso. assert (Y : starts_with pre k = true) by (apply starts_with_iff; eauto). congruence. }
  destruct (K (map fst h ++ map fst g)) as [X|[r X]]; [|right; exists r; now rewrite P]. left. intros r. rewrite P.
  destruct (lookup (pre ++ r) h) as [t|] eqn:L1.
  - rewrite <- L1. apply X. apply in_or_app. left. apply lookup_In in L1. now apply (in_map fst) in L1.
  - destruct (lookup (pre ++ r) g) as [t|] eqn:L2; [|reflexivity]. rewrite <- L1, <- L2. apply X. apply in_or_app. right. apply lookup_In in L2. now apply (in_map fst) in L2.
Qed.

Lemma leads_died n t fl f a h : In n names -> leads n t fl f -> case_died cc refloat E O c body n a f h ->
  (forall p, ~ case_file E n p -> ~ area O n p -> lookup p h = lookup p f) /\
  exists fl', leads n t fl' h /\ ((forall r, fl' r = fl r) \/ update c = false /\ half n t fl h /\ forall r, fl' r = None).
Proof.
  intros Hn L K. destruct (proj2 L a) as (g & G & H1 & H2).
  pose proof (fun a2 => died_again cc TOK refloat E o HE Ho Hdot c HB body n (b n) (name n Hn) (fun f => Hbody n f Hn) (Hsteady n Hn) a a2 f g h (proj1 L) G K) as X.
  destruct (X a) as (RH & REST & _). split; [exact REST|].
  assert (DEC : (update c = true \/ ~ halfway E n g h) \/ (update c = false /\ halfway E n g h)).
  { destruct (update c); [left; now left|]. assert (DO : forall x y : option str, {x = y} + {x <> y}) by repeat decide equality. unfold halfway.
    destruct (DO (lookup (md n) h) (lookup (md n) g)) as [Y|Y]; [|left; right; tauto]. destruct (files_dec n g h) as [Z|Z]; [|right; auto]. left. right. intros (_ & r & W). now apply W. }
  destruct DEC as [DEC|[U W]].
  - exists fl. split; [|now left]. split; [exact RH|]. intros a2. destruct (X a2) as (_ & _ & g2 & G2 & _ & M2 & _ & _ & S2 & _). destruct (S2 DEC) as [S3 S4]. exists g2. split; [exact G2|].
    split; [congruence|]. intros r. now rewrite S4.
  - exists (fun _ => None). split.
    + split; [exact RH|]. intros a2. destruct (X a2) as (_ & _ & g2 & G2 & _ & M2 & _ & _ & _ & S2). exists g2. split; [exact G2|]. split; [congruence|now apply S2].
    + right. split; [exact U|]. split; [|reflexivity]. destruct W as (W1 & r & W2). split; [congruence|]. exists r. now rewrite <- H2.
Qed.

(** a test that ran is not changed by running it again *)
Lemma leads_again n t fl f a x g : In n names -> leads n t fl f -> go n a f = Some (Ret x g) ->
  x = (OK, NONE, a) /\ has n t fl g /\ leads n t fl g /\ forall p, ~ case_file E n p -> ~ area O n p -> lookup p g = lookup p f.
Proof.
  intros Hn L G. destruct (leads_run n t fl f a x g L G) as [-> [H1 H2]]. split; [reflexivity|]. split; [now split|].
  destruct (leads_died n t fl f a g Hn L) as (REST & fl' & L' & [X|(_ & (_ & r & X) & _)]).
  - apply (died_saving _ _ _ _ _ _ _ _ _ OK NONE a g g); [exact G|discriminate|reflexivity].
  - split; [now apply (leads_ext n t fl')|exact REST].
  - now rewrite H2 in X.
Qed.

Lemma others n m p : In n names -> In m names -> n <> m -> own E o n p -> ~ case_file E m p /\ ~ area O m p.
Proof.
  intros Hn Hm N OW. assert (OM : ~ own E o m p) by (intros X; apply N; now apply (own_disjoint E o Hdot names n m p)). split; intros X; apply OM; [left|now right].
  destruct X as [->|[r ->]]; [exists (lit ".md")|exists []]; (split; [unfold case_exts; cbn [In]; tauto|]); [apply prefix_refl|]. rewrite app_nil_r. right. exists r. now rewrite <- !app_assoc.
Qed.

(** ** the whole run *)
Variable T : str -> option str.
Variable FL : str -> str -> option str.
(** every test is on its way to the snapshot [T], [FL], or to that without its files if it is in [L]; those in [P] have arrived *)
Definition inv (L P : str -> Prop) (f : fs) : Prop := forall n, In n names ->
  exists fl, leads n (T n) fl f /\ ((forall r, fl r = FL n r) \/ update c = false /\ L n /\ forall r, fl r = None) /\ (P n -> has n (T n) fl f).

Lemma inv_weaken (L L' P P' : str -> Prop) f : (forall n, In n names -> L n -> L' n) -> (forall n, In n names -> P' n -> P n) -> inv L P f -> inv L' P' f.
Proof. intros X Y I n Hn. destruct (I n Hn) as (fl & I1 & I2 & I3). exists fl. split; [exact I1|]. split; [|auto]. destruct I2 as [I2|(I2 & I4 & I5)]; [now left|right; auto]. Qed.

Lemma inv_local L P f g : (forall n p, In n names -> own E o n p -> lookup p g = lookup p f) -> inv L P f -> inv L P g.
Proof.
  intros S I n Hn. destruct (I n Hn) as (fl & I1 & I2 & I3). exists fl. split; [apply (leads_local n _ _ f); auto; intros p; now apply S|]. split; [exact I2|].
  intros X. apply (has_local n _ _ f); auto. intros p. now apply S.
Qed.

Notation special := [O ++ SLASH :: lit "cases.txt"; O ++ SLASH :: lit "metrics.json"; E ++ SLASH :: lit "index.md"].
Lemma inv_write L P f p t : In p special -> inv L P f -> inv L P (write_file p t f).
Proof. intros Hp. apply inv_local. intros n q Hn OW. now apply (write_special refloat E o Hdot names SEP n). Qed.

Lemma inv_run L P f m a : In m names -> inv L P f -> exists g, go m a f = Some (Ret (OK, NONE, a) g) /\ inv L (fun n => P n \/ n = m) g.
Proof.
  intros Hm I. destruct (I m Hm) as (fl & I1 & I2 & _). destruct (proj2 I1 a) as (g & G & _). exists g. split; [exact G|].
  destruct (leads_again m _ _ f a _ g Hm I1 G) as (_ & H & LG & REST). intros n Hn. destruct (list_eq_dec N.eq_dec n m) as [->|N]; [exists fl; auto|].
  destruct (I n Hn) as (fl' & J1 & J2 & J3). assert (S : forall p, own E o n p -> lookup p g = lookup p f) by (intros p OW; destruct (others n m p Hn Hm N OW); now apply REST).
  exists fl'. split; [now apply (leads_local n _ _ f)|]. split; [exact J2|]. intros [X|X]; [|contradiction]. apply (has_local n _ _ f); auto.
Qed.

Lemma inv_died L P f m a h : In m names -> inv L P f -> case_died cc refloat E O c body m a f h ->
  inv (fun n => L n \/ half n (T n) (FL n) h) (fun n => P n /\ n <> m) h /\ forall p, (forall n, In n names -> ~ own E o n p) -> lookup p h = lookup p f.
Proof.
  intros Hm I K. destruct (I m Hm) as (fl & I1 & I2 & _). destruct (leads_died m _ _ f a h Hm I1 K) as (REST & fl' & L' & X). split.
  - intros n Hn. destruct (list_eq_dec N.eq_dec n m) as [->|N].
    + exists fl'. split; [exact L'|]. split; [|intros [_ Y]; now elim Y]. destruct X as [X|(U & (W1 & r & W2) & X)].
      * destruct I2 as [I2|(I2 & I3 & I4)]; [left; intros r; now rewrite X|]. right. split; [exact I2|]. split; [now left|]. intros r. now rewrite X.
      * right. split; [exact U|]. split; [|exact X]. destruct I2 as [I2|(_ & I3 & _)]; [right|now left]. split; [exact W1|]. exists r. now rewrite <- I2.
    + destruct (I n Hn) as (fl2 & J1 & J2 & J3). assert (S : forall p, own E o n p -> lookup p h = lookup p f) by (intros p OW; destruct (others n m p Hn Hm N OW); now apply REST).
      exists fl2. split; [now apply (leads_local n _ _ f)|]. split; [destruct J2 as [J2|(J2 & J4 & J5)]; [now left|right; auto]|]. intros [Y _]. apply (has_local n _ _ f); auto.
  - intros p NO. apply REST; intros CF; apply (NO m Hm); [left|now right].
    destruct CF as [->|[r ->]]; [exists (lit ".md")|exists []]; (split; [unfold case_exts; cbn [In]; tauto|]); [apply prefix_refl|]. rewrite app_nil_r. right. exists r. now rewrite <- !app_assoc.
Qed.

Context {D : Type} (show_dur : D -> str) (parse_dur : str -> option D) (sp : char -> bool).
Hypothesis DUR : durations_ok show_dur parse_dur.
Hypothesis SPC : space_ok sp.
Hypothesis Hfield : forall n, In n names -> field_ok n.
Notation report := (report_file O).
Notation recorded f := (of_file parse_dur sp (lookup report f)).
Definition rec_ok (f : fs) (n : str) : Prop := exists d, In (n, OK, d) (recorded f).

Lemma alike_case c' n a f : alike c c' -> run_case cc refloat E O c' body n a f = go n a f.
Proof.
  destruct c as [ai i u ac co ff pp], c' as [ai' i' u' ac' co' ff' pp']. intros ([B1 B2] & A1 & A2 & A3). destruct HB as [B3 B4]. cbn in *. subst. reflexivity.
Qed.
Lemma alike_died c' n a f h : alike c c' -> case_died cc refloat E O c' body n a f h -> case_died cc refloat E O c body n a f h.
Proof.
  intros A K. pose proof (alike_case c' n a f A) as G. assert (FZ : forall v, freezes c' v a = freezes c v a).
  { destruct c as [ai i u ac co ff pp], c' as [ai' i' u' ac' co' ff' pp']. destruct A as ([B1 B2] & A1 & A2 & A3). destruct HB as [B3 B4]. cbn in *. subst. reflexivity. }
  destruct A as (_ & _ & _ & A3). destruct K as [h K|snapshot f1 s f2 h K1 K2 K3 K4 K5|res req rest g h K1 K2 K3].
  - now apply died_running.
  - rewrite FZ in K4. rewrite A3 in K2. now apply (died_accepting _ _ _ _ _ _ _ _ _ snapshot f1 s f2 h).
  - rewrite G in K1. now apply (died_saving _ _ _ _ _ _ _ _ _ res req rest g h).
Qed.

Lemma todo_inv c' dur todo : alike c c' -> incl todo names -> forall L P rv recs a f, inv L P f ->
  exists g, run_todo cc refloat E O O c' body show_dur dur todo rv false recs a f = Some (Ret (rv, recs ++ map (fun n => (n, OK, dur n)) todo, a) g) /\
    inv L (fun n => P n \/ In n todo) g.
Proof.
  intros A. induction todo as [|m todo IH]; intros IN L P rv recs a f I; cbn [run_todo].
  - exists f. rewrite app_nil_r. split; [reflexivity|]. revert I. apply inv_weaken; [auto|]. intros n _ [X|[]]; exact X.
  - assert (Hm : In m names) by (apply IN; now left). destruct (inv_run L P f m a Hm I) as (f1 & G & I1). rewrite (alike_case c' m a f A), G. cbn [run_bind is_abort is_ok negb orb add_result]. rewrite andb_false_r.
    destruct (IH (fun n Hn => IN n (or_intror Hn)) L _ rv (recs ++ [(m, OK, dur m)]) a _ (inv_write _ _ _ _ (report_text show_dur (recs ++ [(m, OK, dur m)])) (report_special E o HE Ho) I1)) as (g & RT & IG).
    exists g. rewrite RT. rewrite <- app_assoc. split; [reflexivity|]. revert IG. apply inv_weaken; [auto|]. intros n _ [X|[<-|X]]; auto.
Qed.

Lemma report_free n : In n names -> ~ own E o n report.
Proof. intros Hn. apply (special_not_own refloat E o Hdot n); [now apply name|apply (report_special E o HE Ho)]. Qed.

Lemma todo_dies c' dur todo : alike c c' -> incl todo names -> NoDup todo -> forall L P fails recs a f h, inv L P f ->
  lookup report f = Some (report_text show_dur recs) -> names_ok recs -> (forall n, In n names -> In n (map rec_name recs) -> P n) -> (forall n, In n todo -> ~ In n (map rec_name recs)) ->
  todo_died cc refloat E O O c' body show_dur dur todo fails recs a f h ->
  inv (fun n => L n \/ half n (T n) (FL n) h) (rec_ok h) h.
Proof.
  intros A. induction todo as [|m todo IH]; intros IN ND L P fails recs a f h I RP NK PR DJ K; cbn [todo_died] in K.
  - subst h. revert I. apply inv_weaken; [auto|]. intros n Hn [d X]. rewrite RP, (of_file_roundtrip show_dur parse_dur sp DUR SPC recs NK) in X. apply PR; [exact Hn|]. now apply (in_map rec_name) in X.
  - assert (Hm : In m names) by (apply IN; now left). apply NoDup_cons_iff in ND as [Nm ND]. destruct K as [K|(res & req & a1 & f1 & G & K)].
    + apply (alike_died c' m a f h A) in K. destruct (inv_died L P f m a h Hm I K) as [I1 S]. revert I1. apply inv_weaken; [auto|]. intros n Hn [d X].
      rewrite (S report report_free), RP, (of_file_roundtrip show_dur parse_dur sp DUR SPC recs NK) in X. apply (in_map rec_name) in X. cbn [rec_name fst] in X. split; [now apply PR|].
      intros ->. apply (DJ m (or_introl eq_refl)). exact X.
    + rewrite (alike_case c' m a f A) in G. destruct (inv_run L P f m a Hm I) as (f1' & G' & I1). rewrite G in G'. injection G' as -> -> -> <-. cbv zeta in K.
      assert (NK1 : names_ok (recs ++ [(m, OK, dur m)])). { apply Forall_app. split; [exact NK|]. constructor; [cbn [rec_name fst]; now apply Hfield|constructor]. }
      assert (PR1 : forall n, In n names -> In n (map rec_name (recs ++ [(m, OK, dur m)])) -> P n \/ n = m).
      { intros n Hn X. rewrite map_app, in_app_iff in X. destruct X as [X|[X|[]]]; [left; now apply PR|right; now rewrite <- X]. }
      destruct K as [(t & u & ET & ->)|K].
      * apply (inv_write _ _ _ _ _ (report_special E o HE Ho)). revert I1. apply inv_weaken; [auto|]. intros n Hn [d X].
        rewrite lookup_write, str_eqb_refl in X. apply (of_file_part show_dur parse_dur sp DUR SPC (recs ++ [(m, OK, dur m)]) _ u NK1) in X as [d' X]; [|now rewrite <- app_assoc].
        apply PR1; [exact Hn|]. now apply (in_map rec_name) in X.
      * set (f2 := write_file report _ f1) in K. pose proof (inv_write _ _ _ _ (report_text show_dur (recs ++ [(m, OK, dur m)])) (report_special E o HE Ho) I1) as I2. fold f2 in I2.
        assert (RP2 : lookup report f2 = Some (report_text show_dur (recs ++ [(m, OK, dur m)]))) by (unfold f2; now rewrite lookup_write, str_eqb_refl).
        assert (DJ2 : forall n, In n todo -> ~ In n (map rec_name (recs ++ [(m, OK, dur m)]))).
        { intros n Hn X. rewrite map_app, in_app_iff in X. destruct X as [X|[X|[]]]; [revert X; apply DJ; now right|]. cbn [rec_name fst] in X. subst n. contradiction. }
        cbn [is_abort orb is_ok negb] in K. rewrite orb_false_r in K. destruct (fail_fast c' && fails).
        -- subst h. revert I2. apply inv_weaken; [auto|]. intros n Hn [d X]. rewrite RP2, (of_file_roundtrip show_dur parse_dur sp DUR SPC _ NK1) in X. apply PR1; [exact Hn|]. now apply (in_map rec_name) in X.
        -- exact (IH (fun n Hn => IN n (or_intror Hn)) ND L _ _ _ a f2 h I2 RP2 NK1 PR1 DJ2 K).
Qed.

Lemma metrics_special : path_join O (lit "metrics.json") = O ++ SLASH :: lit "metrics.json" /\ path_join E (lit "index.md") = E ++ SLASH :: lit "index.md".
Proof. split; apply path_join_name; [now apply HO|reflexivity|exact HE|reflexivity]. Qed.
Lemma no_clash (t : str) f p : In p [O ++ SLASH :: lit "metrics.json"; E ++ SLASH :: lit "index.md"] -> lookup report (write_file p t f) = lookup report f.
Proof.
  intros Hp. assert (RF : report = O ++ SLASH :: lit "cases.txt") by (apply path_join_name; [now apply HO|reflexivity]). rewrite RF, lookup_write.
  destruct (str_eqb_spec p (O ++ SLASH :: lit "cases.txt")) as [Y|_]; [exfalso|reflexivity]. destruct Hp as [X|[X|[]]]; rewrite <- X in Y.
  - apply app_inv_head in Y. discriminate Y.
  - rewrite <- app_assoc in Y. apply app_inv_head in Y. cbn [app] in Y. injection Y as Y. destruct o as [|k o']; [discriminate Hdot|]. cbn [app] in Y. injection Y as Y _. cbn [starts_with] in Hdot. rewrite <- Y in Hdot. discriminate Hdot.
Qed.

(** the records that are kept are those of tests that have arrived *)
Lemma kept_done (P : str -> Prop) (ct : bool) f n r d : (ct = true -> forall n, In n names -> rec_ok f n -> P n) -> In n names ->
  let todo := snd (cases_to_done_and_todo (recorded f) ct names) in
  In (n, r, d) (kept (recorded f) todo) -> P n.
Proof.
  intros H Hn todo X. apply kept_In in X as [X1 X2]. cbn [rec_name fst] in X2. destruct ct; [|now elim X2].
  assert (Y : exists r l, by_name n (recorded f) = r :: l /\ rec_result r = OK).
  { unfold todo, cases_to_done_and_todo in X2. rewrite todo_iff in X2. destruct (by_name n (recorded f)) as [|[[n0 r0] d0] l] eqn:B.
    - exfalso. assert (Z : In (n, r, d) (by_name n (recorded f))) by (unfold by_name; apply filter_In; split; [exact X1|apply str_eqb_refl]). rewrite B in Z. destruct Z.
    - destruct r0; [exists (n0, OK, d0), l; auto| |]; exfalso; apply X2; (split; [exact Hn|]); intros (r1 & l1 & Z1 & Z2); injection Z1 as <- _; discriminate Z2. }
  destruct Y as ([[n0 r0] d0] & l & B & RO). cbn in RO. subst r0. apply (H eq_refl n Hn). exists d0.
  assert (Z : In (n0, OK, d0) (by_name n (recorded f))) by (rewrite B; now left). unfold by_name in Z. apply filter_In in Z as [Z1 Z2]. cbn [rec_name fst] in Z2.
  destruct (str_eqb_spec n0 n) as [W|]; [|discriminate]. now rewrite <- W.
Qed.

Lemma kept_names f todo : names_ok (kept (recorded f) todo).
Proof.
  apply Forall_forall. intros r Hr. apply kept_In in Hr as [Hr _]. pose proof (read_names_ok parse_dur sp (lookup report f)) as NK. unfold names_ok in NK. rewrite Forall_forall in NK. now apply NK.
Qed.

Lemma todo_or_done (P : str -> Prop) (ct : bool) f n : (ct = true -> forall n, In n names -> rec_ok f n -> P n) -> In n names ->
  P n \/ In n (snd (cases_to_done_and_todo (recorded f) ct names)).
Proof.
  intros H Hn. destruct ct; [|right; exact Hn]. cbn [cases_to_done_and_todo].
  destruct (in_dec (list_eq_dec N.eq_dec) n (snd (done_and_todo (recorded f) names))) as [X|X]; [now right|left].
  rewrite todo_iff in X. destruct (by_name n (recorded f)) as [|[[n0 r0] d0] l] eqn:B.
  - exfalso. apply X. split; [exact Hn|]. intros (r1 & l1 & Z1 & _). discriminate Z1.
  - destruct r0; [| |]; try (exfalso; apply X; (split; [exact Hn|]); intros (r1 & l1 & Z1 & Z2); injection Z1 as <- _; discriminate Z2).
    apply (H eq_refl n Hn). exists d0. assert (Z : In (n0, OK, d0) (by_name n (recorded f))) by (rewrite B; now left). unfold by_name in Z. apply filter_In in Z as [Z1 Z2]. cbn [rec_name fst] in Z2.
    destruct (str_eqb_spec n0 n) as [W|]; [|discriminate]. now rewrite <- W.
Qed.

Lemma run_dies c' dur a L P f h : alike c c' -> NoDup names -> inv L P f -> (forall n, In n names -> rec_ok f n -> cont c' = true -> P n) ->
  run_died cc refloat E O O c' body show_dur parse_dur sp dur names a f h -> inv (fun n => L n \/ half n (T n) (FL n) h) (rec_ok h) h.
Proof.
  intros A ND I PC K. assert (PC' : cont c' = true -> forall n, In n names -> rec_ok f n -> P n) by auto.
  destruct metrics_special as [ME IE].
  destruct K as [t u old todo ET|h old todo K|x f2 m old todo K|x f2 m i old todo K].
  - apply (inv_write _ _ _ _ _ (report_special E o HE Ho)). revert I. apply inv_weaken; [auto|]. intros n Hn [d X]. rewrite lookup_write, str_eqb_refl in X.
    apply (of_file_part show_dur parse_dur sp DUR SPC (kept old todo) _ u (kept_names f todo)) in X as [d' X]; [|exact ET]. exact (kept_done P (cont c') f n OK d' PC' Hn X).
  - revert K. apply (todo_dies c' dur todo A) with (P := P).
    + intros n Hn. now apply todo_incl in Hn.
    + now apply todo_NoDup.
    + apply (inv_write _ _ _ _ _ (report_special E o HE Ho)), I.
    + now rewrite lookup_write, str_eqb_refl.
    + apply kept_names.
    + intros n Hn X. apply in_map_iff in X as ([[n0 r0] d0] & <- & X). exact (kept_done P (cont c') f n0 r0 d0 PC' Hn X).
    + intros n Hn X. apply in_map_iff in X as (r & <- & X). apply kept_In in X as [_ X]. contradiction.
  - rewrite ME. destruct (todo_inv c' dur todo A (fun n Hn => todo_incl _ _ _ n Hn) L P OK (kept old todo) a _ (inv_write _ _ _ _ (report_text show_dur (kept old todo)) (report_special E o HE Ho) I)) as (g & G & IG).
    rewrite K in G. injection G as _ <-. apply (inv_write _ _ _ _ m (or_intror (or_introl eq_refl))) in IG. revert IG. apply inv_weaken; [auto|]. intros n Hn _. now apply todo_or_done.
  - rewrite ME, IE. destruct (todo_inv c' dur todo A (fun n Hn => todo_incl _ _ _ n Hn) L P OK (kept old todo) a _ (inv_write _ _ _ _ (report_text show_dur (kept old todo)) (report_special E o HE Ho) I)) as (g & G & IG).
    rewrite K in G. injection G as _ <-. apply (inv_write _ _ _ _ m (or_intror (or_introl eq_refl))) in IG. apply (inv_write _ _ _ _ i (or_intror (or_intror (or_introl eq_refl)))) in IG.
    revert IG. apply inv_weaken; [auto|]. intros n Hn _. now apply todo_or_done.
Qed.

Lemma run_ends c' dur all_names metrics a L P f : alike c c' -> inv L P f -> (cont c' = true -> forall n, In n names -> rec_ok f n -> P n) ->
  exists recs g, run_async cc refloat E O O c' body show_dur parse_dur sp dur all_names metrics names a f = Some (Ret (OK, recs, a) g) /\ inv L (fun _ => True) g.
Proof.
  intros A I PC. unfold run_async. set (old := of_file _ _ _). set (todo := snd _). destruct metrics_special as [ME IE]. rewrite ME, IE.
  destruct (todo_inv c' dur todo A (fun n Hn => todo_incl _ _ _ n Hn) L P OK (kept old todo) a _ (inv_write _ _ _ _ (report_text show_dur (kept old todo)) (report_special E o HE Ho) I)) as (g & G & IG).
  rewrite G. cbn [run_bind]. do 2 eexists. split; [reflexivity|]. apply inv_write; [right; right; now left|]. apply inv_write; [right; now left|].
  revert IG. apply inv_weaken; [auto|]. intros n Hn _. now apply todo_or_done.
Qed.

(** where an uninterrupted run leads to *)
Lemma todo_keeps dur todo : incl todo names -> forall n t fl recs a f recs' rest g rv, In n names -> (forall m, In m names -> ready E O m f) ->
  leads n t fl f -> run_todo cc refloat E O O c body show_dur dur todo rv false recs a f = Some (Ret (OK, recs', rest) g) ->
  leads n t fl g /\ (In n todo -> has n t fl g) /\ (has n t fl f -> has n t fl g).
Proof.
  induction todo as [|m todo IH]; intros IN n t fl recs a f recs' rest g rv Hn AR LD H; cbn [run_todo] in H.
  - injection H as _ _ _ <-. split; [exact LD|]. split; [intros []|auto].
  - assert (Hm : In m names) by (apply IN; now left). destruct (run_case _ _ _ _ _ _ m a f) as [[[[res req] a1] f1|f1]|] eqn:G; [|discriminate|discriminate]. cbn [run_bind] in H.
    assert (RES : res = OK).
    { destruct res; [reflexivity| |]; exfalso; destruct (is_abort req || _) in H.
      1,3: injection H as H _ _ _; destruct rv; discriminate.
      1,2: apply (run_not_ok cc refloat E O c body show_dur dur) in H; [now apply H|]; intros X; apply add_ok in X as [_ X]; discriminate. }
    subst res. destruct (case_to_pass cc TOK refloat E o HE Ho Hdot body b names SEP Hbody Hsteady c m a f _ f1 HB Hm (AR m Hm) G eq_refl) as (E1 & E2 & RD & _ & s & fr & CR). cbn [fst snd] in E1, E2. subst req a1.
    cbn [is_abort is_ok negb orb add_result] in H. rewrite andb_false_r in H. set (f2 := write_file report _ f1) in H.
    assert (W : forall k q, In k names -> own E o k q -> lookup q f2 = lookup q f1) by (intros k q Hk OW; apply (write_special refloat E o Hdot names SEP k); auto; apply (report_special E o HE Ho)).
    assert (OTH : forall k q, In k names -> k <> m -> own E o k q -> lookup q f1 = lookup q f) by (intros k q Hk N; apply (ran_other E o Hdot names SEP m k (b m) s fr OK); auto).
    assert (AR2 : forall k, In k names -> ready E O k f2).
    { intros k Hk. apply (ready_local E o k f1); [intros q OW; symmetry; now apply (W k)|]. destruct (list_eq_dec N.eq_dec k m) as [->|N]; [exact RD|].
      apply (ready_local E o k f); [intros q OW; symmetry; now apply (OTH k)|auto]. }
    assert (LD2 : leads n t fl f1 /\ (n = m -> has n t fl f1) /\ (has n t fl f -> has n t fl f1)).
    { destruct (list_eq_dec N.eq_dec n m) as [->|N].
      - destruct (leads_again m t fl f a _ f1 Hm LD G) as (_ & Y1 & Y2 & _). auto.
      - split; [apply (leads_local n _ _ f _ Hn); [intros q OW; now apply (OTH n)|exact LD]|]. split; [intros X; contradiction|]. apply (has_local n). intros q OW. now apply (OTH n). }
    destruct LD2 as (L1 & L2 & L3). assert (HW : has n t fl f1 -> has n t fl f2) by (apply (has_local n); intros q OW; now apply (W n)).
    destruct (IH (fun k Hk => IN k (or_intror Hk)) n t fl _ _ f2 _ _ g _ Hn AR2 ltac:(apply (leads_local n _ _ f1 _ Hn); [intros q OW; now apply (W n)|exact L1]) H) as (M1 & M2 & M3).
    split; [exact M1|]. split; [intros [<-|X]; auto|auto].
Qed.

Lemma todo_finds dur todo : incl todo names -> forall n recs a f recs' rest g rv, In n todo -> (forall m, In m names -> ready E O m f) ->
  run_todo cc refloat E O O c body show_dur dur todo rv false recs a f = Some (Ret (OK, recs', rest) g) ->
  exists t fl, leads n t fl f.
Proof.
  induction todo as [|m todo IH]; intros IN n recs a f recs' rest g rv Hn AR H; cbn [run_todo] in H; [destruct Hn|].
  assert (Hm : In m names) by (apply IN; now left). destruct (run_case _ _ _ _ _ _ m a f) as [[[[res req] a1] f1|f1]|] eqn:G; [|discriminate|discriminate]. cbn [run_bind] in H.
  assert (RES : res = OK).
  { destruct res; [reflexivity| |]; exfalso; destruct (is_abort req || _) in H.
    1,3: injection H as H _ _ _; destruct rv; discriminate.
    1,2: apply (run_not_ok cc refloat E O c body show_dur dur) in H; [now apply H|]; intros X; apply add_ok in X as [_ X]; discriminate. }
  subst res. destruct (case_to_pass cc TOK refloat E o HE Ho Hdot body b names SEP Hbody Hsteady c m a f _ f1 HB Hm (AR m Hm) G eq_refl) as (E1 & E2 & RD & _ & s & fr & CR). cbn [fst snd] in E1, E2. subst req a1.
  destruct (list_eq_dec N.eq_dec n m) as [->|N].
  - exists (lookup (md m) f1), (fun r => lookup (file m r) f1). split; [now apply AR|]. intros a2.
    destruct (run_case_exact E o HE Ho Hdot cc refloat c body HB m a f (name m Hm) (AR m Hm)) as (f0 & _ & X). destruct (run_case_exact E o HE Ho Hdot cc refloat c body HB m a2 f (name m Hm) (AR m Hm)) as (f0' & _ & X').
    unfold all_ops in *. rewrite Hbody in X, X' by exact Hm. destruct (run_body cc refloat _ _ _) as [s'|] in X, X'; [|congruence]. cbv zeta in X, X'. set (v := verdict _ s') in *.
    destruct X as (g1 & G1 & C1 & _). rewrite G in G1. injection G1 as RES <-. destruct X' as (g2 & G2 & C2 & _). rewrite <- RES in *. exists g2. split; [exact G2|]. split.
    + now rewrite (cr_snapshot _ _ _ _ _ _ _ _ _ C2), (cr_snapshot _ _ _ _ _ _ _ _ _ C1).
    + intros r. now rewrite (cr_files _ _ _ _ _ _ _ _ _ C2), (cr_files _ _ _ _ _ _ _ _ _ C1).
  - cbn [is_abort is_ok negb orb add_result] in H. rewrite andb_false_r in H. set (f2 := write_file report _ f1) in H.
    assert (W : forall k q, In k names -> own E o k q -> lookup q f2 = lookup q f1) by (intros k q Hk OW; apply (write_special refloat E o Hdot names SEP k); auto; apply (report_special E o HE Ho)).
    assert (OTH : forall k q, In k names -> k <> m -> own E o k q -> lookup q f1 = lookup q f) by (intros k q Hk N'; apply (ran_other E o Hdot names SEP m k (b m) s fr OK); auto).
    assert (AR2 : forall k, In k names -> ready E O k f2).
    { intros k Hk. apply (ready_local E o k f1); [intros q OW; symmetry; now apply (W k)|]. destruct (list_eq_dec N.eq_dec k m) as [->|N']; [exact RD|].
      apply (ready_local E o k f); [intros q OW; symmetry; now apply (OTH k)|auto]. }
    destruct Hn as [->|Hn]; [contradiction|]. assert (Hnn : In n names) by (apply IN; now right).
    destruct (IH (fun k Hk => IN k (or_intror Hk)) n _ _ f2 _ _ g _ Hn AR2 H) as (t & fl & LD). exists t, fl. apply (leads_local n t fl f2); auto. intros q OW. rewrite (W n), (OTH n); auto.
Qed.
End Die.

(** The tests [selected] are run several times, and every run is killed; [hs] are the files that each of them left. The first run
    is without -c. *)
Inductive killings (cc : CharClass) (refloat : str -> option str) (E O : str) (body : str -> fs -> body_run) {D : Type} (show_dur : D -> str)
    (parse_dur : str -> option D) (sp : char -> bool) (selected : list str) (c : config) (f : fs) : list fs -> fs -> Prop :=
| first_killing c' dur answers h : alike c c' -> cont c' = false ->
    run_died cc refloat E O O c' body show_dur parse_dur sp dur selected answers f h -> killings cc refloat E O body show_dur parse_dur sp selected c f [h] h
| next_killing c' dur answers hs h h2 : killings cc refloat E O body show_dur parse_dur sp selected c f hs h -> alike c c' ->
    run_died cc refloat E O O c' body show_dur parse_dur sp dur selected answers h h2 -> killings cc refloat E O body show_dur parse_dur sp selected c f (h2 :: hs) h2.

(** C140. Run tests with -a or -u so that all end OK; instead let the run be killed at any moment, and every further run of the
    same tests as well, the first one without -c and the others with or without it. The next run that is not killed, with or
    without -c, ends OK, and every test has the text of its snapshot that the run without accidents leaves. It has the files of
    the snapshot too, or else -u was not given, one of the runs died between the two renames of freeze_case of this very test,
    and it has none of them. *)
Theorem C140_accept_run_killed_partial :
  forall cc, TokClassOK cc -> forall refloat E o c body b (D : Type) (show_dur : D -> str) parse_dur sp dur dur2 all_names all2 metrics metrics2
    selected answers answers2 f recs rest g,
  plain_dir E -> plain o -> starts_with [DOT] o = true -> let O := E ++ SLASH :: o in
  batch c -> cont c = false -> durations_ok show_dur parse_dur -> space_ok sp ->
  separate selected -> NoDup selected -> (forall n, In n selected -> field_ok n) ->
  (forall n h, In n selected -> body n h = b n) -> (forall n, In n selected -> steady cc (b n)) ->
  (forall n, In n selected -> ready E O n f) ->
  run_async cc refloat E O O c body show_dur parse_dur sp dur all_names metrics selected answers f = Some (Ret (OK, recs, rest) g) ->
  forall hs h, killings cc refloat E O body show_dur parse_dur sp selected c f hs h ->
  forall c2, alike c c2 ->
  exists recs2 g2, run_async cc refloat E O O c2 body show_dur parse_dur sp dur2 all2 metrics2 selected answers2 h = Some (Ret (OK, recs2, answers2) g2) /\
    forall n, In n selected ->
      ready E O n g2 /\ lookup (E ++ SLASH :: n ++ lit ".md") g2 = lookup (E ++ SLASH :: n ++ lit ".md") g /\
      (same_snapshot E n g2 g \/
       update c = false /\ (exists h', In h' hs /\ halfway E n g h') /\ forall r, lookup (E ++ SLASH :: n ++ SLASH :: r) g2 = None).
Proof.
  intros cc TOK refloat E o c body b D show_dur parse_dur sp dur dur2 all_names all2 metrics metrics2 selected answers answers2 f recs rest g
    HE Ho Hdot O HB HC DUR SPC SEP ND HF HBODY HST HR H hs h K c2 A2.
  set (T := fun n => lookup (E ++ SLASH :: n ++ lit ".md") g). set (FL := fun n r => lookup (E ++ SLASH :: n ++ SLASH :: r) g).
  assert (I0 : inv cc refloat E o c body selected T FL (fun _ => False) (fun _ => False) f).
  { unfold run_async in H. set (old := of_file _ _ _) in H. set (todo := snd _) in H. assert (ET : todo = selected) by (unfold todo, cases_to_done_and_todo; now rewrite HC). rewrite ET in H.
    assert (ME := metrics_special E o HE Ho). destruct ME as [ME IE]. fold O in ME. rewrite ME, IE in H.
    set (f1 := write_file (report_file O) _ f) in H. destruct (run_todo _ _ _ _ _ _ _ _ _ _ _ _ _ _ _) as [[y g0|g0]|] eqn:RT in H; [|discriminate|discriminate]. cbn [run_bind] in H. injection H as -> <-.
    assert (W1 : forall n q, In n selected -> own E o n q -> lookup q f1 = lookup q f) by (intros n q Hn OW; apply (write_special refloat E o Hdot selected SEP n); auto; apply (report_special E o HE Ho)).
    assert (AR1 : forall n, In n selected -> ready E O n f1) by (intros n Hn; apply (ready_local E o n f); [intros q OW; symmetry; now apply (W1 n)|auto]).
    intros n Hn. destruct (todo_finds cc TOK refloat E o HE Ho Hdot c HB body b selected SEP HBODY HST show_dur dur selected (incl_refl _) n _ _ f1 _ _ g0 _ Hn AR1 RT) as (t & fl & LD).
    destruct (todo_keeps cc TOK refloat E o HE Ho Hdot c HB body b selected SEP HBODY HST show_dur dur selected (incl_refl _) n t fl _ _ f1 _ _ g0 _ Hn AR1 LD RT) as (_ & HS & _).
    specialize (HS Hn). assert (HG : has E n t fl (write_file (E ++ SLASH :: lit "index.md") (index_text all_names) (write_file (O ++ SLASH :: lit "metrics.json") metrics g0))).
    { revert HS. apply (has_local refloat E o). intros q OW. rewrite !(write_special refloat E o Hdot selected SEP n); auto; [right; now left|right; right; now left]. }
    destruct HG as [HG1 HG2]. exists fl. split.
    - unfold T. rewrite HG1. apply (leads_local cc refloat E o HE Ho Hdot c HB body b selected SEP HBODY n t fl f1); auto. intros q OW. symmetry. now apply (W1 n).
    - split; [left; intros r; symmetry; apply HG2|intros []]. }
  assert (HALF : forall n h', half E n (T n) (FL n) h' -> halfway E n g h') by (intros n h' [X Y]; split; assumption).
  assert (IK : inv cc refloat E o c body selected T FL (fun n => exists h', In h' hs /\ halfway E n g h') (rec_ok E o parse_dur sp h) h).
  { induction K as [c' dur' a h A HC' K|c' dur' a hs h h2 K IH A KD].
    - apply (run_dies cc TOK refloat E o HE Ho Hdot c HB body b selected SEP HBODY HST T FL show_dur parse_dur sp DUR SPC HF c' dur' a _ _ f h A ND I0) in K.
      + revert K. apply inv_weaken; [|auto]. intros n Hn [[]|X]. exists h. split; [now left|auto].
      + intros n _ _ X. congruence.
    - apply (run_dies cc TOK refloat E o HE Ho Hdot c HB body b selected SEP HBODY HST T FL show_dur parse_dur sp DUR SPC HF c' dur' a _ _ h h2 A ND IH) in KD; auto.
      revert KD. apply inv_weaken; [|auto]. intros n Hn [[h' [X1 X2]]|X]; [exists h'; split; [now right|exact X2]|exists h2; split; [now left|auto]]. }
  destruct (run_ends cc TOK refloat E o HE Ho Hdot c HB body b selected SEP HBODY HST T FL show_dur parse_dur sp c2 dur2 all2 metrics2 answers2 _ _ h A2 IK) as (recs2 & g2 & R2 & I2); [auto|].
  exists recs2, g2. split; [exact R2|]. intros n Hn. destruct (I2 n Hn) as (fl & LD & FO & HS). destruct (HS Logic.I) as [H1 H2]. split; [apply LD|]. split; [exact H1|].
  destruct FO as [FO|(U & L & FO)]; [left; split; [exact H1|]; intros r; now rewrite H2, FO|]. right. split; [exact U|]. split; [exact L|]. intros r. now rewrite H2.
Qed.
Print Assumptions C140_accept_run_killed_partial.

(** and from then on every run of these tests is green, also one without -a and -u *)
Theorem C140_killed_then_green_partial :
  forall cc, TokClassOK cc -> forall refloat E o c body b (D : Type) (show_dur : D -> str) parse_dur sp dur dur2 dur3 all_names all2 all3 metrics metrics2 metrics3
    selected answers answers2 answers3 f recs rest g,
  plain_dir E -> plain o -> starts_with [DOT] o = true -> let O := E ++ SLASH :: o in
  batch c -> cont c = false -> durations_ok show_dur parse_dur -> space_ok sp ->
  separate selected -> NoDup selected -> (forall n, In n selected -> field_ok n) ->
  (forall n h, In n selected -> body n h = b n) -> (forall n, In n selected -> steady cc (b n)) ->
  (forall n, In n selected -> ready E O n f) ->
  run_async cc refloat E O O c body show_dur parse_dur sp dur all_names metrics selected answers f = Some (Ret (OK, recs, rest) g) ->
  forall hs h, killings cc refloat E O body show_dur parse_dur sp selected c f hs h ->
  forall c2, alike c c2 -> forall c3, batch c3 ->
  exists recs2 g2 recs3 g3,
    run_async cc refloat E O O c2 body show_dur parse_dur sp dur2 all2 metrics2 selected answers2 h = Some (Ret (OK, recs2, answers2) g2) /\
    run_async cc refloat E O O c3 body show_dur parse_dur sp dur3 all3 metrics3 selected answers3 g2 = Some (Ret (OK, recs3, answers3) g3) /\
    (cont c3 = false -> forall n, In n selected -> In (n, OK, dur3 n) recs3).
Proof.
  intros cc TOK refloat E o c body b D show_dur parse_dur sp dur dur2 dur3 all_names all2 all3 metrics metrics2 metrics3 selected answers answers2 answers3 f recs rest g
    HE Ho Hdot O HB HC DUR SPC SEP ND HF HBODY HST HR H hs h K c2 A2 c3 HB3.
  destruct (C140_accept_run_killed_partial cc TOK refloat E o c body b D show_dur parse_dur sp dur dur2 all_names all2 metrics metrics2 selected answers answers2 f recs rest g
    HE Ho Hdot HB HC DUR SPC SEP ND HF HBODY HST HR H hs h K c2 A2) as (recs2 & g2 & R2 & S2). exists recs2, g2. fold O in R2, S2.
  assert (SP1 : In (report_file O) [O ++ SLASH :: lit "cases.txt"; O ++ SLASH :: lit "metrics.json"; E ++ SLASH :: lit "index.md"]) by apply (report_special E o HE Ho).
  destruct (metrics_special E o HE Ho) as [M I]. fold O in M.
  assert (WR : forall p t h, In p [O ++ SLASH :: lit "cases.txt"; O ++ SLASH :: lit "metrics.json"; E ++ SLASH :: lit "index.md"] ->
     (all_ready E o selected h -> all_ready E o selected (write_file p t h)) /\
     (forall n, In n selected -> passes cc refloat E b n h -> passes cc refloat E b n (write_file p t h))).
  { intros p t k Hp. split.
    - intros AR n Hn. apply (ready_local E o n k); [|auto]. intros q OW. symmetry. now apply (write_special refloat E o Hdot selected SEP n).
    - intros n Hn. apply (passes_local cc refloat E o b). intros q OW. symmetry. now apply (write_special refloat E o Hdot selected SEP n). }
  assert (PG : forall n, In n selected -> passes cc refloat E b n g).
  { unfold run_async in H. set (old := of_file _ _ _) in H. set (todo := snd _) in H. rewrite M, I in H. assert (IN : incl todo selected) by apply todo_incl.
    destruct (run_todo _ _ _ _ _ _ _ _ _ _ _ _ _ _ _) as [[y f1|f1]|] eqn:RT in H; [|discriminate|discriminate]. cbn [run_bind] in H. injection H as -> <-.
    destruct (todo_to_pass cc TOK refloat E o HE Ho Hdot body b selected SEP HBODY HST show_dur c dur todo HB IN _ _ _ _ _ _ _ _ eq_refl (proj1 (WR _ _ f SP1) HR) RT) as [_ PG].
    intros n Hn. apply WR; [now right; right; left|exact Hn|]. apply WR; [now right; left|exact Hn|]. apply (PG n Hn). left. unfold todo, cases_to_done_and_todo. rewrite HC. exact Hn. }
  assert (P2 : forall n, In n selected -> passes cc refloat E b n g2).
  { intros n Hn. destruct (PG n Hn) as (t & L & R). exists t. destruct (S2 n Hn) as (_ & X & _). unfold snap in *. rewrite X. auto. }
  assert (AR2 : all_ready E o selected g2) by (intros n Hn; now apply S2).
  unfold run_async at 2. set (old3 := of_file _ _ (lookup _ g2)). set (todo3 := snd (cases_to_done_and_todo old3 _ _)). rewrite M, I.
  destruct (todo_passes cc TOK refloat E o HE Ho Hdot body b selected SEP HBODY HST show_dur c3 dur3 todo3 HB3 ltac:(apply todo_incl) OK (kept old3 todo3) answers3
    (write_file (report_file O) (report_text show_dur (kept old3 todo3)) g2)) as (recs3 & g3 & RT3 & ER & _).
  { apply WR; [exact SP1|exact AR2]. }
  { intros n Hn. apply WR; [exact SP1|exact Hn|auto]. }
  fold O in RT3. rewrite RT3. cbn [run_bind]. exists recs3. eexists. split; [exact R2|]. split; [reflexivity|].
  intros HC3 n Hn. rewrite ER. apply in_or_app. right. apply in_map_iff. exists n. split; [reflexivity|]. unfold todo3, cases_to_done_and_todo. rewrite HC3. exact Hn.
Qed.
Print Assumptions C140_killed_then_green_partial.

(** Two tests, accepted with -a. The first run dies while the record of the first test is written; the next one, with -c, runs that
    test again and dies in the second test between the two renames; the third one, with -c, runs what is left. All end OK, and the
    files of the second snapshot are lost. *)
Notation demo_run c sel f :=
  (run_async ascii_class no_float demo_E demo_O demo_O c demo_body (fun _ : unit => lit "7") (fun _ => Some tt) (fun k => N.eqb k SP) (fun _ => tt) demo_two (lit "{}") sel (@nil str) f).
Definition demo_resumed : config := {| always_interactive := false; interactive := false; update := false; accept := true; cont := true; fail_fast := false; point_error_pos := point_error_pos (demo_conf true) |}.
Definition demo_state {A} (x : io A) : fs := match x with Ret _ f => f | Raise f => f end.
Definition demo_case (n : str) (f : fs) : fs := after (run_case ascii_class no_float demo_E demo_O (demo_conf true) demo_body n [] f).
Definition demo_h1 : fs := write_file (report_file demo_O) (lit "t/a" ++ [TAB] ++ lit "O") (demo_case (lit "t/a") (write_file (report_file demo_O) [] demo_f0)).
Definition demo_mid : fs :=
  write_file (report_file demo_O) (report_text (fun _ : unit => lit "7") [(lit "t/a", OK, tt)]) (demo_case (lit "t/a") (write_file (report_file demo_O) [] demo_h1)).
Definition demo_s : state :=
  match run_body ascii_class no_float (lookup (lit "books/t/b.md") demo_mid) true (b_ops (demo_text (lit "t/b"))) with Some s => s | None => start ascii_class None true end.
Definition demo_f2 : fs := case_files demo_O (lit "t/b") (demo_text (lit "t/b")) demo_s (demo_state (case_start demo_E demo_O (lit "t/b") demo_mid)).
Definition demo_f3 : fs := if path_exists (lit "books/t/b") demo_f2 then demo_state (rmtree (lit "books/t/b") demo_f2) else demo_f2.
Definition demo_h2 : fs := demo_state (rename_file (lit "books/.out/t/b.md") (lit "books/t/b.md") demo_f3).
Lemma demo_killings : killings ascii_class no_float demo_E demo_O demo_body (fun _ : unit => lit "7") (fun _ => Some tt) (fun c => N.eqb c SP) demo_two (demo_conf true) demo_f0 [demo_h2; demo_h1] demo_h2.
Proof.
  assert (A1 : alike (demo_conf true) (demo_conf true)) by (repeat split; reflexivity). assert (A2 : alike (demo_conf true) demo_resumed) by (repeat split; reflexivity).
  apply (next_killing _ _ _ _ _ _ _ _ _ _ _ demo_resumed (fun _ => tt) [] [demo_h1] demo_h1); [apply (first_killing _ _ _ _ _ _ _ _ _ _ _ (demo_conf true) (fun _ => tt) []); [exact A1|reflexivity|]|exact A2|].
  - apply died_in_cases. set (old := of_file _ _ _). assert (EO : old = []) by (vm_compute; reflexivity). rewrite EO. change (snd (cases_to_done_and_todo [] _ demo_two)) with demo_two.
    change (kept (@nil (case_rec unit)) demo_two) with (@nil (case_rec unit)). cbn [report_text flat_map]. unfold demo_two. cbn [todo_died]. right.
    exists OK, NONE, [], (demo_case (lit "t/a") (write_file (report_file demo_O) [] demo_f0)). split; [vm_compute; reflexivity|]. cbv zeta. left. exists (lit "t/a" ++ [TAB] ++ lit "O"), (lit "K" ++ [TAB] ++ lit "7" ++ [NL]).
    split; [vm_compute; reflexivity|reflexivity].
  - apply died_in_cases. set (old := of_file _ _ _). assert (EO : old = []) by (vm_compute; reflexivity). rewrite EO.
    assert (ET : snd (cases_to_done_and_todo (@nil (case_rec unit)) (cont demo_resumed) demo_two) = demo_two) by (vm_compute; reflexivity). rewrite ET.
    change (kept (@nil (case_rec unit)) demo_two) with (@nil (case_rec unit)). cbn [report_text flat_map]. unfold demo_two. cbn [todo_died]. right.
    exists OK, NONE, [], (demo_case (lit "t/a") (write_file (report_file demo_O) [] demo_h1)). split; [vm_compute; reflexivity|]. cbv zeta. right.
    cbn [is_abort orb is_ok negb andb fail_fast demo_resumed]. left. change (write_file (report_file demo_O) _ (demo_case _ _)) with demo_mid.
    apply (died_accepting _ _ _ _ _ _ _ _ _ (lookup (lit "books/t/b.md") demo_mid) (demo_state (case_start demo_E demo_O (lit "t/b") demo_mid)) demo_s demo_f2).
    + vm_compute. reflexivity.
    + vm_compute. reflexivity.
    + reflexivity.
    + vm_compute. reflexivity.
    + apply (killed_moving _ _ _ _ demo_f3); vm_compute; reflexivity.
Qed.
Example C140_ex : exists g g2, demo_run (demo_conf true) demo_two demo_f0 = Some (Ret (OK, [(lit "t/a", OK, tt); (lit "t/b", OK, tt)], []) g) /\
  killings ascii_class no_float demo_E demo_O demo_body (fun _ : unit => lit "7") (fun _ => Some tt) (fun c => N.eqb c SP) demo_two (demo_conf true) demo_f0 [demo_h2; demo_h1] demo_h2 /\
  demo_run demo_resumed demo_two demo_h2 = Some (Ret (OK, [(lit "t/a", OK, tt); (lit "t/b", OK, tt)], []) g2) /\
  lookup (lit "books/t/b.md") g2 = lookup (lit "books/t/b.md") g /\ lookup (lit "books/t/b.md") g <> lookup (lit "books/t/b.md") demo_f0 /\
  lookup (lit "books/t/a/data.json") g2 = lookup (lit "books/t/a/data.json") g.
Proof.
  exists (after (demo_run (demo_conf true) demo_two demo_f0)), (after (demo_run demo_resumed demo_two demo_h2)). split; [vm_compute; reflexivity|]. split; [exact demo_killings|].
  split; [vm_compute; reflexivity|]. split; [vm_compute; reflexivity|]. split; [vm_compute; discriminate|vm_compute; reflexivity].
Qed.

(** What is not true: that the files of the snapshots are those of the run without accidents. *)
Theorem C140_accept_run_killed_refuted :
  exists cc refloat E o c body b (D : Type) (show_dur : D -> str) parse_dur sp dur all_names metrics selected f recs g hs h,
  let O := E ++ SLASH :: o in
  TokClassOK cc /\ plain_dir E /\ plain o /\ starts_with [DOT] o = true /\ batch c /\ cont c = false /\ durations_ok show_dur parse_dur /\ space_ok sp /\
  separate selected /\ NoDup selected /\ (forall n, In n selected -> field_ok n) /\ (forall n h, In n selected -> body n h = b n) /\ (forall n, In n selected -> steady cc (b n)) /\
  (forall n, In n selected -> ready E O n f) /\
  run_async cc refloat E O O c body show_dur parse_dur sp dur all_names metrics selected [] f = Some (Ret (OK, recs, []) g) /\
  killings cc refloat E O body show_dur parse_dur sp selected c f hs h /\
  exists c2 recs2 g2 n r, alike c c2 /\ run_async cc refloat E O O c2 body show_dur parse_dur sp dur all_names metrics selected [] h = Some (Ret (OK, recs2, []) g2) /\
    In n selected /\ lookup (E ++ SLASH :: n ++ SLASH :: r) g <> None /\ lookup (E ++ SLASH :: n ++ SLASH :: r) g2 = None.
Proof.
  exists ascii_class, no_float, demo_E, demo_o, (demo_conf true), demo_body, demo_text, unit, (fun _ : unit => lit "7"), (fun _ => Some tt), (fun c => N.eqb c SP), (fun _ => tt), demo_two, (lit "{}"), demo_two, demo_f0.
  exists [(lit "t/a", OK, tt); (lit "t/b", OK, tt)], (after (demo_run (demo_conf true) demo_two demo_f0)), [demo_h2; demo_h1], demo_h2. cbv zeta.
  split; [exact ascii_TokClassOK|]. split; [exact (proj1 demo_dirs)|]. split; [exact (proj1 (proj2 demo_dirs))|]. split; [reflexivity|]. split; [split; reflexivity|]. split; [reflexivity|].
  split; [exact demo_durations|]. split; [exact demo_space|]. split; [exact demo_separate|].
  split; [repeat constructor; cbn [In]; intros X; repeat destruct X as [X|X]; try discriminate X; exact X|].
  split; [intros n Hn; now apply demo_fresh|]. split; [reflexivity|]. split; [exact demo_steady|].
  split; [intros n [<-|[<-|[]]]; apply readyb_ok; vm_compute; reflexivity|]. split; [vm_compute; reflexivity|]. split; [exact demo_killings|].
  exists demo_resumed, [(lit "t/a", OK, tt); (lit "t/b", OK, tt)], (after (demo_run demo_resumed demo_two demo_h2)), (lit "t/b"), (lit "data.json").
  split; [repeat split; reflexivity|]. split; [vm_compute; reflexivity|]. split; [right; now left|]. split; [vm_compute; discriminate|vm_compute; reflexivity].
Qed.
Print Assumptions C140_accept_run_killed_refuted.
