(** The files of a parallel run that is killed. *)
From Verif Require Import PyStrFacts RunCaseProps ReportsProofs RunnerProofs.
From Verif Require Export ParAskProofs ParKillModel.
From Verif Require Import ParProps ParResumeProofs KillProofs.

(** ** What a process may have changed when it is cut *)
Inductive only {A} (W : str -> Prop) : proc A -> Prop :=
| OHalt o : only W (Halt o)
| OAct s : (forall f p, ~ W p -> lookup p (fst (s f)) = lookup p f) -> (forall f, only W (snd (s f))) -> only W (Act s).

Lemma only_bind {A B} W (p : proc A) (k : A -> proc B) : only W p -> (forall a, only W (k a)) -> only W (pbind p k).
Proof.
  intros H K. induction H as [[a| |]|s H1 _ IH]; cbn [pbind]; try constructor; auto.
  - intros f p N. specialize (H1 f p N). destruct (s f) as [g q]. exact H1.
  - intros f. specialize (IH f). destruct (s f) as [g q]. exact IH.
Qed.
Lemma only_prim {A} (W : str -> Prop) (op : fs -> io A) : (forall f p, ~ W p -> lookup p (fs_end (op f)) = lookup p f) -> only W (prim op).
Proof. intros H. constructor; intros f; [intros p N; specialize (H f p N); destruct (op f); exact H|destruct (op f); constructor]. Qed.
Lemma only_reading {A} W (r : fs -> A) : only W (reading r).
Proof. apply only_prim. reflexivity. Qed.
Lemma only_writing (W : str -> Prop) p t : W p -> only W (writing p t).
Proof. intros H. apply only_prim. intros f q N. cbn [fs_end]. rewrite lookup_write. destruct (str_eqb_spec p q) as [<-|_]; [contradiction|reflexivity]. Qed.
Lemma only_below (W : str -> Prop) d files : (forall p, below d p = true -> W p) -> only W (writing_below d files).
Proof.
  intros H. induction files as [|[r t] files IH]; cbn [writing_below]; [constructor|]. apply only_bind; [|auto]. apply only_writing. apply H. apply below_iff. now exists r.
Qed.
Lemma only_purge (W : str -> Prop) d : (forall p, below d p = true -> W p) -> only W (prim (purge d)).
Proof.
  intros H. apply only_prim. intros f p N. unfold purge. destruct (path_exists d f); [|reflexivity]. unfold rmtree. destruct (is_dir d f); [|reflexivity]. cbn [fs_end]. rewrite lookup_purged.
  destruct (below d p) eqn:B; [|reflexivity]. exfalso. apply N. now apply H.
Qed.
Lemma only_open (W : str -> Prop) p : W p -> only W (prim (open_w p)).
Proof.
  intros H. apply only_prim. intros f q N. unfold open_w. destruct (is_dir p f); [reflexivity|]. cbn [fs_end]. rewrite lookup_write. destruct (str_eqb_spec p q) as [<-|_]; [contradiction|reflexivity].
Qed.
Lemma only_when W b p : only W p -> only W (when b p).
Proof. intros H. destruct b; [exact H|constructor]. Qed.
Lemma only_part {A} W (p : proc A) f q g : only W p -> part f p q g -> only W q /\ forall x, ~ W x -> lookup x g = lookup x f.
Proof.
  intros L H. induction H as [|s g H (L1 & H1)]; [auto|]. inversion L1 as [|s' K1 K2 EQ]. subst s'. split; [apply K2|]. intros x N. rewrite K1 by exact N. now apply H1.
Qed.
Lemma only_solo {A} W (p : proc A) : only W p -> forall f x, ~ W x -> lookup x (fst (solo p f)) = lookup x f.
Proof.
  intros H. induction H as [o|s H1 _ IH]; intros f x N; cbn [solo]; [reflexivity|]. specialize (IH f). specialize (H1 f x N). destruct (s f) as [g q]. cbn [fst snd] in *. rewrite IH by exact N. exact H1.
Qed.

(** [b] stays while the process is under way, when it ends with FAIL *)
Definition spares (b : str) (p : proc result) : Prop := forall f q g, part f p q g -> snd (solo p f) = Value FAIL -> lookup b g = lookup b f.
Lemma spares_bind {A} b W (p : proc A) (k : A -> proc result) : only W p -> ~ W b -> (forall a, spares b (k a)) -> spares b (pbind p k).
Proof.
  intros O N K f q g H R. rewrite solo_bind in R. apply part_bind in H as [(q' & H & _)|(a & h & H1 & H2)].
  - now apply (only_part W p f q' g O H).
  - rewrite H1 in R. rewrite (K a h q g H2 R). pose proof (only_solo W p O f b N) as X. rewrite H1 in X. exact X.
Qed.
Lemma spares_then b W (p : proc result) (k : result -> proc result) : spares b p -> (forall a, only W (k a)) -> ~ W b ->
  (forall a f v, snd (solo (k a) f) = Value v -> v = a) -> spares b (pbind p k).
Proof.
  intros S K N V f q g H R. rewrite solo_bind in R. destruct (solo p f) as [h [a| |]] eqn:EP; try discriminate R. apply V in R as <-.
  apply part_bind in H as [(q' & H & _)|(a & h' & H1 & H2)].
  - apply (S f q' g H). now rewrite EP.
  - rewrite EP in H1. injection H1 as <- <-. destruct (only_part W _ _ _ _ (K FAIL) H2) as [_ X]. rewrite X by exact N.
    assert (Y : exists q', part f p q' h).
    { clear -EP. revert f h EP. assert (G : forall (r : proc result) f0 g0, part f0 p r g0 -> forall h v, solo r g0 = (h, v) -> exists q', part f0 p q' h).
      { induction r as [o|s IH] using proc_ind2; intros f0 g0 H h v E; cbn [solo] in E; [injection E as <- _; eauto|]. pose proof (part_more f0 p s g0 H) as H'. specialize (IH g0 f0 (fst (s g0)) H' h v). destruct (s g0) as [g1 r1]. auto. }
      intros f h E. apply (G p f f (part_none f p) h _ E). }
    destruct Y as [q' Y]. apply (S f q' h Y). now rewrite EP.
Qed.

(** ** Processes under way *)
Section Began.
Context {A : Type}.
Variable todo : list str.
Variable deps : str -> list str.
Variable init : str -> proc A.
Variables own reads writes : str -> str -> Prop.
Hypothesis NDT : NoDup todo.
Hypothesis ORD : forall a n b, todo = a ++ n :: b -> forall d, In d (deps n) -> In d todo -> In d a.
Hypothesis INIT : forall n, In n todo -> exists s, init n = Act s.
Hypothesis LOC : forall n, In n todo -> local (reads n) (writes n) (init n).
Hypothesis OWN : forall n p, In n todo -> own n p -> reads n p.
Hypothesis SEP : forall n m p, In n todo -> In m todo -> n <> m -> writes n p -> own m p -> False.
Hypothesis READS : forall n p, In n todo -> reads n p ->
  own n p \/ (exists d, In d (deps n) /\ In d todo /\ d <> n /\ own d p) \/ (forall m, In m todo -> ~ writes m p).
Variable f0 : fs.
Notation inv := (inv todo deps init own reads writes f0).
Notation outs := (outs todo init f0).

Definition began (st : str -> proc A) (f : fs) (n : str) : Prop :=
  (forall d, In d (deps n) -> In d todo -> ended (st d)) /\
  exists g h, part g (init n) (st n) h /\ agree (reads n) f h /\ agree (own n) g f0 /\ In (n, snd (solo (init n) g)) outs.
Definition under_way (st : str -> proc A) (f : fs) : Prop := inv st f /\ forall n, In n todo -> waiting init own f0 st f n \/ began st f n.

Lemma step_under_way st f st' f' : under_way st f -> pstep todo deps (st, f) (st', f') -> under_way st' f'.
Proof.
  intros [I U] H. split; [exact (step_inv todo deps init own reads writes NDT ORD INIT LOC OWN SEP READS f0 st f st' f' I H)|].
  remember (st, f) as x eqn:EX. remember (st', f') as y eqn:EY. destruct H as [st1 f1 n s Hn Es D]. injection EX as -> ->. injection EY as <- <-.
  pose proof (start_going todo deps init own reads writes NDT ORD INIT LOC OWN SEP READS f0 st f n I Hn D) as (_ & GN1 & _).
  destruct (proj1 I n Hn) as [LN _]. rewrite Es in LN. inversion LN as [|s' L1 L2 L3 EQ]. subst s'.
  assert (SAME : forall m, In m todo -> m <> n -> agree (own m) (fst (s f)) f).
  { intros m Hm NE p O. apply L1. intros Wn. exact (SEP n m p Hn Hm (not_eq_sym NE) Wn O). }
  assert (EK : forall d, ended (st d) -> ended (set_proc st n (snd (s f)) d)).
  { intros d [o E]. unfold set_proc. destruct (str_eqb_spec n d) as [<-|_]; [congruence|now exists o]. }
  intros m Hm. destruct (list_eq_dec N.eq_dec m n) as [->|NE].
  - right. split; [intros d Hd Td; apply EK; auto|]. unfold set_proc. rewrite str_eqb_refl. destruct (U n Hn) as [[W AG]|(_ & g & h & P & RA & OA & IO)].
    + exists f, (fst (s f)). rewrite <- W. rewrite Es at 1. split; [apply part_more, part_none|]. split; [apply agree_refl|]. split; [exact AG|exact GN1].
    + destruct (L2 f h RA) as [X1 X2]. exists g, (fst (s h)). rewrite Es in P. split; [rewrite X1; now apply part_more|]. split; [exact X2|]. split; [exact OA|exact IO].
  - assert (SM : set_proc st n (snd (s f)) m = st m) by (unfold set_proc; destruct (str_eqb_spec n m) as [->|_]; [easy|reflexivity]).
    destruct (U m Hm) as [[W AG]|(D' & g & h & P & RA & OA & IO)].
    + left. split; [now rewrite SM|]. apply agree_trans with f; [now apply SAME|exact AG].
    + right. split; [intros d Hd Td; apply EK; auto|]. exists g, h. rewrite SM. split; [exact P|]. split; [|split; [exact OA|exact IO]]. apply agree_trans with f; [|exact RA].
      intros p Rp. destruct (READS m p Hm Rp) as [O|[(d & Hd & Td & Ed & O)|NW]].
      * now apply (SAME m Hm NE).
      * destruct (list_eq_dec N.eq_dec d n) as [->|ND]; [|now apply (SAME d Td ND)]. destruct (D' n Hd Td) as [o Eo]. congruence.
      * apply L1. now apply NW.
Qed.
Lemma all_under_way st f : psteps todo deps (init, f0) (st, f) -> under_way st f.
Proof.
  intros H. assert (G : forall x y, psteps todo deps x y -> under_way (fst x) (snd x) -> under_way (fst y) (snd y)).
  { clear H. intros x y H I. induction H as [|x y z H IH P]; [exact I|]. specialize (IH I). destruct y as [s1 f1], z as [s2 f2]. exact (step_under_way s1 f1 s2 f2 IH P). }
  apply (G _ _ H). cbn [fst snd]. split; [split; [|reflexivity]|]; intros n Hn; [split; [now apply LOC|]|]; left; (split; [reflexivity|apply agree_refl]).
Qed.
(** what is true of every test of a run that is cut *)
Lemma cut_machine st f : psteps todo deps (init, f0) (st, f) ->
  (forall n, In n todo -> ended (st n) -> exists o, st n = Halt o /\ In (n, o) outs /\ agree (own n) f (last_fs todo init f0)) /\
  (forall n, In n todo -> ~ ended (st n) -> (forall d, In d (deps n) -> In d todo -> ended (st d)) -> In (n, snd (solo (st n) f)) outs) /\
  (forall n, In n todo -> ~ ended (st n) -> agree (own n) f f0 \/
     exists g q h, part g (init n) q h /\ agree (own n) f h /\ agree (own n) g f0 /\ In (n, snd (solo (init n) g)) outs) /\
  (forall p, (forall m, In m todo -> ~ writes m p) -> lookup p f = lookup p f0).
Proof.
  intros H. destruct (all_under_way st f H) as [I U]. split; [|split; [|split; [|apply I]]].
  - intros n Hn EN. pose proof (ended_agree todo deps init own reads writes INIT f0 st f n I Hn EN) as AG. destruct EN as [o Eo]. exists o. split; [exact Eo|]. split; [|exact AG].
    destruct (proj1 I n Hn) as [_ [[W _]|(_ & G & _)]]; [|now rewrite Eo in G]. destruct (INIT n Hn) as [s S]. rewrite W, S in Eo. discriminate.
  - intros n Hn _ D. now destruct (start_going todo deps init own reads writes NDT ORD INIT LOC OWN SEP READS f0 st f n I Hn D) as (_ & X & _).
  - intros n Hn _. destruct (U n Hn) as [[_ AG]|(_ & g & h & P & RA & OA & IO)]; [now left|]. right. exists g, (st n), h. split; [exact P|]. split; [|auto].
    apply (agree_sub _ (reads n)); [|exact RA]. intros p. now apply OWN.
Qed.
End Began.

(** ** The workers of runs without -u and -a *)
Section Workers.
Variable cc : CharClass.
Variable refloat : str -> option str.
Variables (E o : str).
Hypothesis HE : plain_dir E.
Hypothesis Ho : plain o.
Hypothesis Hdot : starts_with [DOT] o = true.
Notation O := (E ++ SLASH :: o).
Variable c : config.
Hypothesis HU : update c = false.
Hypothesis HA : accept c = false.
Variable body : str -> fs -> body_run.
Context {D : Type} (show_dur : D -> str) (parse_dur : str -> option D) (sp : char -> bool).
Variable dur : str -> D.
Variable all_names : list str.
Variables printed metrics_of : str -> str.
Variable names : list str.
Hypothesis SEP : separate names.
Hypothesis NOUT : ~ In (lit "output") names.
Notation bin d := (O ++ SLASH :: d ++ lit ".bin").
Notation worker := (worker cc refloat E O c body show_dur parse_dur sp dur all_names printed metrics_of).
Notation calm n := (fun p => scratch E o n p \/ booked E o p).

Lemma scratch_bin n : ~ scratch E o n (bin n).
Proof.
  intros [B|[B|Y]].
  - apply below_iff in B as [r X]. rewrite in_case, !at_case in X. apply app_inv_head in X. discriminate X.
  - apply below_iff in B as [r X]. rewrite in_case, !at_case in X. apply app_inv_head in X. discriminate X.
  - cbn [In] in Y. rewrite !at_case in Y. destruct Y as [Y|[Y|[Y|[]]]]; apply app_inv_head in Y; discriminate Y.
Qed.
Lemma calm_bin n : In n names -> ~ calm n (bin n).
Proof. intros Hn [X|X]; [now apply scratch_bin in X|]. apply (no_nb E o Hdot names SEP NOUT n (bin n) Hn); [apply bin_own|exact X]. Qed.
Lemma no_review e d n r : review_proc (job_config c) e d n r = Halt (Value r).
Proof. unfold review_proc. cbn [job_config update accept]. rewrite HU, HA, !andb_false_r. reflexivity. Qed.
Lemma ow_start n : In n names -> only (calm n) (start_proc E O n).
Proof.
  intros Hn. pose proof (proj1 (named names SEP n Hn)) as P. unfold start_proc. cbv zeta. rewrite !case_path_eq by (exact P || assumption || now apply HO).
  apply only_bind; [apply only_reading|]. intros ex. apply only_bind; [apply only_purge; intros p B; left; now left|]. intros _.
  apply only_bind; [apply only_purge; intros p B; left; right; now left|]. intros _.
  do 3 (apply only_bind; [apply only_open; left; right; right; cbn [In]; tauto|]; intros _).
  destruct ex; [|constructor]. apply only_prim. intros f p _. now destruct (lookup _ f).
Qed.
Lemma ow_files n b s : In n names -> only (calm n) (files_proc O n b s).
Proof.
  intros Hn. pose proof (proj1 (named names SEP n Hn)) as P. unfold files_proc. rewrite !case_path_eq by (exact P || assumption || now apply HO).
  apply only_bind; [apply only_below; intros p B; left; now left|]. intros _. apply only_bind; [apply only_below; intros p B; left; right; now left|]. intros _.
  do 2 (apply only_bind; [apply only_writing; left; right; right; cbn [In]; tauto|]; intros _). apply only_writing; left; right; right; cbn [In]; tauto.
Qed.
Lemma ow_save (W : str -> Prop) n v : In n names -> W (bin n) -> only W (save_proc O n v).
Proof.
  intros Hn B. unfold save_proc. cbv zeta. rewrite (bin_path E o HE Ho n (named names SEP n Hn)). destruct v as [x|].
  - apply only_prim. intros f q N. destruct (is_dir _ f); [reflexivity|]. cbn [fs_end]. rewrite lookup_write. destruct (str_eqb_spec (bin n) q) as [<-|_]; [contradiction|reflexivity].
  - apply only_bind; [apply only_reading|]. intros old. apply only_when, only_prim. intros f q N. destruct (is_file _ f); [|reflexivity]. cbn [fs_end]. rewrite lookup_remove.
    destruct (str_eqb_spec (bin n) q) as [<-|_]; [contradiction|reflexivity].
Qed.
Lemma only_more {A} (W W' : str -> Prop) (p : proc A) : (forall x, W x -> W' x) -> only W p -> only W' p.
Proof. intros I H. induction H as [|s H1 _ IH]; constructor; auto. Qed.
Lemma ow_case n : In n names -> only (fun p => calm n p \/ p = bin n) (case_proc cc refloat E O (job_config c) body n).
Proof.
  intros Hn. unfold case_proc. apply only_bind; [apply (only_more (calm n)); [now left|now apply ow_start]|]. intros snap. apply only_bind; [apply only_reading|]. intros b.
  destruct (run_body _ _ _ _ _) as [s|]; [|constructor]. apply only_bind; [apply (only_more (calm n)); [now left|now apply ow_files]|]. intros _. apply only_bind; [apply only_reading|]. intros there.
  rewrite no_review. cbn [pbind]. apply only_bind; [|constructor]. apply only_when. apply ow_save; [exact Hn|now right].
Qed.
Lemma spares_case n : In n names -> spares (bin n) (case_proc cc refloat E O (job_config c) body n).
Proof.
  intros Hn. pose proof (calm_bin n Hn) as NB. unfold case_proc. apply (spares_bind _ (calm n)); [now apply ow_start|exact NB|]. intros snap.
  apply (spares_bind _ (calm n)); [apply only_reading|exact NB|]. intros b. destruct (run_body _ _ _ _ _) as [s|].
  2:{ intros f q g _ R. discriminate R. }
  apply (spares_bind _ (calm n)); [now apply ow_files|exact NB|]. intros _. apply (spares_bind _ (calm n)); [apply only_reading|exact NB|]. intros there.
  rewrite no_review. cbn [pbind]. intros f q g H R. rewrite solo_bind in R. destruct (solo _ f) as [h [u| |]]; cbn [solo snd] in R; try discriminate R. injection R as R. rewrite R in H. cbn [is_fail negb when pbind] in H.
  apply part_halt in H as [_ ->]. reflexivity.
Qed.
Lemma booked_output n : n <> [] -> booked E o (output_file O n) /\ booked E o (SchedModel.case_report_file (batches_dir O) n).
Proof. intros NE. rewrite (output_eq E o HE Ho n NE), (report_eq E o HE Ho n NE). split; apply (booked_bdir E o n), in_bdir. Qed.
Lemma ow_rest n recs res : In n names -> only (booked E o)
  (_ <- writing (SchedModel.case_report_file (batches_dir O) n) recs;; _ <- writing (path_join O (lit "metrics.json")) (metrics_of n);;
   _ <- writing (path_join E (lit "index.md")) (index_text all_names);; _ <- writing (output_file O n) (printed n);; Halt (Value (A := result) res)).
Proof.
  intros Hn. destruct (booked_output n) as [B1 B2]; [apply proper_nonempty; now apply (named names SEP)|].
  apply only_bind; [now apply only_writing|]. intros _. apply only_bind; [apply only_writing; rewrite metrics_eq by assumption; apply booked_metrics|]. intros _.
  apply only_bind; [apply only_writing; rewrite index_eq by assumption; apply booked_index|]. intros _. apply only_bind; [now apply only_writing|]. constructor.
Qed.
Lemma ow_worker n : In n names -> only (fun p => calm n p \/ p = bin n) (worker n).
Proof.
  intros Hn. destruct (booked_output n) as [B1 B2]; [apply proper_nonempty; now apply (named names SEP)|]. unfold ParModel.worker. cbv zeta.
  apply only_bind; [apply only_open; left; now right|]. intros _. apply only_bind; [apply only_reading|]. intros old. apply only_bind; [apply only_writing; left; now right|]. intros _.
  apply only_bind; [now apply ow_case|]. intros res. apply (only_more (booked E o)); [intros x Hx; left; now right|]. now apply ow_rest.
Qed.
Lemma spares_worker n : In n names -> spares (bin n) (worker n).
Proof.
  intros Hn. pose proof (calm_bin n Hn) as NB. destruct (booked_output n) as [B1 B2]; [apply proper_nonempty; now apply (named names SEP)|]. unfold ParModel.worker. cbv zeta.
  apply (spares_bind _ (calm n)); [apply only_open; now right|exact NB|]. intros _. apply (spares_bind _ (calm n)); [apply only_reading|exact NB|]. intros old.
  apply (spares_bind _ (calm n)); [apply only_writing; now right|exact NB|]. intros _. apply (spares_then _ (booked E o)); [now apply spares_case|intros a; now apply ow_rest|intros X; apply NB; now right|].
  intros a f v R. rewrite !solo_bind, !solo_writing in R. cbn [solo] in R. rewrite solo_bind, solo_writing, solo_bind, solo_writing, solo_bind, solo_writing in R. cbn [solo snd] in R. now injection R.
Qed.
End Workers.
