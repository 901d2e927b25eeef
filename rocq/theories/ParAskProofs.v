(** The main thread of a parallel run and its workers do not see each other: what they do together is what the workers do alone,
    followed by the reviews. *)
From Verif Require Import PyStrFacts.
From Coq Require Import Lia Wf_nat.
From Verif Require Export ParAskModel ParProofs CrashModel.

Lemma NoDup_rev_1 {A} (l : list A) : NoDup (rev l) -> NoDup l.
Proof. intros H. rewrite <- (rev_involutive l). now apply NoDup_rev. Qed.

(** A review: the case, the answers it found, and how it ended. *)
Definition past := (str * list str * (result * request * list str))%type.
Definition p_name (h : past) : str := fst (fst h).
Definition p_res (h : past) : result := fst (fst (snd h)).
Definition p_req (h : past) : request := snd (fst (snd h)).
Definition p_stops (c : config) (h : past) : bool := is_abort (p_req h) || (fail_fast c && negb (is_ok (p_res h))).
(** every review finds the answers that the last one left *)
Fixpoint chain (answers : list str) (hist : list past) (rest : list str) : Prop :=
  match hist with
  | [] => rest = answers
  | (_, a, (_, _, b)) :: hist' => a = answers /\ chain b hist' rest
  end.
Lemma chain_app answers hist n rest v : chain answers hist rest -> chain answers (hist ++ [(n, rest, v)]) (snd v).
Proof.
  revert answers. induction hist as [|[[m a] [[r q] b]] hist IH]; intros answers H; cbn [chain app] in *.
  - subst rest. destruct v as [[r q] b]. now split.
  - destruct H as [-> H]. split; [reflexivity|]. now apply IH.
Qed.

(** [p], begun on [f], has come to [g] and still has to do [q] *)
Inductive part {A} (f : fs) (p : proc A) : proc A -> fs -> Prop :=
| part_none : part f p p f
| part_more s g : part f p (Act s) g -> part f p (snd (s g)) (fst (s g)).
Lemma part_local {A} R W (p : proc A) f f' q g : local R W p -> agree R f f' -> part f p q g -> local R W q /\ exists g', part f' p q g' /\ agree R g g'.
Proof.
  intros L AG H. induction H as [|s g H (L1 & g' & H1 & H2)]; [split; [exact L|]; exists f'; split; [constructor|exact AG]|].
  inversion L1 as [|s' K1 K2 K3 EQ]. subst s'. split; [apply K3|]. destruct (K2 g g' H2) as [X1 X2]. exists (fst (s g')). split; [|exact X2]. rewrite X1. now constructor.
Qed.
Lemma part_solo {A} (p : proc A) f q g : part f p q g -> solo q g = solo p f.
Proof. intros H. induction H as [|s g H IH]; [reflexivity|]. rewrite <- IH. cbn [solo]. destruct (s g) as [h r]. reflexivity. Qed.
Lemma part_bind {A B} (p : proc A) (k : A -> proc B) f q g : part f (pbind p k) q g ->
  (exists q', part f p q' g /\ q = pbind q' k) \/ exists a h, solo p f = (h, Value a) /\ part h (k a) q g.
Proof.
  intros H. remember (pbind p k) as P eqn:EP. induction H as [|s g H IH]; [left; exists p; split; [constructor|exact EP]|]. destruct IH as [(q' & H1 & H2)|(a & h & H1 & H2)].
  - destruct q' as [[a| |]|s0]; cbn [pbind] in H2; try discriminate H2.
    + right. exists a, g. split; [rewrite <- (part_solo p f _ g H1); reflexivity|]. apply part_more. rewrite H2. constructor.
    + left. injection H2 as ->. exists (snd (s0 g)). pose proof (part_more f p s0 g H1) as X. destruct (s0 g) as [h r]. cbn [fst snd] in *. auto.
  - right. exists a, h. split; [exact H1|]. now constructor.
Qed.
Lemma part_prim {A} (op : fs -> io A) f q g : part f (prim op) q g -> g = f \/ g = fst (solo_io (op f)).
Proof.
  intros H. remember (prim op) as P eqn:EP. assert (X : (q = prim op /\ g = f) \/ ((forall s, q <> Act s) /\ g = fst (solo_io (op f)))).
  { induction H as [|s g H IH]; [left; auto|]. right. destruct IH as [[X1 ->]|[X1 _]]; [|now elim (X1 s)]. injection X1 as ->. destruct (op f); cbn [solo_io fst snd]; split; auto; intros; discriminate. }
  destruct X as [[_ X]|[_ X]]; auto.
Qed.

Lemma part_halt {A} (o : outcome A) f q g : part f (Halt o) q g -> q = Halt o /\ g = f.
Proof. intros H. induction H as [|s g H [X _]]; [auto|discriminate X]. Qed.

(** the states of freeze_case in between *)
Lemma freeze_part e d n f q g : part f (freeze_proc e d n) q g -> freeze_killed e d n f g.
Proof.
  unfold freeze_proc. cbv zeta. intros H.
  assert (MOVE : forall f1 q g, (if path_exists (path_join e n) f then rmtree (path_join e n) f else Ret tt f) = Ret tt f1 -> freeze_killed e d n f f1 ->
    part f1 (_ <- prim (rename_file (path_join d (n ++ lit ".md")) (path_join e (n ++ lit ".md")));; new <- reading (path_exists (path_join d n));; when new (prim (rename_path (path_join d n) (path_join e n)))) q g -> freeze_killed e d n f g).
  { clear. intros f1 q g R K H. apply part_bind in H as [(q' & H & _)|(u & f2 & R2 & H)].
    - apply part_prim in H as [->| ->]; [exact K|]. destruct (rename_file _ _ f1) as [[] f2|f2] eqn:RF; cbn [solo_io fst].
      + now apply (killed_moving e d n f f1 f2).
      + assert (f2 = f1) as -> by (unfold rename_file in RF; destruct (lookup _ f1); [destruct (is_dir _ f1)|]; congruence). exact K.
    - rewrite solo_prim in R2. destruct (rename_file _ _ f1) as [[] f3|f3] eqn:RF; cbn [solo_io] in R2; [injection R2 as -> _|discriminate R2].
      assert (K2 : freeze_killed e d n f f2) by now apply (killed_moving e d n f f1 f2).
      apply part_bind in H as [(q' & H & _)|(new & f3 & R3 & H)].
      + apply part_prim in H as [->|H]; [exact K2|]. cbn [solo_io fst] in H. now subst g.
      + rewrite solo_reading in R3. injection R3 as <- <-. destruct (path_exists (path_join d n) f2) eqn:X; cbn [when] in H.
        * apply part_prim in H as [->| ->]; [exact K2|]. destruct (rename_path (path_join d n) (path_join e n) f2) as [[] f4|f4] eqn:RP; cbn [solo_io fst].
          -- apply killed_after. unfold freeze_case. cbv zeta. rewrite R. cbn [io_bind]. rewrite RF. cbn [io_bind]. now rewrite X.
          -- assert (f4 = f2) as ->; [|exact K2]. unfold rename_path, rename_file in RP. destruct (is_file _ f2); [destruct (lookup _ f2); [destruct (is_dir _ f2)|]|destruct (_ || _)]; congruence.
        * apply part_halt in H as [_ ->]. exact K2. }
  apply part_bind in H as [(q' & H & _)|(old & f1 & R & H)].
  - apply part_prim in H as [->|H]; [constructor|]. cbn [solo_io fst] in H. subst g. constructor.
  - rewrite solo_reading in R. injection R as <- <-. apply part_bind in H as [(q' & H & _)|(u & f1 & R & H)].
    + destruct (path_exists (path_join e n) f) eqn:X; cbn [when] in H; [|apply part_halt in H as [_ ->]; constructor].
      apply part_prim in H as [->| ->]; [constructor|]. unfold rmtree. destruct (is_dir _ f) eqn:DI; cbn [solo_io fst]; [|constructor].
      replace (filter _ f) with (filter (fun x => negb (below (path_join e n) (fst x)) || (fun _ : str => false) (fst x)) f) by (apply filter_ext; intros x; apply orb_false_r). exact (killed_removing e d n f (fun _ => false) DI).
    + assert (RR : (if path_exists (path_join e n) f then rmtree (path_join e n) f else Ret tt f) = Ret tt f1).
      { destruct (path_exists (path_join e n) f); cbn [when] in R; [|cbn [solo] in R; now injection R as ->]. rewrite solo_prim in R. destruct (rmtree _ f) as [[] f2|f2]; cbn [solo_io] in R; [now injection R as ->|discriminate R]. }
      apply (MOVE f1 q g RR); [|exact H]. destruct (path_exists (path_join e n) f); [|injection RR as <-; constructor].
      unfold rmtree in RR. destruct (is_dir _ f) eqn:DI; [|discriminate RR]. injection RR as <-.
      replace (filter _ f) with (filter (fun x => negb (below (path_join e n) (fst x)) || (fun _ : str => false) (fst x)) f) by (apply filter_ext; intros x; apply orb_false_r). exact (killed_removing e d n f (fun _ => false) DI).
Qed.

Section Sim.
Context {D : Type} (parse_dur : str -> option D) (sp : char -> bool).
Variables exp_dir out_dir : str.
Variable c : config.
Variable all_names : list str.
Variable par_metrics : str.
Variable todo : list str.
Variable deps : str -> list str.
Variable W : str -> proc result.
Variable f0 : fs.
Variables own reads writes rw : str -> str -> Prop.
Variable loose : str -> Prop.
Variable res : str -> result.
Variable dur : str -> D.
Notation ask := (ask_proc exp_dir out_dir c).
Notation step := (ask_step exp_dir out_dir c parse_dur sp all_names par_metrics deps todo).
Notation steps := (ask_steps exp_dir out_dir c parse_dur sp all_names par_metrics deps todo).
Notation run := (psteps todo deps (W, f0)).
Hypothesis LOC : forall st fw n, run (st, fw) -> In n todo -> local (reads n) (writes n) (st n).
Hypothesis OWN : forall n p, In n todo -> own n p -> reads n p.
Hypothesis OWND : forall n p, In n todo -> own n p \/ ~ own n p.
Hypothesis WOWN : forall n p, In n todo -> writes n p -> own n p \/ loose p.
Hypothesis SEPO : forall n m p, In n todo -> In m todo -> own n p -> own m p -> n = m.
Hypothesis LO : forall n p, In n todo -> loose p -> ~ own n p.
Hypothesis RWO : forall n p, In n todo -> rw n p -> own n p.
Hypothesis RWR : forall n m p, In n todo -> In m todo -> n <> m -> rw n p -> reads m p -> False.
Hypothesis LR : forall n p, In n todo -> loose p -> ~ reads n p.
Hypothesis ASK : forall n r a, In n todo -> local (own n) (rw n) (ask n r a).
Hypothesis REC : forall st fw f n r, run (st, fw) -> In n todo -> ended (st n) -> (forall p, own n p -> ~ rw n p -> lookup p f = lookup p fw) ->
  batch_record out_dir parse_dur sp n f = Some r -> r = (n, res n, dur n).
Hypothesis FILES : forall f p, ~ loose p -> lookup p (ask_files exp_dir out_dir all_names par_metrics todo f) = lookup p f.
Variable answers0 : list str.

Definition recs_of (hist : list past) : list (case_rec D) := map (fun h => (p_name h, p_res h, dur (p_name h))) hist.
Definition cur_name (cur : option (str * list str)) : list str := match cur with Some (n, _) => [n] | None => [] end.

Record sim (y : ask_state) (hist : list past) (cur : option (str * list str)) (fw : fs) : Prop := {
  s_run : run (k_st y, fw);
  s_sched : incl (k_sched y) todo;
  s_wait : forall n, ~ In n (k_sched y) -> k_st y n = W n;
  s_idle : forall n, In n todo -> ~ In n (k_sched y) -> agree (own n) fw f0;
  s_deps : forall n d, In n (k_sched y) -> In d (deps n) -> In d todo -> ended (k_st y d);
  s_seen : forall n, In n (k_seen y) -> In n (k_sched y) /\ ended (k_st y n);
  s_names : NoDup (map p_name hist ++ cur_name cur ++ map rec_name (k_reports y));
  s_in : forall n, In n (map p_name hist ++ cur_name cur ++ map rec_name (k_reports y)) <-> In n (k_seen y);
  s_reports : forall r, In r (k_reports y) -> r = (rec_name r, res (rec_name r), dur (rec_name r));
  s_now : match k_cut y, cur with
          | None, None => k_now y = None
          | None, Some (n, a) => exists q, k_now y = Some ((n, res n, dur n), q) /\ k_end y = None /\ k_stop y = false /\ local (own n) (rw n) q /\
              snd (solo q (k_fs y)) = snd (solo (ask n (res n) a) fw) /\ agree (own n) (fst (solo q (k_fs y))) (fst (solo (ask n (res n) a) fw)) /\
              exists g, part fw (ask n (res n) a) q g /\ agree (own n) (k_fs y) g
          | Some (Interrupted _), Some (n, a) => k_now y = None /\ exists q g, part fw (ask n (res n) a) q g /\ agree (own n) (k_fs y) g
          | Some (Interrupted _), None => k_now y = None
          | Some Failed, Some (n, a) => k_now y = None /\ snd (solo (ask n (res n) a) fw) = Crashed /\ agree (own n) (k_fs y) (fst (solo (ask n (res n) a) fw))
          | Some Failed, None => False
          end;
  s_answers : forall n a, cur = Some (n, a) -> a = k_answers y;
  s_shown : map (fun s => (rec_name (fst (fst s)), snd (fst s))) (k_shown y) = map fst hist ++ match cur with Some x => [x] | None => [] end;
  s_shows : forall r a g, In (r, a, g) (k_shown y) -> r = (rec_name r, res (rec_name r), dur (rec_name r)) /\ agree (own (rec_name r)) g fw;
  s_recs : k_recs y = recs_of hist;
  s_ok : k_ok y = forallb (fun h => is_ok (p_res h)) hist;
  s_chain : chain answers0 hist (k_answers y);
  s_same : forall p, ~ loose p -> (forall n, In n (map p_name hist ++ cur_name cur) -> ~ rw n p) -> lookup p (k_fs y) = lookup p fw;
  s_hist : forall n a v, In (n, a, v) hist -> snd (solo (ask n (res n) a) fw) = Value v /\ agree (rw n) (k_fs y) (fst (solo (ask n (res n) a) fw));
  s_stops : forall h x h', hist = h ++ x :: h' -> p_stops c x = true -> h' = [] /\ cur = None /\ k_stop y = true;
  s_end : match k_end y with
          | None => match k_cut y with Some (Interrupted _) => k_stop y = true | _ => k_stop y = existsb (p_stops c) hist end
          | Some recs => k_stop y = true /\ (k_cut y = None -> cur = None) /\ exists pend extra, k_reports y = pend ++ extra /\ recs = recs_of hist ++ pend /\
              (existsb (p_stops c) hist = true \/ k_cut y <> None \/ (pend = [] /\ forall n, In n todo -> In n (map p_name hist)))
          end;
  s_left : match k_cut y with
           | Some (Interrupted lf) => NoDup lf /\ (forall n, In n lf -> In n todo /\ ~ In n (map p_name hist ++ cur_name cur)) /\
               forall n, In n todo -> ~ In n lf -> In n (map p_name hist ++ cur_name cur) \/ In n (map rec_name (match k_end y with Some recs => recs | None => k_reports y end))
           | _ => True
           end
}.

(** the files of a case are as after the worker *)
Lemma in_todo y hist cur fw n : sim y hist cur fw -> In n (map p_name hist ++ cur_name cur ++ map rec_name (k_reports y)) -> In n todo /\ ended (k_st y n).
Proof. intros S H. apply (s_in _ _ _ _ S) in H. apply (s_seen _ _ _ _ S) in H as [H1 H2]. split; [now apply (s_sched _ _ _ _ S)|exact H2]. Qed.
Lemma taken_todo y hist cur fw n : sim y hist cur fw -> In n (map p_name hist ++ cur_name cur) -> In n todo /\ ended (k_st y n).
Proof. intros S H. apply (in_todo y hist cur fw n S). rewrite app_assoc. apply in_or_app. now left. Qed.
Lemma shown_in y hist cur fw r a g : sim y hist cur fw -> In (r, a, g) (k_shown y) -> In (rec_name r) (map p_name hist ++ cur_name cur).
Proof.
  intros S H. assert (X : In (rec_name r, a) (map (fun s => (rec_name (fst (fst s)), snd (fst s))) (k_shown y))) by (apply in_map_iff; now exists (r, a, g)).
  rewrite (s_shown _ _ _ _ S) in X. apply in_app_or in X as [X|X]; apply in_or_app; [left|right].
  - apply in_map_iff in X as (h & E & Hh). apply in_map_iff. exists h. split; [|exact Hh]. unfold p_name. now rewrite E.
  - destruct cur as [[n b]|]; [|destruct X]. destruct X as [X|[]]. injection X as -> _. now left.
Qed.
Lemma own_same y hist cur fw n : sim y hist cur fw -> In n todo -> ~ In n (map p_name hist ++ cur_name cur) -> agree (own n) (k_fs y) fw.
Proof.
  intros S Hn N p Op. apply (s_same _ _ _ _ S); [intros L; exact (LO n p Hn L Op)|]. intros m Hm R. apply N.
  destruct (taken_todo y hist cur fw m S Hm) as [Tm _]. rewrite <- (SEPO m n p Tm Hn (RWO m p Tm R) Op). exact Hm.
Qed.
Lemma review_same n r a f g : In n todo -> agree (own n) f g -> snd (solo (ask n r a) f) = snd (solo (ask n r a) g) /\ agree (own n) (fst (solo (ask n r a) f)) (fst (solo (ask n r a) g)).
Proof. intros Hn. apply (local_solo (own n) (rw n)). now apply ASK. Qed.

Lemma sim_step x y hist cur fw : sim x hist cur fw -> step x y -> exists hist' cur' fw', sim y hist' cur' fw'.
Proof.
  intros S P. destruct P as
    [st sched f seen reports shown now recs ok answers cut e n Hn Nn Hd
    |st sched f seen reports shown now recs ok stop answers cut e n s Hn Es
    |st sched f seen reports shown now recs ok stop answers cut e n r Hn En Nn Br
    |st sched f seen reports shown recs ok answers r
    |st sched f seen reports shown recs ok stop answers cut e r s
    |st sched f seen reports shown recs ok stop answers cut e r rs req rest
    |st sched f seen reports shown now recs ok stop answers lf NDL HL
    |st sched f seen reports shown recs ok stop answers r
    |st sched f seen reports shown recs ok stop answers cut Hl].
  - (* schedule *)
    exists hist, cur, fw. destruct S as [S1 S2 S3 S0 S4 S5 S6 S7 S8 S9 SA SH SJ S10 S11 S12 S13 S14 S15 S16 S17]. cbn [k_st k_sched k_fs k_seen k_reports k_shown k_now k_recs k_ok k_stop k_answers k_cut k_end] in *. split; try assumption; cbn [k_st k_sched k_fs k_seen k_reports k_shown k_now k_recs k_ok k_stop k_answers k_cut k_end] in *.
    + intros m [<-|Hm]; [exact Hn|now apply S2].
    + intros m N. apply S3. intros X. apply N. now right.
    + intros m Hm N. apply (S0 m Hm). intros X. apply N. now right.
    + intros m d [<-|Hm] H1 H2; [|now apply (S4 m)]. now apply S5, Hd.
    + intros m Hm. destruct (S5 m Hm) as [X Y]. split; [now right|exact Y].
  - (* work *)
    assert (Tn : In n todo) by (apply (s_sched _ _ _ _ S); exact Hn).
    assert (NT : ~ In n (map p_name hist ++ cur_name cur)).
    { intros X. destruct (taken_todo _ _ _ _ n S X) as [_ [oc Y]]. cbn [k_st] in Y. congruence. }
    pose proof (LOC _ _ n (s_run _ _ _ _ S) Tn) as L. cbn [k_st] in L. rewrite Es in L. inversion L as [|s' L1 L2 L3 EQ]. subst s'.
    assert (RA : agree (reads n) f fw).
    { intros p Rp. apply (s_same _ _ _ _ S); [intros X; exact (LR n p Tn X Rp)|]. intros m Hm R. destruct (taken_todo _ _ _ _ m S Hm) as [Tm _].
      apply (RWR m n p Tm Tn); auto. intros ->. contradiction. }
    destruct (L2 f fw RA) as [E1 E2].
    assert (SW : forall m g, In m todo -> m <> n -> agree (own m) (fst (s g)) g).
    { intros m g Tm NE p Op. apply L1. intros Wp. destruct (WOWN n p Tn Wp) as [X|X]; [apply NE; symmetry; exact (SEPO n m p Tn Tm X Op)|exact (LO m p Tm X Op)]. }
    assert (EK : forall d, ended (st d) -> ended (set_proc st n (snd (s f)) d)).
    { intros d [oc E]. unfold set_proc. destruct (str_eqb_spec n d) as [<-|_]; [congruence|now exists oc]. }
    assert (OLD : forall m, In m (map p_name hist ++ cur_name cur) -> In m todo /\ m <> n).
    { intros m Hm. destruct (taken_todo _ _ _ _ m S Hm) as [Tm _]. split; [exact Tm|]. intros ->. contradiction. }
    exists hist, cur, (fst (s fw)). pose proof S as S'. destruct S as [S1 S2 S3 S0 S4 S5 S6 S7 S8 S9 SA SH SJ S10 S11 S12 S13 S14 S15 S16 S17]. cbn [k_st k_sched k_fs k_seen k_reports k_shown k_now k_recs k_ok k_stop k_answers k_cut k_end] in *. split; try assumption; cbn [k_st k_sched k_fs k_seen k_reports k_shown k_now k_recs k_ok k_stop k_answers k_cut k_end].
    + econstructor; [exact S1|]. rewrite E1. constructor; [exact Tn|exact Es|]. intros d H1 H2. now apply (S4 n).
    + intros m N. unfold set_proc. destruct (str_eqb_spec n m) as [<-|_]; [contradiction|now apply S3].
    + intros m Hm N. eapply agree_trans; [apply (SW m fw Hm)|now apply S0]. intros ->. contradiction.
    + intros m d H1 H2 H3. apply EK. now apply (S4 m).
    + intros m Hm. destruct (S5 m Hm) as [X Y]. split; [exact X|now apply EK].
    + destruct cut as [[lf|]|], cur as [[m a]|]; try exact S9; (destruct (OLD m) as [Tm NE]; [apply in_or_app; right; now left|]);
        destruct (review_same m (res m) a (fst (s fw)) fw Tm (SW m fw Tm NE)) as [Y1 Y2].
      * destruct S9 as (Q1 & q & g & Q2 & Q3). split; [exact Q1|]. destruct (part_local (own m) (rw m) _ fw (fst (s fw)) q g (ASK m (res m) a Tm) (agree_sym _ _ _ (SW m fw Tm NE)) Q2) as (_ & g' & P1 & P2).
        exists q, g'. split; [exact P1|]. eapply agree_trans; [apply (SW m f Tm NE)|]. eapply agree_trans; [exact Q3|exact P2].
      * destruct S9 as (Q1 & Q2 & Q3). split; [exact Q1|]. split; [now rewrite Y1|]. eapply agree_trans; [apply (SW m f Tm NE)|]. eapply agree_trans; [exact Q3|]. now apply agree_sym.
      * destruct S9 as (q & Q1 & Q3 & Q4 & Q5 & Q6 & Q7 & g & Q8 & Q9).
        exists q. split; [exact Q1|]. split; [exact Q3|]. split; [exact Q4|]. split; [exact Q5|].
        destruct (proj2 (local_solo _ _ _ Q5) (fst (s f)) f (SW m f Tm NE)) as [X1 X2].
        split; [rewrite X1, Y1; exact Q6|]. split; [eapply agree_trans; [exact X2|]; eapply agree_trans; [exact Q7|]; now apply agree_sym|].
        destruct (part_local (own m) (rw m) _ fw (fst (s fw)) q g (ASK m (res m) a Tm) (agree_sym _ _ _ (SW m fw Tm NE)) Q8) as (_ & g' & P1 & P2).
        exists g'. split; [exact P1|]. eapply agree_trans; [apply (SW m f Tm NE)|]. eapply agree_trans; [exact Q9|exact P2].
    + intros r a g Hs. destruct (SJ r a g Hs) as [X1 X2]. split; [exact X1|]. destruct (OLD (rec_name r)) as [Tm NE]; [exact (shown_in _ _ _ _ r a g S' Hs)|].
      eapply agree_trans; [exact X2|]. apply agree_sym. now apply SW.
    + intros p NL NR. destruct (OWND n p Tn) as [Op|Op].
      * apply E2. now apply OWN.
      * rewrite !L1; [now apply S13| |]; intros Wp; destruct (WOWN n p Tn Wp); contradiction.
    + intros m a v Hm. destruct (S14 m a v Hm) as [X Y]. destruct (OLD m) as [Tm NE]; [apply in_or_app; left; apply in_map_iff; now exists (m, a, v)|].
      destruct (review_same m (res m) a (fst (s fw)) fw Tm (SW m fw Tm NE)) as [Y1 Y2]. split; [now rewrite Y1|].
      intros p Rp. rewrite (SW m f Tm NE) by now apply RWO. rewrite (Y p Rp). symmetry. apply Y2. now apply RWO.
  - (* report *)
    assert (Tn : In n todo) by (apply (s_sched _ _ _ _ S); exact Hn).
    assert (NT : ~ In n (map p_name hist ++ cur_name cur ++ map rec_name reports)) by (intros X; apply Nn; now apply (s_in _ _ _ _ S) in X).
    assert (ER : r = (n, res n, dur n)).
    { apply (REC st fw f); auto; [exact (s_run _ _ _ _ S)|]. intros p Op _. apply (own_same _ _ _ _ n S Tn); [|exact Op]. intros X. apply NT. rewrite app_assoc. apply in_or_app. now left. }
    exists hist, cur, fw. destruct S as [S1 S2 S3 S0 S4 S5 S6 S7 S8 S9 SA SH SJ S10 S11 S12 S13 S14 S15 S16 S17]. cbn [k_st k_sched k_fs k_seen k_reports k_shown k_now k_recs k_ok k_stop k_answers k_cut k_end] in *. split; try assumption; cbn [k_st k_sched k_fs k_seen k_reports k_shown k_now k_recs k_ok k_stop k_answers k_cut k_end].
    + intros m [<-|Hm]; [now split|now apply S5].
    + rewrite map_app. subst r. cbn [map rec_name fst]. replace (map p_name hist ++ cur_name cur ++ map rec_name reports ++ [n]) with ((map p_name hist ++ cur_name cur ++ map rec_name reports) ++ [n]) by now rewrite <- !app_assoc.
      apply NoDup_rev_1. rewrite rev_app_distr. constructor; [now rewrite <- in_rev|now apply NoDup_rev].
    + intros m. rewrite map_app. subst r. cbn [map rec_name fst]. specialize (S7 m). rewrite !in_app_iff in S7 |- *. cbn [In]. rewrite <- S7. pose proof (in_app_iff (map rec_name reports) [n] m) as Z. cbn [In] in Z. tauto.
    + intros x Hx. apply in_app_or in Hx as [Hx|[<-|[]]]; [now apply S8|]. subst r. reflexivity.
    + destruct e as [recs'|]; [|exact S16]. destruct S16 as (X1 & X2 & pend & extra & X3 & X4). split; [exact X1|]. split; [exact X2|]. exists pend, (extra ++ [r]). rewrite X3, app_assoc. auto.
    + destruct cut as [[lf|]|]; [|exact I|exact I]. destruct S17 as (X1 & X2 & X3). split; [exact X1|]. split; [exact X2|]. intros m Hm Nm. destruct (X3 m Hm Nm) as [X|X]; [now left|right].
      destruct e as [recs'|]; [exact X|]. rewrite map_app. apply in_or_app. now left.
  - (* take *)
    assert (C : cur = None). { pose proof (s_now _ _ _ _ S) as X. cbn [k_cut] in X. destruct cur as [[m a]|]; [|reflexivity]. destruct X as (q & X & _). discriminate. } subst cur.
    pose proof (s_reports _ _ _ _ S r (or_introl eq_refl)) as ER. set (n := rec_name r) in *.
    assert (NT : ~ In n (map p_name hist)).
    { pose proof (s_names _ _ _ _ S) as ND. cbn [k_reports map cur_name app] in ND. fold n in ND. apply NoDup_remove_2 in ND. intros X. apply ND. apply in_or_app. now left. }
    destruct (in_todo _ _ _ _ n S) as [Tn _]; [cbn [k_reports map]; apply in_or_app; right; now left|].
    assert (AG : agree (own n) f fw) by (apply (own_same _ _ _ _ n S Tn); cbn [cur_name]; now rewrite app_nil_r).
    exists hist, (Some (n, answers)), fw. destruct S as [S1 S2 S3 S0 S4 S5 S6 S7 S8 S9 SA SH SJ S10 S11 S12 S13 S14 S15 S16 S17]. cbn [k_st k_sched k_fs k_seen k_reports k_shown k_now k_recs k_ok k_stop k_answers k_cut k_end] in *. split; try assumption; cbn [k_st k_sched k_fs k_seen k_reports k_shown k_now k_recs k_ok k_stop k_answers k_cut k_end].
    + intros x Hx. apply S8. now right.
    + exists (ask n (rec_result r) answers). split; [now rewrite <- ER|]. split; [reflexivity|]. split; [reflexivity|]. split; [now apply ASK|].
      replace (rec_result r) with (res n) by (rewrite ER; reflexivity). destruct (review_same n (res n) answers f fw Tn AG) as [X1 X2]. split; [exact X1|]. split; [exact X2|].
      exists fw. split; [constructor|exact AG].
    + intros m b X. now injection X as _ <-.
    + rewrite map_app, SH, app_nil_r. reflexivity.
    + intros x b g Hx. apply in_app_or in Hx as [Hx|[Hx|[]]]; [now apply (SJ x b)|]. injection Hx as <- <- <-. split; [exact ER|exact AG].
    + intros p NL NR. apply S13; [exact NL|]. intros m Hm. apply NR. cbn [cur_name] in *. rewrite app_nil_r in Hm. apply in_or_app. now left.
    + intros h x h' EH ST. destruct (S15 h x h' EH ST) as (_ & _ & X). discriminate.
  - (* review *)
    assert (C : cut = None) by (pose proof (s_now _ _ _ _ S) as X; cbn [k_cut k_now] in X; destruct cut as [[lf|]|]; [destruct cur as [[n a]|]; [now destruct X|discriminate X]|destruct cur as [[n a]|]; [now destruct X|destruct X]|reflexivity]). subst cut.
    destruct cur as [[n a]|]; [|pose proof (s_now _ _ _ _ S) as X; discriminate X].
    destruct (s_now _ _ _ _ S) as (q & Q1 & Q3 & Q4 & Q5 & Q6 & Q7 & gq & Q8 & Q9). cbn [k_now k_answers k_end k_stop k_fs] in *. injection Q1 as -> <-.
    destruct (taken_todo _ _ _ _ n S) as [Tn _]; [apply in_or_app; right; now left|]. inversion Q5 as [|s' L1 L2 L3 EQ]. subst s'.
    assert (NT : ~ In n (map p_name hist)).
    { pose proof (s_names _ _ _ _ S) as ND. cbn [cur_name app] in ND. apply NoDup_remove_2 in ND. intros X. apply ND. apply in_or_app. now left. }
    exists hist, (Some (n, a)), fw. pose proof S as S'. destruct S as [S1 S2 S3 S0 S4 S5 S6 S7 S8 S9 SA SH SJ S10 S11 S12 S13 S14 S15 S16 S17]. cbn [k_st k_sched k_fs k_seen k_reports k_shown k_now k_recs k_ok k_stop k_answers k_cut k_end] in *. split; try assumption; cbn [k_st k_sched k_fs k_seen k_reports k_shown k_now k_recs k_ok k_stop k_answers k_cut k_end].
    + exists (snd (s f)). split; [reflexivity|]. split; [exact Q3|]. split; [exact Q4|]. split; [apply L3|]. cbn [solo] in Q6, Q7. destruct (L2 f gq Q9) as [X1 X2].
      assert (X3 : part fw (ask n (res n) a) (snd (s f)) (fst (s gq))) by (rewrite X1; now constructor).
      destruct (s f) as [g q]. split; [exact Q6|]. split; [exact Q7|]. exists (fst (s gq)). now split.
    + intros p NL NR. rewrite L1; [now apply S13|]. apply NR. apply in_or_app. right. now left.
    + intros m b v Hm. destruct (S14 m b v Hm) as [X Y]. split; [exact X|]. intros p Rp. rewrite L1; [now apply Y|]. intros Rn.
      destruct (taken_todo _ _ _ _ m S') as [Tm _]; [apply in_or_app; left; apply in_map_iff; now exists (m, b, v)|].
      apply NT. rewrite <- (SEPO m n p Tm Tn (RWO m p Tm Rp) (RWO n p Tn Rn)). apply in_map_iff. now exists (m, b, v).
  - (* reviewed *)
    assert (C : cut = None) by (pose proof (s_now _ _ _ _ S) as X; cbn [k_cut k_now] in X; destruct cut as [[lf|]|]; [destruct cur as [[n a]|]; [now destruct X|discriminate X]|destruct cur as [[n a]|]; [now destruct X|destruct X]|reflexivity]). subst cut.
    destruct cur as [[n a]|]; [|pose proof (s_now _ _ _ _ S) as X; discriminate X].
    destruct (s_now _ _ _ _ S) as (q & Q1 & Q3 & Q4 & Q5 & Q6 & Q7 & gq & Q8 & Q9). pose proof (s_answers _ _ _ _ S n a eq_refl) as Q2. cbn [k_now k_answers k_end k_stop k_fs] in *. injection Q1 as -> <-. cbn [solo fst snd] in Q6, Q7.
    destruct (taken_todo _ _ _ _ n S) as [Tn _]; [apply in_or_app; right; now left|].
    exists (hist ++ [(n, a, (rs, req, rest))]), None, fw. pose proof S as S'. destruct S as [S1 S2 S3 S0 S4 S5 S6 S7 S8 S9 SA SH SJ S10 S11 S12 S13 S14 S15 S16 S17]. cbn [k_st k_sched k_fs k_seen k_reports k_shown k_now k_recs k_ok k_stop k_answers k_cut k_end] in *.
    assert (EN : forall l, map p_name (hist ++ [(n, a, (rs, req, rest))]) ++ cur_name None ++ l = map p_name hist ++ cur_name (Some (n, a)) ++ l) by (intros l; rewrite map_app, <- app_assoc; reflexivity).
    split; try assumption; cbn [k_st k_sched k_fs k_seen k_reports k_shown k_now k_recs k_ok k_stop k_answers k_cut k_end].
    + rewrite EN. exact S6.
    + intros m. rewrite EN. apply S7.
    + reflexivity.
    + intros m b X. discriminate X.
    + rewrite SH, map_app, app_nil_r. reflexivity.
    + rewrite S10. unfold recs_of. rewrite map_app. reflexivity.
    + rewrite S11, forallb_app. cbn [forallb p_res fst snd]. now rewrite andb_true_r.
    + apply (chain_app answers0 hist n answers (rs, req, rest)) in S12. subst a. exact S12.
    + intros p NL NR. apply S13; [exact NL|]. intros m Hm. apply NR. rewrite <- (app_nil_r (map p_name hist ++ _)), <- app_assoc in Hm. rewrite <- (app_nil_r (cur_name None)). rewrite EN. exact Hm.
    + intros m b v Hm. apply in_app_or in Hm as [Hm|[Hm|[]]]; [now apply S14|]. injection Hm as <- <- <-. split; [now symmetry|]. intros p Rp. apply Q7. now apply RWO.
    + intros h x h' EH ST. destruct h' as [|z h'] using rev_ind.
      * split; [reflexivity|]. split; [reflexivity|]. apply app_inj_tail in EH as [_ <-]. unfold p_stops, p_req, p_res in ST. cbn [fst snd] in ST. rewrite <- orb_assoc, ST. apply orb_true_r.
      * exfalso. clear IHh'. rewrite app_comm_cons, app_assoc in EH. apply app_inj_tail in EH as [EH _]. destruct (S15 h x h' EH ST) as (_ & X & _). discriminate.
    + subst e. rewrite existsb_app, <- S16. unfold p_stops, p_req, p_res. cbn [existsb fst snd]. rewrite orb_false_r, orb_assoc. reflexivity.
  - (* interrupt *)
    exists hist, cur, fw. destruct S as [S1 S2 S3 S0 S4 S5 S6 S7 S8 S9 SA SH SJ S10 S11 S12 S13 S14 S15 S16 S17]. cbn [k_st k_sched k_fs k_seen k_reports k_shown k_now k_recs k_ok k_stop k_answers k_cut k_end] in *.
    split; try assumption; cbn [k_st k_sched k_fs k_seen k_reports k_shown k_now k_recs k_ok k_stop k_answers k_cut k_end].
    + destruct cur as [[n a]|]; [|reflexivity]. destruct S9 as (q & _ & _ & _ & _ & _ & _ & g & Q8 & Q9). split; [reflexivity|]. exists q, g. now split.
    + intros h x h' EH ST. destruct (S15 h x h' EH ST) as (X1 & X2 & _). auto.
    + reflexivity.
    + split; [exact NDL|]. split.
      * intros n Hn. apply HL in Hn as [H1 H2]. split; [exact H1|]. intros X. apply H2, S7. rewrite app_assoc. apply in_or_app. now left.
      * intros n Hn NI. destruct (in_dec (list_eq_dec N.eq_dec) n seen) as [X|X]; [|elim NI; apply HL; now split]. apply S7 in X. rewrite app_assoc in X. now apply in_app_or in X.
  - (* failed *)
    destruct cur as [[n a]|]; [|pose proof (s_now _ _ _ _ S) as X; discriminate X].
    destruct (s_now _ _ _ _ S) as (q & Q1 & Q3 & Q4 & Q5 & Q6 & Q7 & gq & Q8 & Q9). cbn [k_now k_answers k_end k_stop k_fs] in *. injection Q1 as -> <-. cbn [solo fst snd] in Q6, Q7.
    exists hist, (Some (n, a)), fw. destruct S as [S1 S2 S3 S0 S4 S5 S6 S7 S8 S9 SA SH SJ S10 S11 S12 S13 S14 S15 S16 S17]. cbn [k_st k_sched k_fs k_seen k_reports k_shown k_now k_recs k_ok k_stop k_answers k_cut k_end] in *.
    split; try assumption; cbn [k_st k_sched k_fs k_seen k_reports k_shown k_now k_recs k_ok k_stop k_answers k_cut k_end].
    split; [reflexivity|]. split; [now symmetry|exact Q7].
  - (* leave *)
    exists hist, cur, fw. pose proof S as S'. destruct S as [S1 S2 S3 S0 S4 S5 S6 S7 S8 S9 SA SH SJ S10 S11 S12 S13 S14 S15 S16 S17]. cbn [k_st k_sched k_fs k_seen k_reports k_shown k_now k_recs k_ok k_stop k_answers k_cut k_end] in *.
    assert (TD : forall n, In n (map p_name hist ++ cur_name cur) -> In n todo) by (intros n Hn; exact (proj1 (taken_todo _ _ _ _ n S' Hn))).
    assert (FO : forall n, In n todo -> agree (own n) (ask_files exp_dir out_dir all_names par_metrics todo f) f).
    { intros n Tn p Op. apply FILES. intros L. exact (LO n p Tn L Op). }
    split; try assumption; cbn [k_st k_sched k_fs k_seen k_reports k_shown k_now k_recs k_ok k_stop k_answers k_cut k_end].
    + destruct cut as [[lf|]|], cur as [[n a]|]; try exact S9.
      * destruct S9 as (Q1 & q & g & Q2 & Q3). split; [exact Q1|]. exists q, g. split; [exact Q2|]. eapply agree_trans; [apply FO, TD, in_or_app; right; now left|exact Q3].
      * destruct S9 as (Q1 & Q2 & Q3). split; [exact Q1|]. split; [exact Q2|]. eapply agree_trans; [apply FO, TD, in_or_app; right; now left|exact Q3].
      * destruct S9 as (q & Q1 & _). discriminate Q1.
    + intros p NL NR. rewrite FILES by exact NL. now apply S13.
    + intros n a v Hn. destruct (S14 n a v Hn) as [X Y]. split; [exact X|]. intros p Rp. assert (Tn : In n todo) by (apply TD, in_or_app; left; apply in_map_iff; now exists (n, a, v)).
      rewrite (FO n Tn p (RWO n p Tn Rp)). now apply Y.
    + intros h x h' EH ST. destruct (S15 h x h' EH ST) as (X1 & X2 & _). auto.
    + split; [reflexivity|]. split.
      * intros ->. destruct cur as [[n a]|]; [|reflexivity]. destruct S9 as (q & Q1 & _). discriminate Q1.
      * exists reports, []. rewrite app_nil_r, S10. split; [reflexivity|]. split; [reflexivity|].
        destruct cut as [k|]; [right; left; discriminate|]. destruct cur as [[n a]|]; [destruct S9 as (q & Q1 & _); discriminate Q1|].
        destruct Hl as [->|[X|[-> Hl]]]; [left; now symmetry|now elim X|]. right. right. split; [reflexivity|]. intros n Hn. apply Hl, S7 in Hn. cbn [cur_name map app] in Hn. now rewrite app_nil_r in Hn.
    + destruct cut as [[lf|]|]; [|exact I|exact I]. destruct S17 as (X1 & X2 & X3). split; [exact X1|]. split; [exact X2|]. intros m Hm Nm. destruct (X3 m Hm Nm) as [X|X]; [now left|right].
      rewrite map_app. apply in_or_app. now right.
Qed.

Lemma sim_start y : k_st y = W -> k_sched y = [] -> k_fs y = f0 -> k_seen y = [] -> k_reports y = [] -> k_shown y = [] -> k_now y = None -> k_recs y = [] -> k_ok y = true -> k_stop y = false ->
  k_answers y = answers0 -> k_cut y = None -> k_end y = None -> sim y [] None f0.
Proof.
  intros E1 E2 E3 E4 E5 E6 E7 E8 E9 E10 E11 E12 E13. split; rewrite ?E1, ?E2, ?E3, ?E4, ?E5, ?E6, ?E7, ?E8, ?E9, ?E10, ?E11, ?E12, ?E13; cbn; try tauto; try reflexivity; try easy.
  - constructor.
  - constructor.
  - intros h x h' EH. destruct h; discriminate.
Qed.
Lemma sim_steps x y : steps x y -> (exists hist cur fw, sim x hist cur fw) -> exists hist cur fw, sim y hist cur fw.
Proof. intros H I. induction H as [|x y z H IH P]; [exact I|]. destruct (IH I) as (hist & cur & fw & S). exact (sim_step y z hist cur fw S P). Qed.
End Sim.

(** ** No run goes on for ever *)
Section Ends.
Context {D : Type} (parse_dur : str -> option D) (sp : char -> bool).
Variables exp_dir out_dir : str.
Variable c : config.
Variable all_names : list str.
Variable par_metrics : str.
Variable todo : list str.
Variable deps : str -> list str.
Notation step := (ask_step exp_dir out_dir c parse_dur sp all_names par_metrics deps todo).

Definition missing (l seen : list str) : nat := length (filter (fun n => negb (existsb (str_eqb n) seen)) l).
Lemma in_existsb n seen : existsb (str_eqb n) seen = true <-> In n seen.
Proof. rewrite existsb_exists. split; [intros (m & Hm & X); apply str_eqb_eq in X; now subst|intros H; exists n; split; [exact H|apply str_eqb_refl]]. Qed.
Lemma missing_more n l seen : (missing l (n :: seen) <= missing l seen)%nat /\ (In n l -> ~ In n seen -> (S (missing l (n :: seen)) <= missing l seen)%nat).
Proof.
  unfold missing. induction l as [|m l [IH1 IH2]]; [split; [apply le_n|intros []]|]. cbn [filter existsb]. destruct (str_eqb_spec m n) as [->|NE]; cbn [orb negb].
  - destruct (existsb (str_eqb n) seen) eqn:X; cbn [negb length]; [split; [exact IH1|]|split; [now apply le_S|intros _ _; now apply le_n_S]].
    intros _ N. exfalso. apply N. now apply in_existsb.
  - destruct (existsb (str_eqb m) seen); cbn [negb length]; (split; [auto using le_n_S|]); intros [X|X] N; try congruence; auto using le_n_S.
Qed.
Definition weight (y : ask_state (D := D)) : nat :=
  4 * missing todo (k_sched y) + 3 * missing (k_sched y) (k_seen y) + 2 * length (k_reports y) + (match k_now y with Some _ => 1 | None => 0 end) + (match k_cut y with Some _ => 0 | None => 1 end) + (match k_end y with Some _ => 0 | None => 1 end).

Definition now_proc (y : ask_state (D := D)) : proc (result * request * list str) := match k_now y with Some (_, q) => q | None => Halt Crashed end.
Lemma step_kinds x y : step x y ->
  (weight y < weight x)%nat \/
  (weight y = weight x /\ now_proc y = now_proc x /\ k_sched y = k_sched x /\ lstep (k_sched x) (k_st y, k_fs y) (k_st x, k_fs x)) \/
  (weight y = weight x /\ exists s, now_proc x = Act s /\ now_proc y = snd (s (k_fs x))).
Proof.
  intros P. destruct P; unfold weight, now_proc; cbn [k_st k_sched k_fs k_seen k_reports k_shown k_now k_recs k_ok k_stop k_answers k_cut k_end].
  - left. destruct (missing_more n todo sched) as [_ M]. specialize (M H H0).
    assert (X : (missing (n :: sched) seen <= S (missing sched seen))%nat) by (unfold missing; cbn [filter]; destruct (negb _); cbn [length]; auto).
    lia.
  - right. left. split; [reflexivity|]. split; [reflexivity|]. split; [reflexivity|]. exists n, s. cbn [fst snd]. auto.
  - left. destruct (missing_more n sched seen) as [_ M]. specialize (M H H1). rewrite app_length. cbn [length]. lia.
  - left. cbn [length]. lia.
  - right. right. split; [reflexivity|]. exists s. auto.
  - left. lia.
  - left. destruct now; lia.
  - left. lia.
  - left. lia.
Qed.

Theorem ask_ends x : Acc (fun y x => step x y) x.
Proof.
  remember (weight x) as w eqn:W. revert x W. induction w as [w IHw] using (well_founded_induction lt_wf). intros x W.
  remember (now_proc x) as q eqn:Q. revert x W Q. induction q as [oc|s IHq] using proc_ind2; intros x W Q;
    pose proof (lstep_ends (k_sched x) (k_st x) (k_fs x)) as AC; remember (k_st x, k_fs x) as z eqn:Z; remember (k_sched x) as l eqn:L; revert x W Q Z L;
    induction AC as [z _ IHz]; intros x W Q Z L; constructor; intros y P; destruct (step_kinds x y P) as [K|[(K1 & K2 & K3 & K4)|(K & s' & E1 & E2)]].
  - apply (IHw (weight y)); [now subst w|reflexivity].
  - subst z. rewrite <- L in K4. apply (IHz _ K4 y); congruence.
  - congruence.
  - apply (IHw (weight y)); [now subst w|reflexivity].
  - subst z. rewrite <- L in K4. apply (IHz _ K4 y); congruence.
  - assert (s' = s) as -> by congruence. apply (IHq (k_fs x) y); congruence.
Qed.
End Ends.
