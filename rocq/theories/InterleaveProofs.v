(** Processes with separate files do not see each other. *)
From Verif Require Export InterleaveModel FsFacts.
From Verif Require Import PyStrFacts.

(** [P]: a set of paths *)
Definition agree (P : str -> Prop) (f g : fs) : Prop := forall p, P p -> lookup p f = lookup p g.
Lemma agree_refl P f : agree P f f.
Proof. intros p _. reflexivity. Qed.
Lemma agree_sym P f g : agree P f g -> agree P g f.
Proof. intros H p HP. symmetry. auto. Qed.
Lemma agree_trans P f g h : agree P f g -> agree P g h -> agree P f h.
Proof. intros H1 H2 p HP. rewrite H1; auto. Qed.
Lemma agree_sub (P Q : str -> Prop) f g : (forall p, P p -> Q p) -> agree Q f g -> agree P f g.
Proof. intros H1 H2 p HP. auto. Qed.

(** [p] reads only [R] and writes only [W] *)
Inductive local {A} (R W : str -> Prop) : proc A -> Prop :=
| LHalt o : local R W (Halt o)
| LAct s :
    (forall f p, ~ W p -> lookup p (fst (s f)) = lookup p f) ->
    (forall f g, agree R f g -> snd (s f) = snd (s g) /\ agree R (fst (s f)) (fst (s g))) ->
    (forall f, local R W (snd (s f))) -> local R W (Act s).

Lemma local_bind {A B} R W (p : proc A) (k : A -> proc B) : local R W p -> (forall a, local R W (k a)) -> local R W (pbind p k).
Proof.
  intros H K. induction H as [[a| |]|s H1 H2 _ IH]; cbn [pbind]; try constructor; auto.
  - intros f p N. specialize (H1 f p N). destruct (s f) as [g q]. exact H1.
  - intros f g AG. destruct (H2 f g AG) as [X1 X2]. destruct (s f) as [g1 q1], (s g) as [g2 q2]. cbn [fst snd] in *. subst q2. auto.
  - intros f. specialize (IH f). destruct (s f) as [g q]. exact IH.
Qed.

Section Ind.
(** induction on processes *)
Context {A : Type} (P : proc A -> Prop) (H0 : forall o, P (Halt o)) (H1 : forall s, (forall f, P (snd (s f))) -> P (Act s)).
Fixpoint proc_ind2 (p : proc A) : P p :=
  match p with
  | Halt o => H0 o
  | Act s => H1 s (fun f => match s f as x return P (snd x) with (g, q) => proc_ind2 q end)
  end.
End Ind.

Lemma solo_bind {A B} (p : proc A) (k : A -> proc B) : forall f,
  solo (pbind p k) f = match solo p f with
                       | (g, Value a) => solo (k a) g
                       | (g, Crashed) => (g, Crashed)
                       | (g, Hangs) => (g, Hangs)
                       end.
Proof.
  induction p as [o|s IH] using proc_ind2; intros f; cbn [pbind solo]; [destruct o; reflexivity|].
  specialize (IH f). destruct (s f) as [g q]. apply IH.
Qed.

Lemma local_solo {A} R W (p : proc A) : local R W p ->
  (forall f q, ~ W q -> lookup q (fst (solo p f)) = lookup q f) /\
  (forall f g, agree R f g -> snd (solo p f) = snd (solo p g) /\ agree R (fst (solo p f)) (fst (solo p g))).
Proof.
  intros H. induction H as [o|s H1 H2 _ IH]; cbn [solo]; [split; auto|]. split.
  - intros f q N. specialize (IH f) as [IH _]. specialize (H1 f q N). destruct (s f) as [g p]. cbn [fst snd] in *. rewrite IH; auto.
  - intros f g AG. destruct (H2 f g AG) as [X1 X2]. specialize (IH f) as [_ IH]. destruct (s f) as [g1 q1], (s g) as [g2 q2]. cbn [fst snd] in *. subst q2. auto.
Qed.

(** operations *)
Definition fs_end {A} (x : io A) : fs := match x with Ret _ f => f | Raise f => f end.
Definition same_end {A} (R : str -> Prop) (x y : io A) : Prop :=
  match x, y with
  | Ret a f, Ret b g => a = b /\ agree R f g
  | Raise f, Raise g => agree R f g
  | _, _ => False
  end.
Definition local_op {A} (R W : str -> Prop) (op : fs -> io A) : Prop :=
  (forall f p, ~ W p -> lookup p (fs_end (op f)) = lookup p f) /\ (forall f g, agree R f g -> same_end R (op f) (op g)).
Lemma local_prim {A} R W (op : fs -> io A) : local_op R W op -> local R W (prim op).
Proof.
  intros [H1 H2]. constructor.
  - intros f p N. specialize (H1 f p N). destruct (op f); exact H1.
  - intros f g AG. specialize (H2 f g AG). destruct (op f), (op g); cbn in *; try contradiction; [destruct H2; subst; auto|auto].
  - intros f. destruct (op f); constructor.
Qed.

Section Inter.
Context {A : Type}.
Variable todo : list str.
Variable deps : str -> list str.
Variable init : str -> proc A.
(** the files of each process, what it reads and what it writes *)
Variables own reads writes : str -> str -> Prop.
Hypothesis NDT : NoDup todo.
Hypothesis ORD : forall a n b, todo = a ++ n :: b -> forall d, In d (deps n) -> In d todo -> In d a.
Hypothesis INIT : forall n, In n todo -> exists s, init n = Act s.
Hypothesis LOC : forall n, In n todo -> local (reads n) (writes n) (init n).
Hypothesis OWN : forall n p, In n todo -> own n p -> reads n p.
Hypothesis SEP : forall n m p, In n todo -> In m todo -> n <> m -> writes n p -> own m p -> False.
Hypothesis READS : forall n p, In n todo -> reads n p ->
  own n p \/ (exists d, In d (deps n) /\ In d todo /\ d <> n /\ own d p) \/ (forall m, In m todo -> ~ writes m p).

(** ** One after the other *)
Lemma turn_frame l : incl l todo -> forall f p, (forall n, In n l -> ~ writes n p) -> lookup p (fst (in_turn init l f)) = lookup p f.
Proof.
  induction l as [|n l IH]; intros I f p N; [reflexivity|]. cbn [in_turn]. destruct (local_solo _ _ _ (LOC n (I n (or_introl eq_refl)))) as [F _].
  specialize (F f p (N n (or_introl eq_refl))). destruct (solo (init n) f) as [g o]. cbn [fst] in F.
  specialize (IH (fun x Hx => I x (or_intror Hx)) g p (fun m Hm => N m (or_intror Hm))). destruct (in_turn init l g) as [h os]. cbn [fst] in *. congruence.
Qed.
Lemma turn_app a b f : in_turn init (a ++ b) f =
  let (g, os) := in_turn init a f in let (h, os') := in_turn init b g in (h, os ++ os').
Proof.
  revert f. induction a as [|n a IH]; intros f; cbn [app in_turn].
  - destruct (in_turn init b f); reflexivity.
  - destruct (solo (init n) f) as [g o]. rewrite IH. destruct (in_turn init a g) as [g1 os]. destruct (in_turn init b g1) as [h os']. reflexivity.
Qed.

Variable f0 : fs.
Definition last_fs : fs := fst (in_turn init todo f0).
Definition outs : list (str * outcome A) := snd (in_turn init todo f0).

(** what a process finds when its turn comes, and what stays of what it did *)
Lemma turn_of n : In n todo -> exists g,
  (forall p, reads n p -> (own n p -> lookup p g = lookup p f0) /\ (forall d, In d (deps n) -> In d todo -> d <> n -> own d p -> lookup p g = lookup p last_fs) /\
     ((forall m, In m todo -> ~ writes m p) -> lookup p g = lookup p f0)) /\
  In (n, snd (solo (init n) g)) outs /\ agree (own n) (fst (solo (init n) g)) last_fs.
Proof.
  intros Hn. destruct (in_split _ _ Hn) as (a & b & E). exists (fst (in_turn init a f0)).
  assert (Ia : incl a todo) by (rewrite E; intros x Hx; apply in_or_app; now left).
  assert (Ib : incl b todo) by (rewrite E; intros x Hx; apply in_or_app; right; now right).
  pose proof NDT as ND. rewrite E in ND. apply NoDup_remove_2 in ND.
  assert (Na : forall m, In m a -> m <> n) by (intros m Hm ->; apply ND; apply in_or_app; now left).
  assert (Nb : forall m, In m b -> m <> n) by (intros m Hm ->; apply ND; apply in_or_app; now right).
  assert (LF : last_fs = fst (in_turn init (n :: b) (fst (in_turn init a f0)))).
  { unfold last_fs. rewrite E, turn_app. destruct (in_turn init a f0) as [g os]. cbn [fst]. now destruct (in_turn init (n :: b) g). }
  split; [|split].
  - intros p Rp. split; [|split].
    + intros O. apply turn_frame; [exact Ia|]. intros m Hm Wm. exact (SEP m n p (Ia m Hm) Hn (Na m Hm) Wm O).
    + intros d Hd Td Ed O. rewrite LF. symmetry. apply turn_frame; [intros x [<-|Hx]; [exact Hn|now apply Ib]|].
      assert (Da : In d a) by (apply (ORD a n b E); assumption).
      intros m Hm Wm. destruct (list_eq_dec N.eq_dec m d) as [->|ND2]; [|exact (SEP m d p (match Hm with or_introl e => eq_ind _ (fun x => In x todo) Hn _ e | or_intror h => Ib m h end) Td ND2 Wm O)].
      destruct Hm as [->|Hm]; [now apply Ed|]. pose proof NDT as ND3. rewrite E in ND3. clear -ND3 Da Hm.
      induction a as [|x a IH]; [easy|]. cbn [app] in ND3. inversion ND3; subst. destruct Da as [->|Da]; [|now apply IH].
      apply H1. apply in_or_app. right. now right.
    + intros NW. apply turn_frame; [exact Ia|]. intros m Hm. apply NW. now apply Ia.
  - unfold outs. rewrite E, turn_app. destruct (in_turn init a f0) as [g os]. cbn [fst]. cbn [in_turn].
    destruct (solo (init n) g) as [g1 o1]. destruct (in_turn init b g1) as [h os']. cbn [snd]. apply in_or_app. right. now left.
  - rewrite LF. cbn [in_turn]. destruct (solo (init n) (fst (in_turn init a f0))) as [g1 o1]. cbn [fst].
    pose proof (turn_frame b Ib g1) as TF. destruct (in_turn init b g1) as [h os']. cbn [fst] in *. intros p Op. symmetry. apply TF.
    intros m Hm Wm. exact (SEP m n p (Ib m Hm) Hn (Nb m Hm) Wm Op).
Qed.

(** ** In any order *)
Definition waiting (st : str -> proc A) (f : fs) (n : str) : Prop := st n = init n /\ agree (own n) f f0.
Definition going (st : str -> proc A) (f : fs) (n : str) : Prop :=
  (forall d, In d (deps n) -> In d todo -> ended (st d)) /\
  In (n, snd (solo (st n) f)) outs /\ agree (own n) (fst (solo (st n) f)) last_fs.
Definition inv (st : str -> proc A) (f : fs) : Prop :=
  (forall n, In n todo -> local (reads n) (writes n) (st n) /\ (waiting st f n \/ going st f n)) /\
  (forall p, (forall m, In m todo -> ~ writes m p) -> lookup p f = lookup p f0).

Lemma ended_agree st f d : inv st f -> In d todo -> ended (st d) -> agree (own d) f last_fs.
Proof.
  intros [I _] Hd [o E]. destruct (I d Hd) as [_ [[W _]|[_ [_ G]]]].
  - destruct (INIT d Hd) as [s S]. rewrite W, S in E. discriminate.
  - rewrite E in G. exact G.
Qed.

Lemma start_going st f n : inv st f -> In n todo -> (forall d, In d (deps n) -> In d todo -> ended (st d)) -> going st f n.
Proof.
  intros I Hn D. destruct (proj1 I n Hn) as [L [[W AG]|G]]; [|exact G]. destruct (turn_of n Hn) as (g & G1 & G2 & G3).
  assert (RA : agree (reads n) f g).
  { intros p Rp. destruct (G1 p Rp) as (K1 & K2 & K3). destruct (READS n p Hn Rp) as [O|[(d & Hd & Td & Ed & O)|NW]].
    - rewrite K1 by exact O. now apply AG.
    - rewrite (K2 d Hd Td Ed O). exact (ended_agree st f d I Td (D d Hd Td) p O).
    - rewrite K3 by exact NW. now apply I. }
  rewrite <- W in *. destruct (local_solo _ _ _ L) as [_ LS]. destruct (LS f g RA) as [E1 E2]. split; [exact D|]. split; [now rewrite E1|].
  apply agree_trans with (fst (solo (st n) g)); [|exact G3]. apply (agree_sub _ (reads n)); [|exact E2]. intros p. now apply OWN.
Qed.

Lemma step_inv st f st' f' : inv st f -> pstep todo deps (st, f) (st', f') -> inv st' f'.
Proof.
  intros I H. remember (st, f) as x eqn:EX. remember (st', f') as y eqn:EY. destruct H as [st1 f1 n s Hn Es D]. injection EX as -> ->. injection EY as <- <-.
  pose proof (start_going st f n I Hn D) as (_ & GN1 & GN2). destruct (proj1 I n Hn) as [LN _]. rewrite Es in LN. inversion LN as [|s' L1 L2 L3 EQ]. subst s'.
  assert (SAME : forall m, In m todo -> m <> n -> agree (own m) (fst (s f)) f).
  { intros m Hm NE p O. apply L1. intros Wn. exact (SEP n m p Hn Hm (not_eq_sym NE) Wn O). }
  assert (EK : forall d, ended (st d) -> ended (set_proc st n (snd (s f)) d)).
  { intros d [o E]. unfold set_proc. destruct (str_eqb_spec n d) as [<-|_]; [congruence|now exists o]. }
  split.
  - intros m Hm. destruct (list_eq_dec N.eq_dec m n) as [->|NE].
    + unfold set_proc at 1. rewrite str_eqb_refl. split; [apply L3|]. right. split; [intros d Hd Td; apply EK; auto|].
      unfold set_proc at 1 2. rewrite str_eqb_refl. rewrite Es in GN1, GN2. cbn [solo] in GN1, GN2. destruct (s f) as [g q]. split; [exact GN1|exact GN2].
    + assert (SM : set_proc st n (snd (s f)) m = st m) by (unfold set_proc; destruct (str_eqb_spec n m) as [->|_]; [easy|reflexivity]). rewrite SM.
      destruct (proj1 I m Hm) as [L [[W AG]|(D' & G1 & G2)]]; (split; [exact L|]).
      * left. split; [now rewrite SM|]. apply agree_trans with f; [now apply SAME|exact AG].
      * right. assert (RA : agree (reads m) (fst (s f)) f).
        { intros p Rp. destruct (READS m p Hm Rp) as [O|[(d & Hd & Td & Ed & O)|NW]].
          - now apply (SAME m Hm NE).
          - destruct (list_eq_dec N.eq_dec d n) as [->|ND]; [|now apply (SAME d Td ND)]. destruct (D' n Hd Td) as [o Eo]. congruence.
          - apply L1. now apply NW. }
        destruct (local_solo _ _ _ L) as [_ LS]. destruct (LS _ _ RA) as [E1 E2]. split; [intros d Hd Td; apply EK; auto|]. rewrite SM. split; [now rewrite E1|].
        apply agree_trans with (fst (solo (st m) f)); [|exact G2]. apply (agree_sub _ (reads m)); [|exact E2]. intros p. now apply OWN.
  - intros p NW. rewrite L1 by (now apply NW). now apply I.
Qed.

Lemma steps_inv x y : psteps todo deps x y -> inv (fst x) (snd x) -> inv (fst y) (snd y).
Proof.
  intros H I. induction H as [|x y z H IH P]; [exact I|]. specialize (IH I). destruct y as [st f], z as [st' f']. exact (step_inv st f st' f' IH P).
Qed.

Theorem any_order st f : psteps todo deps (init, f0) (st, f) -> (forall n, In n todo -> ended (st n)) ->
  (forall n, In n todo -> exists o, st n = Halt o /\ In (n, o) outs /\ agree (own n) f last_fs) /\
  (forall p, (forall m, In m todo -> ~ writes m p) -> lookup p f = lookup p f0).
Proof.
  intros H E. assert (I : inv st f).
  { apply (steps_inv _ _ H). split; [|reflexivity]. intros n Hn. split; [now apply LOC|]. left. split; [reflexivity|apply agree_refl]. }
  split; [|apply I]. intros n Hn. destruct (E n Hn) as [o Eo]. exists o. split; [exact Eo|].
  split; [|now apply (ended_agree st f n I Hn (E n Hn))]. destruct (proj1 I n Hn) as [_ [[W _]|(_ & G & _)]].
  - destruct (INIT n Hn) as [s S]. rewrite W, S in Eo. discriminate.
  - now rewrite Eo in G.
Qed.

(** nothing gets stuck: while a process has not ended, some process can go on *)
Theorem some_step (st : str -> proc A) f : (exists n, In n todo /\ ~ ended (st n)) -> exists y, pstep todo deps (st, f) y.
Proof.
  intros (n & Hn & E). destruct (in_split _ _ Hn) as (a & b & EQ).
  assert (X : forall a b, todo = a ++ b -> (forall d, In d a -> ended (st d)) \/ exists y, pstep todo deps (st, f) y).
  { clear -ORD. induction a as [|x a IH] using rev_ind; intros b EQ; [left; easy|]. rewrite <- app_assoc in EQ. cbn [app] in EQ.
    destruct (IH _ EQ) as [Y|Y]; [|now right]. destruct (st x) as [o|s] eqn:Ex.
    - left. intros d Hd. apply in_app_or in Hd as [Hd|[<-|[]]]; [auto|now exists o].
    - right. eexists. apply (PStep todo deps st f x s); [rewrite EQ; apply in_or_app; right; now left|exact Ex|].
      intros d Hd Td. apply Y. exact (ORD a x b EQ d Hd Td). }
  destruct (X todo [] (eq_sym (app_nil_r _))) as [Y|Y]; [|exact Y]. exfalso. now apply E, Y.
Qed.
End Inter.

(** ** No run goes on for ever *)
Section Ends.
Context {A : Type}.
Variable deps : str -> list str.
(** one operation of one of the processes of [l], dependencies or not *)
Definition lstep (l : list str) (y x : (str -> proc A) * fs) : Prop :=
  exists n s, In n l /\ fst x n = Act s /\ y = (set_proc (fst x) n (snd (s (snd x))), fst (s (snd x))).

Lemma lstep_ends l : forall st f, Acc (lstep l) (st, f).
Proof.
  induction l as [|n l IH]; [intros st f; constructor; intros y (m & s & [] & _)|].
  assert (X : forall p st f, st n = p -> Acc (lstep (n :: l)) (st, f)).
  { induction p as [o|s IHp] using proc_ind2.
    - intros st f. specialize (IH st f). remember (st, f) as x eqn:EX. revert st f EX. induction IH as [x _ IHx]. intros st f -> E. constructor.
      intros [st' f'] (m & s & [<-|Hm] & Es & EY); cbn [fst snd] in *; [congruence|]. injection EY as E1 E2. apply (IHx (st', f')) with (st := st') (f := f'); [|reflexivity|].
      + exists m, s. cbn [fst snd]. subst. auto.
      + subst st'. unfold set_proc. destruct (str_eqb_spec m n) as [<-|_]; [congruence|exact E].
    - intros st f. specialize (IH st f). remember (st, f) as x eqn:EX. revert st f EX. induction IH as [x _ IHx]. intros st f -> E. constructor.
      intros [st' f'] (m & s' & Hm & Es & EY); cbn [fst snd] in *. injection EY as E1 E2. destruct (str_eqb_spec m n) as [->|NE].
      + rewrite E in Es. injection Es as <-. apply (IHp f). subst st'. unfold set_proc. now rewrite str_eqb_refl.
      + destruct Hm as [Hm|Hm]; [congruence|]. apply (IHx (st', f')) with (st := st') (f := f'); [|reflexivity|].
        * exists m, s'. cbn [fst snd]. subst. auto.
        * subst st'. unfold set_proc. destruct (str_eqb_spec m n); [contradiction|exact E]. }
  intros st f. now apply (X (st n)).
Qed.
Theorem runs_end todo (st : str -> proc A) f : Acc (fun y x => pstep todo deps x y) (st, f).
Proof.
  pose proof (lstep_ends todo st f) as H. revert H. generalize (st, f). clear. intros x H. induction H as [x _ IH]. constructor. intros y P. apply IH.
  destruct P as [st f n s Hn Es _]. exists n, s. auto.
Qed.
End Ends.
