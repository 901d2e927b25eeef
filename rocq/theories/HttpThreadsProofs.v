(** Proofs for C122. *)
From Verif Require Import PyStrFacts HttpModel HttpSessionModel HttpThreadsModel HttpThreadsSpec.
From Coq Require Import Lia.

Lemma upd_same {V} (f : nat -> V) i v : upd f i v i = v.
Proof. unfold upd. now rewrite Nat.eqb_refl. Qed.
Lemma upd_other {V} (f : nat -> V) i v j : j <> i -> upd f i v j = f j.
Proof. intros N. unfold upd. destruct (Nat.eqb_spec j i); congruence. Qed.

Section Proofs.
Variable cc : CharClass.
Variable sha : obj -> str.
Variables R X A Q : Type.
Variable url_of : Q -> str.
Variable kof : Q -> key.
Variable follow : list (Q * R) -> option Q.
Variable capture : bool.
Variable snapshots : list (snap R).
Variable code : nat -> list (result R X) -> option (nat * Q).
Notation stp := (step cc sha R X A Q url_of kof follow capture snapshots code).
Notation run := (steps cc sha R X A Q url_of kof follow capture snapshots code).
Notation W := (world R X A Q).

Definition depth (p : place R X A Q) : nat :=
  match p with
  | Entered b _ | Taken b _ | Chosen b _ _ | Asking b _ _ | Answered b _ _ | Leaving b _ | Restored b _ => if b then 2 else 1
  | Deciding _ => 1
  | Outside => 0
  end.
Definition held (w : W) : Prop :=
  (w_lock w = None /\ forall t, outside t w) \/
  (exists t, w_lock w = Some (t, depth (th_place (w_threads w t))) /\ ~ outside t w /\ forall t', t' <> t -> outside t' w).

Lemma held_inside w t : held w -> ~ outside t w -> w_lock w = Some (t, depth (th_place (w_threads w t))) /\ forall t', t' <> t -> outside t' w.
Proof.
  intros [[_ O]|(t0 & L & I & O)] N; [now elim N; apply O|]. destruct (Nat.eq_dec t t0) as [->|NE]; [now split|]. elim N. now apply O.
Qed.
Lemma held_put (w w' : W) t th : (forall t', t' <> t -> outside t' w) -> w_threads w' = upd (w_threads w) t th ->
  (th_place th = Outside -> w_lock w' = None) -> (th_place th <> Outside -> w_lock w' = Some (t, depth (th_place th))) -> held w'.
Proof.
  intros O E LN LS.
  assert (O' : forall t', t' <> t -> outside t' w'). { intros t' N. unfold outside. rewrite E, upd_other by exact N. now apply O. }
  assert (ET : w_threads w' t = th) by (now rewrite E, upd_same).
  assert (D : {th_place th = Outside} + {th_place th <> Outside}) by (destruct (th_place th); (now left) || (right; discriminate)).
  destruct D as [D|D].
  - left. split; [auto|]. intros t'. destruct (Nat.eq_dec t' t) as [->|N]; [|auto]. unfold outside. now rewrite ET.
  - right. exists t. rewrite ET. split; [auto|]. split; [|exact O']. unfold outside. now rewrite ET.
Qed.
Lemma lock_free t w l : held w -> outside t w -> acquire t (w_lock w) = Some l -> w_lock w = None /\ l = (t, 1) /\ forall t', outside t' w.
Proof.
  intros [[E O]|(t0 & E & N & O)] HO; rewrite E; cbn [acquire].
  - intros [= <-]. auto.
  - destruct (Nat.eqb_spec t0 t) as [->|NE]; [contradiction|discriminate].
Qed.

Lemma held_step t w e w' : held w -> stp t w e w' -> held w'.
Proof.
  intros H S. assert (IN : forall p, th_place (w_threads w t) = p -> p <> Outside -> w_lock w = Some (t, depth p) /\ forall t', t' <> t -> outside t' w).
  { intros p EP NP. subst p. apply held_inside; [exact H|exact NP]. }
  destruct S as [s q l th ETH EP C AC|s q th ETH EP C AC|th b q ETH EP|th b q ETH EP|th b q a real ETH EP|th b q real s ETH EP F|th b q real ETH EP F C|th b q ETH EP F C
    |th b q k r ETH EP|th b q k x ETH EP|th b q r ETH EP|th b q o ETH EP NR|th o q l ETH EP FO AC|th o ETH EP FO|th b o ETH EP|th o ETH EP|th o ETH EP]; rewrite ETH in EP.
  - destruct (lock_free _ _ _ H EP AC) as (L & -> & O). eapply (held_put w _ t); [intros t' _; apply O|reflexivity|discriminate|reflexivity].
  - destruct H as [[L O]|(t0 & L & N & O)]; [rewrite L in AC; discriminate|].
    assert (NT : t0 <> t) by (intros ->; now apply N).
    right. exists t0. unfold outside. cbn [w_lock with_thread w_threads]. rewrite upd_other by exact NT. split; [exact L|]. split; [exact N|].
    intros t' N'. destruct (Nat.eq_dec t' t) as [->|NE]; [now rewrite upd_same|]. rewrite upd_other by exact NE. now apply O.
  - destruct (IN _ EP) as [L O]; [discriminate|]. eapply (held_put w _ t); [exact O|reflexivity|discriminate|intros _; exact L].
  - destruct (IN _ EP) as [L O]; [discriminate|]. eapply (held_put w _ t); [exact O|reflexivity|discriminate|intros _; exact L].
  - destruct (IN _ EP) as [L O]; [discriminate|]. eapply (held_put w _ t); [exact O|reflexivity|discriminate|intros _; exact L].
  - destruct (IN _ EP) as [L O]; [discriminate|]. eapply (held_put w _ t); [exact O|reflexivity|discriminate|intros _; exact L].
  - destruct (IN _ EP) as [L O]; [discriminate|]. eapply (held_put w _ t); [exact O|reflexivity|discriminate|intros _; exact L].
  - destruct (IN _ EP) as [L O]; [discriminate|]. eapply (held_put w _ t); [exact O|reflexivity|discriminate|intros _; exact L].
  - destruct (IN _ EP) as [L O]; [discriminate|]. eapply (held_put w _ t); [exact O|reflexivity|discriminate|intros _; exact L].
  - destruct (IN _ EP) as [L O]; [discriminate|]. eapply (held_put w _ t); [exact O|reflexivity|discriminate|intros _; exact L].
  - destruct (IN _ EP) as [L O]; [discriminate|]. eapply (held_put w _ t); [exact O|reflexivity| |]; cbn [th_place]; [now destruct b|]. intros _. cbn [w_lock with_thread]. rewrite L. now destruct b.
  - destruct (IN _ EP) as [L O]; [discriminate|]. eapply (held_put w _ t); [exact O|reflexivity|discriminate|intros _; exact L].
  - destruct (IN _ EP) as [L O]; [discriminate|]. eapply (held_put w _ t); [exact O|reflexivity|discriminate|]. intros _. rewrite L in AC. cbn [acquire depth] in AC. rewrite Nat.eqb_refl in AC. injection AC as <-. reflexivity.
  - destruct (IN _ EP) as [L O]; [discriminate|]. eapply (held_put w _ t); [exact O|reflexivity|discriminate|intros _; exact L].
  - destruct (IN _ EP) as [L O]; [discriminate|]. eapply (held_put w _ t); [exact O|reflexivity|discriminate|intros _; exact L].
  - destruct (IN _ EP) as [L O]; [discriminate|]. eapply (held_put w _ t); [exact O|reflexivity| |]; cbn [th_place at_place]; [now destruct o|]. intros _. cbn [w_lock with_thread with_lock]. rewrite L. now destruct o.
  - destruct (IN _ EP) as [L O]; [discriminate|]. eapply (held_put w _ t); [exact O|reflexivity| |]; cbn [th_place]; [|congruence]. intros _. cbn [w_lock with_thread with_lock]. rewrite L. reflexivity.
Qed.

(** the adapter of the block is the one that is used *)
Definition ours (w : W) : Prop := forall t, let th := w_threads w t in
  match th_place th with
  | Taken _ _ => s_own (w_sessions w (th_session th)) = Some OfBlock
  | Chosen _ _ a => a = None
  | Asking _ q k => k = mark_order cc sha R (w_requests w) (kof q) /\ find (matches R k) (rev snapshots) = None /\ capture = true
  | _ => True
  end.
Lemma ours_step t w e w' : held w -> ours w -> stp t w e w' -> ours w'.
Proof.
  intros H HO S t'. cbv zeta. destruct (Nat.eq_dec t' t) as [->|NE].
  - specialize (HO t). cbv zeta in HO.
    destruct S as [s q l th ETH EP C AC|s q th ETH EP C AC|th b q ETH EP|th b q ETH EP|th b q a real ETH EP|th b q real s ETH EP F|th b q real ETH EP F C|th b q ETH EP F C
      |th b q k r ETH EP|th b q k x ETH EP|th b q r ETH EP|th b q o ETH EP NR|th o q l ETH EP FO AC|th o ETH EP FO|th b o ETH EP|th o ETH EP|th o ETH EP];
      rewrite <- ETH, EP in HO; cbn [w_threads with_lock with_session with_requests with_thread w_sessions w_requests]; rewrite upd_same; cbn [th_place at_place th_session]; auto.
    + rewrite upd_same. reflexivity.
    + unfold get_adapter. now rewrite HO.
    + now destruct b.
    + now destruct o.
  - assert (OUT : th_place (w_threads w t) <> Outside -> outside t' w).
    { intros N. now apply (held_inside w t H N). }
    assert (EQ : w_threads w' t' = w_threads w t').
    { destruct S; cbn [w_threads with_lock with_session with_requests with_thread]; now rewrite upd_other. }
    rewrite EQ. specialize (HO t'). cbv zeta in HO. unfold outside in OUT.
    destruct S as [s q l th ETH EP C AC|s q th ETH EP C AC|th b q ETH EP|th b q ETH EP|th b q a real ETH EP|th b q real s ETH EP F|th b q real ETH EP F C|th b q ETH EP F C
      |th b q k r ETH EP|th b q k x ETH EP|th b q r ETH EP|th b q o ETH EP NR|th o q l ETH EP FO AC|th o ETH EP FO|th b o ETH EP|th o ETH EP|th o ETH EP]; rewrite ETH in EP;
      try (rewrite OUT by (rewrite EP; discriminate); exact I); exact HO.
Qed.

(** what the adapter did *)
Notation sent := (send_all cc sha R X capture snapshots []).
Definition traced (l : list (nat * seen R X Q)) (w : W) : Prop :=
  sent (map (fun h => (kof (a_query h), a_real h)) (answered l)) = (w_requests w, map a_outcome (answered l), map a_used (answered l)).
Lemma send_all_snoc c k real : forall rs cs reqs os us, send_all cc sha R X c snapshots rs cs = (reqs, os, us) ->
  send_all cc sha R X c snapshots rs (cs ++ [(k, real)]) =
    let '(reqs', o, u) := send cc sha R X c snapshots reqs k real in (reqs', os ++ [o], us ++ [u]).
Proof.
  intros rs cs; revert rs. induction cs as [|[k0 r0] cs IH]; intros rs reqs os us; cbn [send_all app].
  - intros [= <- <- <-]. destruct (send cc sha R X c snapshots rs k real) as [[reqs' o] u]. reflexivity.
  - destruct (send cc sha R X c snapshots rs k0 r0) as [[rs1 o1] u1]. destruct (send_all cc sha R X c snapshots rs1 cs) as [[rs2 os2] us2] eqn:E.
    intros [= <- <- <-]. rewrite (IH _ _ _ _ E). destruct (send cc sha R X c snapshots rs2 k real) as [[reqs' o] u]. reflexivity.
Qed.
Lemma traced_step t w e w' l : held w -> ours w -> traced l w -> stp t w e w' -> traced (l ++ match e with Some e => [(t, e)] | None => [] end) w'.
Proof.
  intros H HO T S. specialize (HO t). cbv zeta in HO. unfold traced in *.
  assert (SN : forall q real o u w2, send cc sha R X capture snapshots (w_requests w) (kof q) real = (w_requests w2, o, u) ->
     traced (l ++ [(t, Hop q real o u)]) w2).
  { intros q real o u w2 E. unfold traced, answered. rewrite flat_map_app, !map_app. cbn [flat_map snd map app a_query a_real a_outcome a_used].
    fold (answered l). rewrite (send_all_snoc _ _ _ _ _ _ _ _ T), E. reflexivity. }
  assert (SK : forall w2, w_requests w2 = w_requests w -> traced (l ++ []) w2).
  { intros w2 E. unfold traced. now rewrite app_nil_r, T, E. }
  destruct S as [s q lk th ETH EP C AC|s q th ETH EP C AC|th b q ETH EP|th b q ETH EP|th b q a real ETH EP|th b q real s ETH EP F|th b q real ETH EP F C|th b q ETH EP F C
    |th b q k r ETH EP|th b q k x ETH EP|th b q r ETH EP|th b q o ETH EP NR|th o q lk ETH EP FO AC|th o ETH EP FO|th b o ETH EP|th o ETH EP|th o ETH EP];
    rewrite <- ETH, EP in HO; try (now apply SK).
  - unfold answered. rewrite flat_map_app. cbn [flat_map snd app]. rewrite app_nil_r. fold (answered l). exact T.
  - discriminate HO.
  - apply SN. unfold send. now rewrite F.
  - apply SN. unfold send. now rewrite F, C.
  - destruct HO as (EK & F & C). apply SN. unfold send. rewrite <- EK, F, C. reflexivity.
  - destruct HO as (EK & F & C). apply SN. unfold send. rewrite <- EK, F, C. reflexivity.
Qed.

(** each thread does what it does alone *)
Definition settle (chain : list (Q * R)) (rs : list (result R X)) : list (Q * R) * list (result R X) :=
  match follow chain with Some _ => (chain, rs) | None => ([], rs ++ [Done (replies R X Q chain)]) end.
Definition failed (o : outcome R X) : Prop := forall r, o <> Returned r.
Definition agrees (t : nat) (th : thread R X A Q) (chain : list (Q * R)) (rs : list (result R X)) : Prop :=
  match th_place th with
  | Outside => chain = [] /\ rs = th_results th
  | Entered b q | Taken b q | Chosen b q _ | Asking b q _ =>
      chain = th_hops th /\ rs = th_results th /\ wants R X Q follow (code t) chain rs q /\ b = match th_hops th with [] => false | _ => true end
  | Answered b q o => (chain, rs) = after R X Q follow (th_hops th) (th_results th) q o /\ b = match th_hops th with [] => false | _ => true end
  | Deciding o => (exists r, o = Returned r) /\ th_hops th <> [] /\ (chain, rs) = settle (th_hops th) (th_results th)
  | Leaving b o | Restored b o =>
      (exists r, o = Returned r /\ th_hops th <> [] /\ (b = false -> follow (th_hops th) = None) /\ (chain, rs) = settle (th_hops th) (th_results th)) \/
      (failed o /\ (chain, rs) = ([], th_results th ++ [Done (replies R X Q (th_hops th) ++ [o])]))
  end.
Definition progress (l : list (nat * seen R X Q)) (w : W) : Prop :=
  forall t, exists chain rs, alone R X Q follow (code t) (of_thread t l) chain rs /\ agrees t (w_threads w t) chain rs.

Lemma of_thread_snoc {E} t t' (e : E) l : of_thread t (l ++ [(t', e)]) = of_thread t l ++ if Nat.eqb t' t then [e] else [].
Proof. unfold of_thread. rewrite filter_app, map_app. cbn [filter fst]. now destruct (Nat.eqb t' t). Qed.

Lemma progress_step t w e w' l : held w -> ours w -> progress l w -> stp t w e w' -> progress (l ++ match e with Some e => [(t, e)] | None => [] end) w'.
Proof.
  intros H HO P S t'. destruct (Nat.eq_dec t' t) as [->|NE].
  2:{ destruct (P t') as (chain & rs & AL & AG). exists chain, rs. split.
      - destruct e; [rewrite of_thread_snoc; destruct (Nat.eqb_spec t t'); [congruence|]|]; now rewrite app_nil_r.
      - assert (EQ : w_threads w' t' = w_threads w t'); [|now rewrite EQ].
        destruct S; cbn [w_threads with_lock with_session with_requests with_thread]; now rewrite upd_other. }
  destruct (P t) as (chain & rs & AL & AG).
  assert (QUIET : forall th', w_threads w' t = th' -> agrees t th' chain rs -> e = None -> exists chain rs, alone R X Q follow (code t) (of_thread t (l ++ match e with Some e => [(t, e)] | None => [] end)) chain rs /\ agrees t (w_threads w' t) chain rs).
  { intros th' E1 AG' ->. exists chain, rs. rewrite app_nil_r, E1. now split. }
  assert (HOP : forall q real o u th, wants R X Q follow (code t) chain rs q -> w_threads w' t = th ->
     agrees t th (fst (after R X Q follow chain rs q o)) (snd (after R X Q follow chain rs q o)) -> e = Some (Hop q real o u) ->
     exists chain rs, alone R X Q follow (code t) (of_thread t (l ++ match e with Some e => [(t, e)] | None => [] end)) chain rs /\ agrees t (w_threads w' t) chain rs).
  { intros q real o u th WA E1 AG' ->. rewrite of_thread_snoc, Nat.eqb_refl, E1. do 2 eexists. split; [apply alone_hop; [exact AL|exact WA]|exact AG']. }
  specialize (HO t). cbv zeta in HO. unfold agrees in AG.
  destruct S as [s q lk th ETH EP C AC|s q th ETH EP C AC|th b q ETH EP|th b q ETH EP|th b q a real ETH EP|th b q real s ETH EP F|th b q real ETH EP F C|th b q ETH EP F C
    |th b q k r ETH EP|th b q k x ETH EP|th b q r ETH EP|th b q o ETH EP NR|th o q lk ETH EP FO AC|th o ETH EP FO|th b o ETH EP|th o ETH EP|th o ETH EP];
    rewrite <- ETH, EP in HO; rewrite <- ETH, EP in AG.
  - destruct AG as [-> ->]. eapply QUIET; [apply upd_same| |reflexivity]. unfold agrees. cbn [th_place th_hops th_results]. split; [reflexivity|]. split; [reflexivity|]. split; [|reflexivity].
    exists s. exact C.
  - destruct AG as [-> ->]. rewrite of_thread_snoc, Nat.eqb_refl. exists [], (th_results th ++ [TimedOut]). split; [now apply (alone_late _ _ _ _ _ _ _ s q)|].
    cbn [w_threads with_thread]. rewrite upd_same. split; reflexivity.
  - eapply QUIET; [apply upd_same|exact AG|reflexivity].
  - eapply QUIET; [apply upd_same|exact AG|reflexivity].
  - discriminate HO.
  - destruct AG as (EC & ER & WA & EB). eapply HOP; [exact WA|apply upd_same| |reflexivity]. unfold agrees. cbn [th_place at_place th_hops th_results]. rewrite <- surjective_pairing, EC, ER. now split.
  - destruct AG as (EC & ER & WA & EB). eapply HOP; [exact WA|apply upd_same| |reflexivity]. unfold agrees. cbn [th_place at_place th_hops th_results]. rewrite <- surjective_pairing, EC, ER. now split.
  - eapply QUIET; [apply upd_same|exact AG|reflexivity].
  - destruct AG as (EC & ER & WA & EB). eapply HOP; [exact WA|apply upd_same| |reflexivity]. unfold agrees. cbn [th_place at_place th_hops th_results]. rewrite <- surjective_pairing, EC, ER. now split.
  - destruct AG as (EC & ER & WA & EB). eapply HOP; [exact WA|apply upd_same| |reflexivity]. unfold agrees. cbn [th_place at_place th_hops th_results]. rewrite <- surjective_pairing, EC, ER. now split.
  - destruct AG as [EA EB]. eapply QUIET; [apply upd_same| |reflexivity]. unfold agrees. cbn [th_place th_hops th_results].
    assert (NN : th_hops th ++ [(q, r)] <> []) by (destruct (th_hops th); discriminate).
    destruct b; [left; exists r; split; [reflexivity|]; split; [exact NN|]; split; [discriminate|exact EA]|]. split; [now exists r|]. split; [exact NN|exact EA].
  - destruct AG as [EA EB]. eapply QUIET; [apply upd_same| |reflexivity]. unfold agrees. cbn [th_place at_place th_hops th_results]. right. split; [exact NR|].
    rewrite EA. unfold after. destruct o; [now elim (NR r)|reflexivity|reflexivity].
  - destruct AG as (_ & NH & ES). unfold settle in ES. rewrite FO in ES. injection ES as -> ->. eapply QUIET; [apply upd_same| |reflexivity]. unfold agrees. cbn [th_place at_place th_hops th_results].
    split; [reflexivity|]. split; [reflexivity|]. unfold wants. destruct (th_hops th); [congruence|]. now split.
  - destruct AG as ((r & ->) & NH & ES). eapply QUIET; [apply upd_same| |reflexivity]. unfold agrees. cbn [th_place at_place th_hops th_results]. left. exists r. auto.
  - eapply QUIET; [apply upd_same|exact AG|reflexivity].
  - eapply QUIET; [apply upd_same| |reflexivity]. unfold agrees. cbn [th_place at_place th_hops th_results]. destruct AG as [(r & -> & NH & _ & ES)|[FA ES]].
    + split; [now exists r|]. now split.
    + destruct o; [now elim (FA r)| |]; right; now split.
  - eapply QUIET; [apply upd_same| |reflexivity]. unfold agrees. cbn [th_place at_place th_hops th_results]. destruct AG as [(r & -> & NH & FN & ES)|[FA ES]].
    + unfold settle in ES. rewrite FN in ES by reflexivity. injection ES as -> ->. now rewrite app_nil_r.
    + injection ES as -> ->. split; [reflexivity|]. destruct o; [now elim (FA r)|reflexivity|reflexivity].
Qed.

(** sessions that nobody uses at the moment are as they were, but for get_adapter *)
Definition quiet (w0 w : W) (i : nat) : Prop := s_own (w_sessions w i) = s_own (w_sessions w0 i) \/ s_own (w_sessions w i) = Some OfSession.
Definition busy (p : place R X A Q) : Prop :=
  match p with Entered true _ | Taken _ _ | Chosen _ _ _ | Asking _ _ _ | Answered _ _ _ | Deciding _ | Leaving _ _ => True | _ => False end.
Definition clean (w0 w : W) : Prop := forall i,
  s_class (w_sessions w i) = s_class (w_sessions w0 i) /\ s_mounted (w_sessions w i) = s_mounted (w_sessions w0 i) /\
  (quiet w0 w i \/ exists t, th_session (w_threads w t) = i /\ busy (th_place (w_threads w t))).
Lemma clean_step w0 t w e w' : clean w0 w -> stp t w e w' -> clean w0 w'.
Proof.
  intros C S i. destruct (C i) as (E1 & E2 & E3).
  assert (KEEP : w_sessions w' i = w_sessions w i -> (th_session (w_threads w t) = i -> busy (th_place (w_threads w t)) -> th_session (w_threads w' t) = i /\ busy (th_place (w_threads w' t))) ->
    s_class (w_sessions w' i) = s_class (w_sessions w0 i) /\ s_mounted (w_sessions w' i) = s_mounted (w_sessions w0 i) /\
    (quiet w0 w' i \/ exists t, th_session (w_threads w' t) = i /\ busy (th_place (w_threads w' t)))).
  { intros ES B. unfold quiet in *. rewrite ES. split; [exact E1|]. split; [exact E2|]. destruct E3 as [Q1|(t' & I & BU)]; [now left|]. right.
    destruct (Nat.eq_dec t' t) as [->|NE]; [exists t; now apply B|]. exists t'.
    replace (w_threads w' t') with (w_threads w t'); [now split|]. destruct S; cbn [w_threads with_lock with_session with_requests with_thread]; now rewrite upd_other. }
  destruct S as [s q l th ETH EP CO AC|s q th ETH EP CO AC|th b q ETH EP|th b q ETH EP|th b q a real ETH EP|th b q real s ETH EP F|th b q real ETH EP F CA|th b q ETH EP F CA
    |th b q k r ETH EP|th b q k x ETH EP|th b q r ETH EP|th b q o ETH EP NR|th o q l ETH EP FO AC|th o ETH EP FO|th b o ETH EP|th o ETH EP|th o ETH EP];
    try (apply KEEP; [reflexivity|]; rewrite <- ETH, EP; cbn [w_threads with_lock with_session with_requests with_thread]; rewrite upd_same; cbn [th_session th_place at_place busy];
         intros EI BU; split; try exact EI; try exact I; try contradiction BU).
  - cbn [w_sessions with_session w_threads with_thread]. destruct (Nat.eq_dec i (th_session th)) as [->|NE].
    + rewrite upd_same. cbn [s_class s_mounted set_own]. split; [exact E1|]. split; [exact E2|]. right. exists t. rewrite upd_same. split; [reflexivity|exact I].
    + apply KEEP; [cbn [w_sessions with_session]; now rewrite upd_other|]. cbn [w_threads with_session with_thread]. rewrite upd_same. rewrite <- ETH. intros EI. congruence.
  - now destruct b.
  - cbn [w_sessions with_session w_threads with_thread]. destruct (Nat.eq_dec i (th_session th)) as [->|NE].
    + rewrite upd_same. cbn [s_class s_mounted set_own]. split; [exact E1|]. split; [exact E2|]. left. right. cbn [w_sessions with_session]. now rewrite upd_same.
    + apply KEEP; [cbn [w_sessions with_session]; now rewrite upd_other|]. cbn [w_threads with_session with_thread]. rewrite upd_same. rewrite <- ETH. intros EI. congruence.
Qed.

(** all of it, after any steps *)
Lemma reach w0 l w : at_start w0 -> run w0 l w -> held w /\ ours w /\ traced l w /\ progress l w /\ clean w0 w.
Proof.
  intros (L & RQ & T) S. induction S as [|l w1 t e w2 S IH ST].
  - split; [left; split; [exact L|apply T]|]. split; [intros t; cbv zeta; now rewrite (proj1 (T t))|]. split; [now unfold traced; rewrite RQ|].
    split; [|intros i; split; [reflexivity|]; split; [reflexivity|]; left; now left].
    intros t. exists [], []. split; [constructor|]. unfold agrees. rewrite (proj1 (T t)). split; [reflexivity|]. symmetry. apply T.
  - destruct IH as (H & O & TR & P & C). split; [eapply held_step; eassumption|]. split; [eapply ours_step; eassumption|].
    split; [eapply traced_step; eassumption|]. split; [eapply progress_step; eassumption|eapply clean_step; eassumption].
Qed.
Lemma run_split w0 l w : run w0 l w -> forall a t e c, l = a ++ (t, e) :: c -> exists w1 w2, run w0 a w1 /\ stp t w1 (Some e) w2.
Proof.
  intros S. induction S as [|l w1 t0 e0 w2 S IH ST]; intros a t e c E; [destruct a; discriminate|].
  destruct e0 as [e0|]; [|rewrite app_nil_r in E; eauto].
  destruct c as [|x c _] using rev_ind.
  - apply app_inj_tail in E as [-> E]. injection E as <- <-. eauto.
  - rewrite app_comm_cons, app_assoc in E. apply app_inj_tail in E as [-> _]. eauto.
Qed.
End Proofs.
