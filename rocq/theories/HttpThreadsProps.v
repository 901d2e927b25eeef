(** C122: several threads that make requests in one block. *)
From Verif Require Import PyStrFacts HttpModel HttpSessionModel HttpThreadsModel HttpThreadsSpec HttpThreadsProofs HttpProofs HttpHash HttpProps HttpOrderProofs HttpOrderProps
  HttpListModel HttpListProofs HttpListProps TokenizerProps.
From Coq Require Import Permutation Lia.

(** In every interleaving of the threads: the block answers and records as if the requests had been made one after another, in the
    order in which they were answered, and no other adapter is used; every thread gets what it would get alone from these answers,
    or the exception of the lock; a request and its redirects are not interrupted by requests of other threads; a thread gives up
    only while another one is inside; and the sessions keep their adapters and get back the get_adapter of requests.Session. *)
Theorem C122_one_at_a_time : forall cc sha R X A Q url_of key_of follow capture snapshots code (w0 w : world R X A Q) l,
  at_start w0 -> steps cc sha R X A Q url_of key_of follow capture snapshots code w0 l w ->
  send_all cc sha R X capture snapshots [] (map (fun h => (key_of (a_query h), a_real h)) (answered l)) =
    (w_requests w, map a_outcome (answered l), map a_used (answered l)) /\
  (forall t, exists chain rs, alone R X Q follow (code t) (of_thread t l) chain rs /\ (outside t w -> chain = [] /\ rs = th_results (w_threads w t))) /\
  (forall t t', ~ outside t w -> ~ outside t' w -> t = t') /\
  (forall a t q real o used c t', l = a ++ (t, Hop q real o used) :: c -> t' <> t -> exists rs, alone R X Q follow (code t') (of_thread t' a) [] rs) /\
  (forall a t c, l = a ++ (t, Late) :: c ->
     exists w1 t', steps cc sha R X A Q url_of key_of follow capture snapshots code w0 a w1 /\ t' <> t /\ ~ outside t' w1) /\
  (forall i, s_class (w_sessions w i) = s_class (w_sessions w0 i) /\ s_mounted (w_sessions w i) = s_mounted (w_sessions w0 i) /\
     ((forall t, outside t w) -> s_own (w_sessions w i) = s_own (w_sessions w0 i) \/ s_own (w_sessions w i) = Some OfSession)).
Proof.
  intros cc sha R X A Q url_of kof follow capture snapshots code w0 w l ST S.
  destruct (reach _ _ _ _ _ _ _ _ _ _ _ _ _ _ _ ST S) as (H & O & TR & P & C). split; [exact TR|]. split; [|split; [|split; [|split]]].
  - intros t. destruct (P t) as (chain & rs & AL & AG). exists chain, rs. split; [exact AL|]. intros OUT. unfold agrees in AG. rewrite OUT in AG. exact AG.
  - intros t t' I I'. destruct (Nat.eq_dec t t') as [E|N]; [exact E|]. elim I. apply (proj2 (held_inside _ _ _ _ _ _ H I')). exact N.
  - intros a t q real o used c t' E NT. destruct (run_split _ _ _ _ _ _ _ _ _ _ _ _ _ _ _ S _ _ _ _ E) as (w1 & w2 & S1 & S2).
    destruct (reach _ _ _ _ _ _ _ _ _ _ _ _ _ _ _ ST S1) as (H1 & _ & _ & P1 & _). destruct (P1 t') as (chain & rs & AL & AG).
    assert (IN : ~ outside t w1) by (inversion S2; unfold outside; subst; congruence).
    assert (OUT : outside t' w1) by (now apply (held_inside _ _ _ _ _ _ H1 IN)). unfold agrees in AG. rewrite OUT in AG. destruct AG as [-> ->]. eauto.
  - intros a t c E. destruct (run_split _ _ _ _ _ _ _ _ _ _ _ _ _ _ _ S _ _ _ _ E) as (w1 & w2 & S1 & S2).
    destruct (reach _ _ _ _ _ _ _ _ _ _ _ _ _ _ _ ST S1) as (H1 & _). exists w1. inversion S2 as [|s q th ETH EP CO AC| | | | | | | | | | | | | | |]; subst.
    destruct H1 as [[L _]|(t0 & L & I & _)]; [rewrite L in AC; discriminate|]. exists t0. split; [exact S1|]. split; [|exact I]. intros ->. now apply I.
  - intros i. destruct (C i) as (E1 & E2 & E3). split; [exact E1|]. split; [exact E2|]. intros OUT. destruct E3 as [E3|(t & _ & B)]; [exact E3|]. now rewrite (OUT t) in B.
Qed.
Print Assumptions C122_one_at_a_time.

(** As long as a thread is in a request or wants to make one, some thread can go on, without giving up. *)
Theorem C122_no_deadlock : forall cc sha R X A Q url_of key_of follow capture snapshots code (w0 w : world R X A Q) l t,
  at_start w0 -> steps cc sha R X A Q url_of key_of follow capture snapshots code w0 l w -> inhabited (R + X) ->
  ~ outside t w \/ code t (th_results (w_threads w t)) <> None ->
  exists t' e w', step cc sha R X A Q url_of key_of follow capture snapshots code t' w e w' /\ e <> Some Late.
Proof.
  intros cc sha R X A Q url_of kof follow capture snapshots code w0 w l t ST S [any] D.
  destruct (reach _ _ _ _ _ _ _ _ _ _ _ _ _ _ _ ST S) as (H & O & _ & _ & _).
  destruct H as [[L OUT]|(t0 & L & I & OUT)].
  - destruct D as [D|D]; [now elim D|]. destruct (code t (th_results (w_threads w t))) as [[s q]|] eqn:E; [|congruence].
    exists t, None. eexists. split; [eapply Enter; [reflexivity|apply OUT|exact E|now rewrite L]|discriminate].
  - exists t0. unfold outside in I. specialize (O t0). cbv zeta in O. destruct (th_place (w_threads w t0)) as [|b q|b q|b q a|b q k|b q o|o|b o|b o] eqn:EP; [congruence| | | | | | | |].
    + eexists None, _. split; [eapply Take; [reflexivity|exact EP]|discriminate].
    + eexists None, _. split; [eapply Choose; [reflexivity|exact EP]|discriminate].
    + subst a. destruct (find (matches R (mark_order cc sha R (w_requests w) (kof q))) (rev snapshots)) as [s|] eqn:F.
      * eexists (Some _), _. split; [eapply (Found _ _ _ _ _ _ _ _ _ _ _ _ _ _ _ _ _ any); [reflexivity|exact EP|exact F]|discriminate].
      * destruct capture eqn:CA.
        -- eexists None, _. split; [eapply Ask; [reflexivity|exact EP|exact F|reflexivity]|discriminate].
        -- eexists (Some _), _. split; [eapply (NotFound _ _ _ _ _ _ _ _ _ _ _ _ _ _ _ _ _ any); [reflexivity|exact EP|exact F|reflexivity]|discriminate].
    + destruct any as [r|x].
      * eexists (Some _), _. split; [eapply (Answer _ _ _ _ _ _ _ _ _ _ _ _ _ _ _ _ _ _ r); [reflexivity|exact EP]|discriminate].
      * eexists (Some _), _. split; [eapply (Break _ _ _ _ _ _ _ _ _ _ _ _ _ _ _ _ _ _ x); [reflexivity|exact EP]|discriminate].
    + destruct o as [r| |x].
      * eexists None, _. split; [eapply Respond; [reflexivity|exact EP]|discriminate].
      * eexists None, _. split; [eapply Fail; [reflexivity|exact EP|discriminate]|discriminate].
      * eexists None, _. split; [eapply Fail; [reflexivity|exact EP|discriminate]|discriminate].
    + destruct (follow (th_hops (w_threads w t0))) as [q|] eqn:F.
      * eexists None, _. split; [eapply Redirect; [reflexivity|exact EP|exact F|rewrite L; cbn [acquire]; rewrite Nat.eqb_refl; reflexivity]|discriminate].
      * eexists None, _. split; [eapply Final; [reflexivity|exact EP|exact F]|discriminate].
    + eexists None, _. split; [eapply Restore; [reflexivity|exact EP]|discriminate].
    + destruct b.
      * eexists None, _. split; [eapply BackInner; [reflexivity|exact EP]|discriminate].
      * eexists None, _. split; [eapply Back; [reflexivity|exact EP]|discriminate].
Qed.
Print Assumptions C122_no_deadlock.
(** Examples of runs with two threads, a redirect and an exception of the lock: C122_replay_example and C122_late_example in HttpThreadsReplayProps.v. *)
