From Verif Require Import PyStrFacts FsFacts CacheSpec.
From Coq Require Import Lia.

Lemma key_eqb_eq a b : key_eqb a b = true <-> a = b.
Proof.
  destruct a, b; cbn; try (split; congruence). rewrite str_eqb_eq. split; congruence.
Qed.
Lemma key_eqb_refl a : key_eqb a a = true.
Proof. now apply key_eqb_eq. Qed.
Lemma key_eqb_neq a b : key_eqb a b = false <-> a <> b.
Proof. rewrite <- key_eqb_eq. destruct (key_eqb a b); split; congruence. Qed.
Lemma key_eqb_sym a b : key_eqb a b = key_eqb b a.
Proof.
  destruct (key_eqb a b) eqn:E; symmetry; [apply key_eqb_eq in E; subst; apply key_eqb_refl|].
  apply key_eqb_neq. apply key_eqb_neq in E. congruence.
Qed.

Section Od.
Context {V : Type}.
Implicit Types d : odict V.
Implicit Types ops : list (op V).

Lemma find_set k v d k' : od_find k' (od_set k v d) = if key_eqb k k' then Some v else od_find k' d.
Proof.
  induction d as [|[x w] d IH]; cbn.
  - reflexivity.
  - destruct (key_eqb x k) eqn:E; cbn.
    + apply key_eqb_eq in E. subst. now destruct (key_eqb k k').
    + destruct (key_eqb x k') eqn:E'; [|assumption].
      apply key_eqb_eq in E'. subst. rewrite key_eqb_sym in E. now rewrite E.
Qed.

Lemma find_del k d k' : od_find k' (od_del k d) = if key_eqb k k' then None else od_find k' d.
Proof.
  unfold od_del. induction d as [|[x w] d IH]; cbn; [now destruct (key_eqb k k')|].
  destruct (key_eqb x k) eqn:E; cbn.
  - rewrite IH. apply key_eqb_eq in E. subst. now destruct (key_eqb k k').
  - rewrite IH. destruct (key_eqb x k') eqn:E'; [|reflexivity].
    apply key_eqb_eq in E'. subst. rewrite key_eqb_sym in E. now rewrite E.
Qed.

Lemma find_app k a b : od_find k (a ++ b : odict V) = match od_find k a with Some v => Some v | None => od_find k b end.
Proof.
  induction a as [|[x w] a IH]; cbn; [reflexivity|]. destruct (key_eqb x k); [reflexivity|assumption].
Qed.

Lemma find_move k d k' : od_find k' (od_move_to_end k d) = od_find k' d.
Proof.
  unfold od_move_to_end. destruct (od_find k d) as [v|] eqn:E; [|reflexivity].
  rewrite find_app, find_del. cbn. destruct (key_eqb k k') eqn:Q.
  - apply key_eqb_eq in Q. now subst.
  - destruct (od_find k' d); reflexivity.
Qed.

Lemma find_In k d : od_in k d = true <-> In k (map fst d).
Proof.
  unfold od_in. induction d as [|[x w] d IH]; cbn; [split; [discriminate|intros []]|].
  destruct (key_eqb x k) eqn:E.
  - apply key_eqb_eq in E. split; [now left|reflexivity].
  - apply key_eqb_neq in E. rewrite IH. intuition.
Qed.

Lemma find_tl k v d : NoDup (map fst d) -> od_find k (tl d) = Some v -> od_find k d = Some v.
Proof.
  destruct d as [|[x w] d]; cbn; [trivial|]. intros ND E. inversion ND as [|? ? NI _]; subst.
  destruct (key_eqb x k) eqn:Q; [|assumption]. apply key_eqb_eq in Q. subst.
  exfalso. apply NI. apply find_In. unfold od_in. now rewrite E.
Qed.

Lemma keys_del k d : map fst (od_del k d) = filter (fun y => negb (key_eqb y k)) (map fst d).
Proof.
  unfold od_del. induction d as [|[x w] d IH]; cbn; [reflexivity|]. destruct (key_eqb x k); cbn; [assumption|now rewrite IH].
Qed.

Lemma keys_set k v d : map fst (od_set k v d) = if od_in k d then map fst d else map fst d ++ [k].
Proof.
  unfold od_in. induction d as [|[x w] d IH]; cbn; [reflexivity|].
  destruct (key_eqb x k) eqn:E; cbn; [reflexivity|]. rewrite IH. now destruct (od_find k d).
Qed.

Definition without (k : key) (l : list key) : list key := filter (fun y => negb (key_eqb y k)) l.

Lemma without_not_In k l : ~ In k l -> without k l = l.
Proof.
  unfold without. induction l as [|x l IH]; cbn; [reflexivity|]. intros H. destruct (key_eqb x k) eqn:E; cbn.
  - apply key_eqb_eq in E. subst. exfalso. apply H. now left.
  - rewrite IH; [reflexivity|]. tauto.
Qed.

Lemma without_In k l x : In x (without k l) <-> In x l /\ x <> k.
Proof. unfold without. rewrite filter_In, negb_true_iff, key_eqb_neq. reflexivity. Qed.

Lemma without_NoDup k l : NoDup l -> NoDup (without k l).
Proof. apply NoDup_filter. Qed.

Lemma without_app k a b : without k (a ++ b) = without k a ++ without k b.
Proof. apply filter_app. Qed.

Lemma without_rev k l : without k (rev l) = rev (without k l).
Proof.
  induction l as [|x l IH]; cbn [rev]; [reflexivity|]. rewrite without_app, IH. cbn.
  destruct (key_eqb x k); cbn; [now rewrite app_nil_r|reflexivity].
Qed.

Lemma keys_move k d : map fst (od_move_to_end k d) = if od_in k d then without k (map fst d) ++ [k] else map fst d.
Proof.
  unfold od_move_to_end, od_in. destruct (od_find k d); [|reflexivity]. now rewrite map_app, keys_del.
Qed.

(** keys after storing: the key last, the rest as before *)
Lemma keys_move_set k v d : map fst (od_move_to_end k (od_set k v d)) = without k (map fst d) ++ [k].
Proof.
  rewrite keys_move. unfold od_in. rewrite find_set, key_eqb_refl. rewrite keys_set.
  destruct (od_in k d) eqn:E; [reflexivity|]. rewrite without_app. cbn. rewrite key_eqb_refl. cbn.
  now rewrite app_nil_r.
Qed.

Lemma NoDup_snoc_iff (l : list key) k : NoDup (l ++ [k]) <-> NoDup l /\ ~ In k l.
Proof.
  split.
  - intros H. apply NoDup_remove in H. rewrite app_nil_r in H. assumption.
  - intros [H N]. rewrite <- (rev_involutive (l ++ [k])). apply NoDup_rev. rewrite rev_app_distr. cbn.
    constructor; [now rewrite <- in_rev|now apply NoDup_rev].
Qed.

(** ** Recency *)

Lemma dedup_NoDup l : NoDup (dedup l).
Proof.
  induction l as [|x l IH]; cbn; constructor; [|now apply NoDup_filter].
  rewrite filter_In, negb_true_iff, key_eqb_neq. tauto.
Qed.

Lemma dedup_In l x : In x (dedup l) <-> In x l.
Proof.
  induction l as [|y l IH]; cbn; [reflexivity|]. rewrite filter_In, negb_true_iff, key_eqb_neq, IH.
  split; [tauto|]. intros [->|H]; [now left|].
  destruct (key_eqb y x) eqn:E; [apply key_eqb_eq in E; now left|apply key_eqb_neq in E; right; split; [assumption|congruence]].
Qed.

Lemma firstn_without k (l : list key) n : NoDup l -> firstn n (without k (firstn (S n) l)) = firstn n (without k l).
Proof.
  revert n. induction l as [|x l IH]; intros n ND; [reflexivity|]. inversion ND as [|? ? NI ND']; subst.
  cbn [firstn]. cbn [without filter]. destruct (key_eqb x k) eqn:E; cbn [negb].
  - apply key_eqb_eq in E. subst. fold (without k (firstn n l)). fold (without k l).
    rewrite !without_not_In; trivial.
    + rewrite firstn_firstn. now rewrite Nat.min_id.
    + intros H. apply NI. rewrite <- (firstn_skipn n l). apply in_app_iff. now left.
  - fold (without k (firstn n l)). fold (without k l). destruct n as [|n]; [reflexivity|].
    cbn [firstn]. f_equal. now apply IH.
Qed.

Lemma without_length k l : NoDup l -> In k l -> length (without k l) = length l - 1.
Proof.
  induction l as [|x l IH]; cbn; [intros _ []|]. intros ND H. inversion ND as [|? ? NI ND']; subst.
  destruct (key_eqb x k) eqn:E; cbn.
  - apply key_eqb_eq in E. subst. fold (without k l). rewrite without_not_In by assumption. lia.
  - fold (without k l). destruct H as [->|H]; [now rewrite key_eqb_refl in E|].
    rewrite IH by assumption. destruct l; [destruct H|]. cbn. lia.
Qed.

(** the invariant: keys newest first are the [n] most recently used *)
Definition recent (n : nat) (u : list key) : list key := firstn n (dedup (rev u)).

Lemma recent_NoDup n u : NoDup (recent n u).
Proof.
  unfold recent. pose proof (dedup_NoDup (rev u)) as H. rewrite <- (firstn_skipn n) in H.
  induction (firstn n (dedup (rev u))) as [|x l IH]; [constructor|]. cbn in H. inversion H; subst.
  constructor; [|auto]. intros X. apply H2. apply in_app_iff. now left.
Qed.

Lemma recent_snoc n u k : recent (S n) (u ++ [k]) = k :: firstn n (without k (recent (S n) u)).
Proof.
  unfold recent at 1. rewrite rev_app_distr. cbn [rev app dedup firstn]. f_equal.
  fold (without k (dedup (rev u))). unfold recent. symmetry. apply firstn_without. apply dedup_NoDup.
Qed.

Lemma recent_hit n u k : In k (recent n u) -> recent n (u ++ [k]) = k :: without k (recent n u).
Proof.
  intros H. destruct n as [|n]; [destruct H|]. rewrite recent_snoc. f_equal. apply firstn_all2.
  rewrite without_length by (assumption || apply recent_NoDup).
  unfold recent. rewrite firstn_length. lia.
Qed.

Definition keys_new d : list key := rev (map fst d).

Lemma lru_get_keys k d : keys_new (snd (lru_get k d)) = if od_in k d then k :: without k (keys_new d) else keys_new d.
Proof.
  unfold lru_get, keys_new. destruct (od_in k d) eqn:E; cbn [snd]; [|reflexivity].
  rewrite keys_move, E, rev_app_distr. cbn. now rewrite without_rev.
Qed.

Lemma tl_app_last (A : Type) (l : list A) x : tl (l ++ [x]) = match l with [] => [] | _ :: r => r ++ [x] end.
Proof. now destruct l. Qed.

Lemma map_tl (A B : Type) (f : A -> B) l : map f (tl l) = tl (map f l).
Proof. now destruct l. Qed.

Lemma lru_set_keys n k v d : length d <= n ->
  keys_new (lru_set n (Some k) v d) = firstn n (Some k :: without (Some k) (keys_new d)).
Proof.
  intros L. unfold lru_set, keys_new. set (d1 := od_move_to_end (Some k) (od_set (Some k) v d)).
  assert (K : map fst d1 = without (Some k) (map fst d) ++ [Some k]) by apply keys_move_set.
  assert (KR : rev (map fst d1) = Some k :: without (Some k) (rev (map fst d))).
  { rewrite K, rev_app_distr. cbn. now rewrite without_rev. }
  assert (LL : length (without (Some k) (map fst d)) <= length d).
  { unfold without. clear. rewrite <- (map_length fst d). induction (map fst d) as [|x l IH]; cbn; [lia|].
    destruct (negb (key_eqb x (Some k))); cbn; lia. }
  assert (L1 : length d1 = S (length (without (Some k) (map fst d)))).
  { rewrite <- (map_length fst d1), K, app_length. cbn. lia. }
  destruct (Nat.ltb n (length d1)) eqn:E.
  - apply Nat.ltb_lt in E. rewrite map_tl.
    assert (Q : length (rev (map fst d1)) = S n). { rewrite rev_length, map_length. lia. }
    rewrite <- KR. rewrite <- (rev_involutive (map fst d1)) at 1.
    destruct (rev (map fst d1)) as [|x r] eqn:R using rev_ind; [discriminate|].
    clear IHr. rewrite rev_app_distr. cbn [rev app tl]. rewrite rev_involutive.
    rewrite app_length in Q. cbn in Q. rewrite firstn_app. replace (n - length r) with 0 by lia. cbn [firstn].
    rewrite app_nil_r. symmetry. apply firstn_all2. lia.
  - apply Nat.ltb_ge in E. rewrite KR. symmetry. apply firstn_all2. rewrite <- KR, rev_length, map_length. lia.
Qed.

Lemma lru_inv n ops : forall d u, length d <= n -> keys_new d = recent n u ->
  ~ In None (map fst d) ->
  let d' := fold_left (fun d o => lru_op n o d) ops d in
  length d' <= n /\ keys_new d' = recent n (u ++ used_from n d ops) /\ ~ In None (map fst d').
Proof.
  induction ops as [|o ops IH]; cbn [fold_left used_from]; intros d u L K NN.
  - rewrite app_nil_r. auto.
  - assert (X : length (lru_op n o d) <= n /\ keys_new (lru_op n o d) = recent n (u ++ uses d o)
                /\ ~ In None (map fst (lru_op n o d))).
    { assert (len_keys : forall x : odict V, length x = length (keys_new x)) by (intros x; unfold keys_new; now rewrite rev_length, map_length).
      assert (in_keys : forall (x : odict V) k, In k (map fst x) <-> In k (keys_new x)) by (intros x k; unfold keys_new; apply in_rev).
      assert (RL : forall w, length (recent n w) <= n) by (intros w; unfold recent; rewrite firstn_length; lia).
      destruct o as [[k|] v|k]; cbn [lru_op uses].
      - assert (E : keys_new (lru_set n (Some k) v d) = recent n (u ++ [Some k])).
        { rewrite lru_set_keys by assumption. rewrite K. destruct n as [|n']; [reflexivity|].
          rewrite recent_snoc. reflexivity. }
        split; [rewrite len_keys, E; apply RL|]. split; [assumption|].
        rewrite in_keys, E. intros H. rewrite in_keys, K in NN. unfold recent in H.
        assert (H' : In None (Some k :: without (Some k) (recent n u))).
        { destruct n as [|n']; [destruct H|]. change (In None (recent (S n') (u ++ [Some k]))) in H.
          rewrite recent_snoc in H. destruct H as [H|H]; [now left|right].
          rewrite <- (firstn_skipn n'). apply in_app_iff. now left. }
        destruct H' as [H'|H']; [discriminate|]. apply without_In in H'. tauto.
      - cbn [lru_set]. assert (F : od_find None d = None).
        { destruct (od_find None d) eqn:F; [|reflexivity]. exfalso. apply NN. apply find_In. unfold od_in. now rewrite F. }
        rewrite F, app_nil_r. auto.
      - rewrite len_keys, in_keys, lru_get_keys. destruct (od_in k d) eqn:E.
        + assert (Hk : In k (recent n u)) by (rewrite <- K, <- in_keys; now apply find_In).
          rewrite K. rewrite <- recent_hit by assumption. split; [apply RL|]. split; [reflexivity|].
          rewrite recent_hit by assumption. rewrite in_keys, K in NN.
          intros [H|H]; [congruence|]. apply without_In in H. tauto.
        + rewrite app_nil_r, <- len_keys, <- in_keys. auto. }
    destruct X as (L' & K' & NN'). specialize (IH _ _ L' K' NN'). rewrite <- app_assoc in IH. exact IH.
Qed.

Lemma lru_run_recent n (ops : list (op V)) : length (lru_run n ops) <= n /\ keys_new (lru_run n ops) = recent n (used n ops).
Proof.
  destruct (lru_inv n ops [] []) as (A & B & _).
  - cbn. lia.
  - unfold recent. cbn. now rewrite firstn_nil.
  - intros [].
  - split; assumption.
Qed.

(** *** Values *)

Lemma keys_NoDup n (ops : list (op V)) : NoDup (map fst (lru_run n ops)).
Proof.
  destruct (lru_run_recent n ops) as [_ K]. pose proof (recent_NoDup n (used n ops)) as H. rewrite <- K in H.
  unfold keys_new in H. apply NoDup_rev in H. now rewrite rev_involutive in H.
Qed.

Lemma lru_run_snoc n ops o : lru_run n (ops ++ [o]) = lru_op n o (lru_run n ops).
Proof. unfold lru_run. rewrite fold_left_app. reflexivity. Qed.

Lemma lru_set_find n k v d k' u : NoDup (map fst d) -> od_find k' (lru_set n (Some k) v d) = Some u ->
  (k' = Some k /\ u = v) \/ (k' <> Some k /\ od_find k' d = Some u).
Proof.
  intros ND. unfold lru_set. set (d1 := od_move_to_end (Some k) (od_set (Some k) v d)). intros E.
  assert (F : od_find k' d1 = Some u).
  { destruct (Nat.ltb n (length d1)); [|assumption]. apply find_tl; [|assumption].
    unfold d1. rewrite keys_move_set. apply NoDup_snoc_iff. split; [now apply without_NoDup|].
    rewrite without_In. tauto. }
  unfold d1 in F. rewrite find_move, find_set in F. destruct (key_eqb (Some k) k') eqn:Q.
  - apply key_eqb_eq in Q. left. split; congruence.
  - apply key_eqb_neq in Q. right. split; [congruence|assumption].
Qed.

Lemma lru_values n ops k v : od_find k (lru_run n ops) = Some v -> last_set ops k v.
Proof.
  revert v. induction ops as [|o ops IH] using rev_ind; intros v E; [discriminate|].
  rewrite lru_run_snoc in E.
  assert (Old : od_find k (lru_run n ops) = Some v -> (forall v', o <> OSet k v') -> last_set (ops ++ [o]) k v).
  { intros F NE. destruct (IH v F) as (a & b & -> & H). exists a, (b ++ [o]). split; [now rewrite <- app_assoc|].
    intros v' X. apply in_app_iff in X. destruct X as [X|[X|[]]]; [exact (H v' X)|exact (NE v' X)]. }
  destruct o as [[j|] w|j]; cbn [lru_op] in E.
  - apply lru_set_find in E; [|apply keys_NoDup]. destruct E as [[-> ->]|[N F]].
    + exists ops, []. split; [reflexivity|]. intros v' [].
    + apply Old; [assumption|]. intros v' [= Q]. subst. contradiction.
  - destruct (lru_inv n ops [] []) as (_ & _ & NN); [cbn; lia|unfold recent; cbn; now rewrite firstn_nil|intros []|].
    change (~ In None (map fst (lru_run n ops))) in NN.
    assert (F : od_find None (lru_run n ops) = None).
    { destruct (od_find None (lru_run n ops)) eqn:F; [|reflexivity]. exfalso. apply NN. apply find_In. unfold od_in. now rewrite F. }
    cbn [lru_set] in E. rewrite F in E. apply Old; [assumption|]. intros v' Q. injection Q as Q1 Q2. rewrite <- Q1 in E. congruence.
  - apply Old; [|intros v'; discriminate]. unfold lru_get in E. destruct (od_in j (lru_run n ops)); cbn [snd] in E; [|assumption].
    now rewrite find_move in E.
Qed.

Lemma lru_get_value k d : fst (lru_get k d) = match od_find k d with Some v => v | None => None end.
Proof.
  unfold lru_get, od_in. destruct (od_find k d) as [v|] eqn:E; cbn; [|reflexivity]. now rewrite find_move, E.
Qed.
End Od.
