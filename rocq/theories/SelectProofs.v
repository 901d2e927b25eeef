From Verif Require Import PyStrFacts SelectSpec.
From Coq Require Import Lia.

(** ** Selection *)

Lemma sel_match_iff name s : sel_match name s = true <-> covers s name.
Proof.
  unfold sel_match, covers. rewrite andb_true_iff, starts_with_iff, !orb_true_iff, !Nat.eqb_eq. split.
  - intros [[r ->] [[H|H]|H]].
    + left. now destruct s.
    + right; left. rewrite app_length in H. destruct r; [now rewrite app_nil_r|cbn in H; lia].
    + right; right. rewrite nth_error_app2 in H by lia. rewrite Nat.sub_diag in H.
      destruct r as [|c r]; cbn in H; [discriminate|]. apply N.eqb_eq in H. subst. now exists r.
  - intros [->|[->|[r ->]]].
    + split; [now exists name|left; now left].
    + split; [exists []; now rewrite app_nil_r|left; now right].
    + split; [now exists (SLASH :: r)|right]. rewrite nth_error_app2 by lia. rewrite Nat.sub_diag. reflexivity.
Qed.

Lemma is_skip_iff s : starts_with skip_key s = true <-> is_skip s.
Proof. unfold is_skip. rewrite starts_with_iff. reflexivity. Qed.

Lemma skip_rest p : skipn (length skip_key) (lit "skip:" ++ p) = p.
Proof. reflexivity. Qed.

Lemma negatives_none name sel :
  count_negatives name sel = None <-> exists p, In (lit "skip:" ++ p) sel /\ covers p name.
Proof.
  induction sel as [|s sel IH]; cbn [count_negatives].
  - split; [discriminate|intros [p [[] _]]].
  - destruct (starts_with skip_key s) eqn:K.
    + apply is_skip_iff in K. destruct K as [q ->]. rewrite skip_rest.
      destruct (sel_match name q) eqn:M.
      * split; [|reflexivity]. intros _. exists q. split; [now left|now apply sel_match_iff].
      * split.
        -- destruct (count_negatives name sel); [discriminate|]. intros _.
           destruct IH as [IH _]. destruct (IH eq_refl) as [p [Hp C]]. exists p. split; [now right|assumption].
        -- intros [p [[E|Hp] C]].
           ++ apply app_inv_head in E. subst. apply sel_match_iff in C. congruence.
           ++ destruct (count_negatives name sel); [|reflexivity].
              destruct IH as [_ IH]. discriminate IH. now exists p.
    + rewrite IH. split; intros [p [Hp C]]; exists p.
      * split; [now right|assumption].
      * destruct Hp as [->|Hp]; [|now split].
        rewrite starts_with_app in K || (unfold skip_key in K; rewrite starts_with_app in K). discriminate.
Qed.

Lemma negatives_le name sel n : count_negatives name sel = Some n -> n <= length sel.
Proof.
  revert n. induction sel as [|s sel IH]; cbn [count_negatives]; intros n E.
  - injection E as <-. cbn. lia.
  - destruct (starts_with skip_key s).
    + destruct (sel_match _ _); [discriminate|].
      destruct (count_negatives name sel) as [k|]; [|discriminate].
      injection E as <-. specialize (IH k eq_refl). cbn. lia.
    + specialize (IH n E). cbn. lia.
Qed.

Lemma negatives_all name sel n :
  count_negatives name sel = Some n -> n = length sel <-> Forall is_skip sel.
Proof.
  revert n. induction sel as [|s sel IH]; cbn [count_negatives]; intros n E.
  - injection E as <-. split; [constructor|reflexivity].
  - destruct (starts_with skip_key s) eqn:K.
    + destruct (sel_match _ _); [discriminate|].
      destruct (count_negatives name sel) as [k|] eqn:C; [|discriminate].
      injection E as <-. specialize (IH k eq_refl). cbn [length]. apply is_skip_iff in K. split.
      * intros H. constructor; [assumption|]. apply IH. lia.
      * intros H. inversion H; subst. f_equal. now apply IH.
    + pose proof (negatives_le _ _ _ E) as L. cbn [length]. split; [lia|].
      intros H. inversion H as [|? ? Hs _]; subst. apply is_skip_iff in Hs. congruence.
Qed.

Lemma selected_iff name sel :
  is_selected name sel = true <->
  (forall p, In (lit "skip:" ++ p) sel -> ~ covers p name) /\
  (Forall is_skip sel \/ exists s, In s sel /\ (s = lit "*" \/ covers s name)).
Proof.
  unfold is_selected. destruct (count_negatives name sel) as [n|] eqn:C.
  - assert (NS : forall p, In (lit "skip:" ++ p) sel -> ~ covers p name).
    { intros p Hp Cv. assert (X : count_negatives name sel = None) by (apply negatives_none; now exists p). congruence. }
    destruct (Nat.eqb n (length sel)) eqn:E.
    + apply Nat.eqb_eq in E. split; [|reflexivity]. intros _. split; [assumption|]. left.
      now apply (negatives_all _ _ _ C).
    + apply Nat.eqb_neq in E. rewrite existsb_exists. split.
      * intros [s [Hs M]]. split; [assumption|]. right. exists s. split; [assumption|].
        apply orb_true_iff in M. destruct M as [M|M]; [left; now apply str_eqb_eq in M|right; now apply sel_match_iff].
      * intros [_ [F|[s [Hs M]]]].
        -- exfalso. apply E. now apply (negatives_all _ _ _ C).
        -- exists s. split; [assumption|]. apply orb_true_iff.
           destruct M as [->|M]; [left; apply str_eqb_refl|right; now apply sel_match_iff].
  - apply negatives_none in C. destruct C as [p [Hp Cv]]. split; [discriminate|].
    intros [NS _]. exfalso. exact (NS p Hp Cv).
Qed.

Lemma selected_iff_plain name sel : ~ is_skip name ->
  is_selected name sel = true <->
  (forall p, In (lit "skip:" ++ p) sel -> ~ covers p name) /\
  (Forall is_skip sel \/ exists s, In s sel /\ ~ is_skip s /\ (s = lit "*" \/ covers s name)).
Proof.
  intros NS. rewrite selected_iff. split; intros [A B]; (split; [assumption|]);
    (destruct B as [B|[s B]]; [now left|right; exists s]).
  - destruct B as [Hs M]. split; [assumption|]. split; [|assumption].
    intros [p ->]. destruct M as [M|[M|[M|[r M]]]].
    + discriminate M.
    + discriminate M.
    + apply NS. now exists p.
    + apply NS. exists (p ++ SLASH :: r). now rewrite app_assoc.
  - tauto.
Qed.

(** ** Methods *)

Lemma meth_eqb_eq a b : meth_eqb a b = true <-> a = b.
Proof.
  revert b. induction a as [i|i a IH|f IH s]; destruct b as [j|j b|g t]; cbn; split; try discriminate; try congruence.
  - intros H. apply Nat.eqb_eq in H. now subst.
  - intros [= ->]. apply Nat.eqb_refl.
  - intros H. apply andb_true_iff in H. destruct H as [H1 H2]. apply Nat.eqb_eq in H1. apply IH in H2. now subst.
  - intros [= -> <-]. rewrite Nat.eqb_refl. now apply IH.
  - intros H. apply andb_true_iff in H. destruct H as [H1 H2]. apply Nat.eqb_eq in H2. apply IH in H1. now subst.
  - intros [= <- ->]. rewrite Nat.eqb_refl. apply andb_true_iff. split; [now apply IH|reflexivity].
Qed.

Lemma match_method_iff a m : match_method a m = true <->
  snd (method_identity a) = snd (method_identity m) /\
  (attr_self a = None \/ attr_self a = attr_self m).
Proof.
  unfold match_method, method_identity. cbn [snd]. rewrite andb_true_iff, meth_eqb_eq, orb_true_iff.
  assert (O : opt_eqb (attr_self a) (attr_self m) = true <-> attr_self a = attr_self m).
  { destruct (attr_self a), (attr_self m); cbn; try (split; congruence).
    rewrite Nat.eqb_eq. split; congruence. }
  rewrite O. destruct (attr_self a); intuition congruence.
Qed.

Lemma case_by_method_in_iff cs m n :
  case_by_method_in cs m = Some n <-> first_case cs (fun x => match_method m x = true) n.
Proof.
  unfold first_case. induction cs as [|[k x] cs IH]; cbn [case_by_method_in].
  - split; [discriminate|]. intros (a & y & b & E & _). now destruct a.
  - destruct (match_method m x) eqn:M; split.
    + intros [= ->]. exists [], x, cs. repeat split; trivial. intros ? ? [].
    + intros (a & y & b & E & P & H). destruct a as [|[k' x'] a]; cbn in E; injection E as -> -> ->.
      * reflexivity.
      * exfalso. apply (H k' x' (or_introl eq_refl) M).
    + intros E. apply IH in E. destruct E as (a & y & b & -> & P & H).
      exists ((k, x) :: a), y, b. repeat split; trivial. intros n' m' [[= <- <-]|Hin]; [congruence|eauto].
    + intros (a & y & b & E & P & H). destruct a as [|[k' x'] a]; cbn in E; injection E as -> -> ->.
      * congruence.
      * apply IH. exists a, y, b. repeat split; trivial. intros n' m' Hin. apply (H n' m'). now right.
Qed.

Lemma case_by_method_none cs m :
  case_by_method_in cs m = None <-> forall n x, In (n, x) cs -> match_method m x = false.
Proof.
  induction cs as [|[k x] cs IH]; cbn [case_by_method_in].
  - split; [intros _ ? ? []|reflexivity].
  - destruct (match_method m x) eqn:M; split.
    + discriminate.
    + intros H. rewrite (H k x (or_introl eq_refl)) in M. discriminate.
    + intros E n y [[= <- <-]|Hin]; [assumption|]. destruct IH as [IH _]. apply (IH E n y Hin).
    + intros H. apply IH. intros n y Hin. apply (H n y). now right.
Qed.

Lemma case_by_method_In cs m n : case_by_method_in cs m = Some n -> In n (map fst cs).
Proof.
  intros E. apply case_by_method_in_iff in E. destruct E as (a & x & b & -> & _).
  rewrite map_app, in_app_iff. right. now left.
Qed.

Lemma get_case_In cs n m : get_case_in cs n = Some m -> In (n, m) cs.
Proof.
  induction cs as [|[k x] cs IH]; cbn; [discriminate|].
  destruct (str_eqb k n) eqn:E.
  - intros [= ->]. apply str_eqb_eq in E. subst. now left.
  - intros H. right. auto.
Qed.

Lemma get_case_NoDup cs n m : NoDup (map fst cs) -> In (n, m) cs -> get_case_in cs n = Some m.
Proof.
  induction cs as [|[k x] cs IH]; cbn; [intros _ []|]. intros ND [E|H].
  - injection E as -> ->. now rewrite str_eqb_refl.
  - inversion ND as [|? ? NI ND']; subst. destruct (str_eqb k n) eqn:E; [|auto].
    apply str_eqb_eq in E. subst. exfalso. apply NI. change n with (fst (n, m)). now apply in_map.
Qed.

Lemma get_case_exists cs n : In n (map fst cs) -> exists m, get_case_in cs n = Some m.
Proof.
  induction cs as [|[k x] cs IH]; cbn; [intros []|]. intros [->|H].
  - rewrite str_eqb_refl. eauto.
  - destruct (str_eqb k n); eauto.
Qed.

(** ** The run list *)

Section RunList.
Variable o : objects.
Variable cases : list (str * meth).
Variable selection : list str.
Variable cached : str -> bool.
Hypothesis ND : NoDup (map fst cases).

Notation needs := (needs o cases selection cached).
Notation needs_trans := (needs_trans o cases selection cached).
Notation mdeps m := (method_dependencies o cases m selection cached).

Lemma mdeps_iff n m d : In (n, m) cases -> In d (mdeps m) <-> needs n d.
Proof.
  intros Hn. unfold method_dependencies. rewrite in_flat_map. unfold SelectSpec.needs, means. split.
  - intros (dep & Hdep & Hd). exists m, dep. split; [assumption|]. split; [assumption|].
    fold (scheduled_case o cases m dep) in Hd.
    destruct (scheduled_case o cases m dep) as [k|]; [|destruct Hd].
    destruct (is_selected k selection || negb (cached k)) eqn:E; [|destruct Hd].
    destruct Hd as [->|[]]. split; [reflexivity|]. apply orb_true_iff in E.
    destruct E as [E|E]; [now left|right; now apply negb_true_iff].
  - intros (m' & dep & Hm' & Hdep & M & W).
    assert (m' = m). { pose proof (get_case_NoDup _ _ _ ND Hn). pose proof (get_case_NoDup _ _ _ ND Hm'). congruence. }
    subst m'. exists dep. split; [assumption|]. fold (scheduled_case o cases m dep). rewrite M.
    replace (is_selected d selection || negb (cached d)) with true; [now left|].
    symmetry. apply orb_true_iff. destruct W as [W|W]; [now left|right; now rewrite W].
Qed.

Lemma needs_case n d : needs n d -> In d (map fst cases).
Proof. intros (m & dep & _ & _ & M & _). exact (case_by_method_In _ _ _ M). Qed.

(** what a correct list of all dependencies looks like *)
Definition closed (l : list str) : Prop :=
  forall a n b d, l = a ++ n :: b -> needs n d -> In d a.

Lemma closed_nil : closed [].
Proof. intros a n b d E. destruct a; discriminate. Qed.

Lemma closed_app l l' : closed l ->
  (forall a n b d, l' = a ++ n :: b -> needs n d -> In d (l ++ a)) -> closed (l ++ l').
Proof.
  intros C H a n b d E N.
  destruct (Nat.le_gt_cases (length l) (length a)) as [L|L].
  - assert (X : exists a', a = l ++ a' /\ l' = a' ++ n :: b).
    { exists (skipn (length l) a). assert (F : firstn (length l) a = l).
      { assert (Q : firstn (length l) (l ++ l') = firstn (length l) (a ++ n :: b)) by now rewrite E.
        rewrite firstn_app, firstn_all, Nat.sub_diag in Q. cbn in Q. rewrite app_nil_r in Q.
        rewrite firstn_app in Q. replace (length l - length a) with 0 in Q by lia. cbn in Q.
        now rewrite app_nil_r in Q. }
      assert (Fa : a = l ++ skipn (length l) a) by (rewrite <- F at 1; now rewrite firstn_skipn).
      split; [assumption|]. rewrite Fa, <- app_assoc in E. now apply app_inv_head in E. }
    destruct X as (a' & -> & X). exact (H _ _ _ _ X N).
  - assert (X : exists b', l = a ++ n :: b').
    { exists (firstn (length l - length a - 1) b).
      assert (Q : firstn (length l) (l ++ l') = firstn (length l) (a ++ n :: b)) by now rewrite E.
      rewrite firstn_app, firstn_all, Nat.sub_diag in Q. cbn in Q. rewrite app_nil_r in Q.
      rewrite firstn_app in Q. rewrite firstn_all2 in Q by lia.
      destruct (length l - length a) as [|k] eqn:K; [lia|]. cbn [firstn] in Q.
      rewrite Q. cbn. now rewrite Nat.sub_0_r. }
    destruct X as [b' X]. exact (C _ _ _ _ X N).
Qed.

Lemma closed_snoc l n : closed l -> (forall d, needs n d -> In d l) -> closed (l ++ [n]).
Proof.
  intros C H. apply closed_app; [assumption|]. intros a x b d E N.
  destruct a as [|y a]; cbn in E; [|destruct a; discriminate].
  injection E as <- <-. rewrite app_nil_r. auto.
Qed.

Lemma deps_loop_some all ds l : deps_loop cases all ds = Some l ->
  (forall d m r, In d ds -> get_case cases d = Some m -> all m = Some r ->
     closed r /\ (forall x, In x r <-> needs_trans d x)) ->
  (forall d, In d ds -> In d (map fst cases)) ->
  closed l /\ (forall x, In x l <-> exists d, In d ds /\ (x = d \/ needs_trans d x)).
Proof.
  revert l. induction ds as [|d ds IH]; cbn [deps_loop]; intros l E H HC.
  - injection E as <-. split; [apply closed_nil|]. intros x. split; [intros []|intros (? & [] & _)].
  - destruct (get_case_exists _ _ (HC d (or_introl eq_refl))) as [m G].
    fold (get_case cases d) in G. rewrite G in E.
    destruct (all m) as [r|] eqn:A; [|discriminate].
    destruct (deps_loop cases all ds) as [l'|] eqn:L; [|discriminate]. injection E as <-.
    destruct (H d m r (or_introl eq_refl) G A) as [Cr Ir].
    destruct (IH l' eq_refl) as [Cl Il].
    { intros d' m' r' Hd. apply H. now right. }
    { intros d' Hd. apply HC. now right. }
    split.
    + change (r ++ d :: l') with (r ++ [d] ++ l'). rewrite app_assoc.
      apply closed_app.
      * apply closed_snoc; [assumption|]. intros x N. apply Ir. now constructor.
      * intros a n b x E N. rewrite in_app_iff. right. exact (Cl _ _ _ _ E N).
    + intros x. rewrite in_app_iff. cbn. rewrite Ir, Il. split.
      * intros [N|[->|(e & He & W)]]; [exists d; tauto|exists x; tauto|exists e; tauto].
      * intros (e & [->|He] & [->|N]); [tauto|tauto|right; right; exists e; tauto|right; right; exists e; tauto].
Qed.

Lemma needs_trans_inv n x : needs_trans n x <-> exists d, needs n d /\ (x = d \/ needs_trans d x).
Proof.
  split.
  - intros H. inversion H; subst; eauto.
  - intros (d & N & [->|T]); [now constructor|now apply nt_step with d].
Qed.

Lemma all_deps_some fuel : forall n m l, In (n, m) cases ->
  all_method_dependencies o cases fuel m selection cached = Some l ->
  closed l /\ forall x, In x l <-> needs_trans n x.
Proof.
  induction fuel as [|k IH]; intros n m l Hn E; [discriminate|]. cbn [all_method_dependencies] in E.
  destruct (deps_loop_some _ _ _ E) as [C I].
  - intros d m' r Hd G A. apply (IH d m' r); [|assumption]. now apply get_case_In.
  - intros d Hd. apply (mdeps_iff n m d Hn) in Hd. exact (needs_case _ _ Hd).
  - split; [assumption|]. intros x. rewrite I, needs_trans_inv.
    split; intros (d & Hd & W); exists d; (split; [|assumption]); apply (mdeps_iff n m d Hn); assumption.
Qed.

(** adding names one by one *)
Lemma add_new_In l n x : In x (add_new l n) <-> In x l \/ x = n.
Proof.
  unfold add_new. destruct (str_mem n l) eqn:E.
  - apply str_mem_In in E. split; [tauto|]. intros [H| -> ]; assumption.
  - rewrite in_app_iff. cbn. intuition congruence.
Qed.

Lemma add_new_NoDup l n : NoDup l -> NoDup (add_new l n).
Proof.
  intros H. unfold add_new. destruct (str_mem n l) eqn:E; [assumption|].
  apply str_mem_not_In in E. apply NoDup_rev in H. rewrite <- (rev_involutive (l ++ [n])). apply NoDup_rev.
  rewrite rev_app_distr. cbn. constructor; [|assumption]. now rewrite <- in_rev.
Qed.

Lemma add_new_closed l n : closed l -> (forall d, needs n d -> In d l) -> closed (add_new l n).
Proof. intros C H. unfold add_new. destruct (str_mem n l); [assumption|]. now apply closed_snoc. Qed.

Lemma fold_add_spec ds : forall l, closed l -> NoDup l ->
  (forall a n b d, ds = a ++ n :: b -> needs n d -> In d l \/ In d a) ->
  closed (fold_left add_new ds l) /\ NoDup (fold_left add_new ds l) /\
  forall x, In x (fold_left add_new ds l) <-> In x l \/ In x ds.
Proof.
  induction ds as [|n ds IH]; cbn [fold_left]; intros l C N H.
  - repeat split; trivial; [tauto|]. intros [X|[]]; assumption.
  - destruct (IH (add_new l n)) as (C' & N' & I').
    + apply add_new_closed; [assumption|]. intros d Nd. destruct (H [] n ds d eq_refl Nd) as [X|[]]; assumption.
    + now apply add_new_NoDup.
    + intros a x b d -> Nd. rewrite add_new_In.
      destruct (H (n :: a) x b d eq_refl Nd) as [X|[->|X]]; tauto.
    + repeat split; trivial.
      * intros X. apply I' in X. rewrite add_new_In in X. cbn. intuition congruence.
      * intros X. apply I'. rewrite add_new_In. cbn in X. intuition congruence.
Qed.

Definition wanted (cs : list (str * meth)) (x : str) : Prop :=
  exists n, In n (map fst cs) /\ is_selected n selection = true /\ (x = n \/ needs_trans n x).

Lemma selected_loop_some fuel cs : forall sel l, incl cs cases ->
  selected_loop o cases fuel selection cached cs sel = Some l -> closed sel -> NoDup sel ->
  closed l /\ NoDup l /\ forall x, In x l <-> In x sel \/ wanted cs x.
Proof.
  induction cs as [|[n m] cs IH]; cbn [selected_loop]; intros sel l I E C N.
  - injection E as <-. repeat split; trivial; [tauto|]. intros [X|(k & [] & _)]; assumption.
  - assert (I' : incl cs cases) by (intros y Hy; apply I; now right).
    destruct (is_selected n selection) eqn:S.
    + destruct (all_method_dependencies o cases fuel m selection cached) as [ds|] eqn:A; [|discriminate].
      destruct (all_deps_some fuel n m ds (I _ (or_introl eq_refl)) A) as [Cd Id].
      destruct (fold_add_spec ds sel C N) as (C1 & N1 & I1).
      { intros a x b d Ed Nd. right. exact (Cd a x b d Ed Nd). }
      destruct (IH _ _ I' E) as (C2 & N2 & I2).
      * apply add_new_closed; [assumption|]. intros d Nd. apply I1. right. apply Id. now constructor.
      * now apply add_new_NoDup.
      * repeat split; trivial.
        -- intros X. apply I2 in X. rewrite add_new_In, I1 in X.
           destruct X as [[[X|X]|X]|(k & Hk & Sk & W)].
           ++ now left.
           ++ right. exists n. split; [now left|]. split; [assumption|]. right. now apply Id.
           ++ right. exists n. split; [now left|]. split; [assumption|]. now left.
           ++ right. exists k. split; [now right|]. now split.
        -- intros X. apply I2. rewrite add_new_In, I1.
           destruct X as [X|(k & [<-|Hk] & Sk & W)].
           ++ tauto.
           ++ left. destruct W as [->|W]; [now right|]. left. right. now apply Id.
           ++ right. exists k. now repeat split.
    + destruct (IH _ _ I' E C N) as (C2 & N2 & I2). repeat split; trivial.
      * intros X. apply I2 in X. destruct X as [X|(k & Hk & Sk & W)]; [now left|].
        right. exists k. split; [now right|]. now split.
      * intros X. apply I2. destruct X as [X|(k & [<-|Hk] & Sk & W)]; [now left|cbn in Sk; congruence|].
        right. exists k. now repeat split.
Qed.

(** ** Termination *)

Lemma deps_loop_total all ds :
  (forall d m, In d ds -> get_case cases d = Some m -> all m <> None) -> deps_loop cases all ds <> None.
Proof.
  induction ds as [|d ds IH]; cbn [deps_loop]; intros H; [discriminate|].
  assert (IH' : deps_loop cases all ds <> None) by (apply IH; intros; apply (H d0); [now right|assumption]).
  destruct (deps_loop cases all ds); [|congruence].
  destruct (get_case cases d) as [m|] eqn:G; [|discriminate].
  specialize (H d m (or_introl eq_refl) G). destruct (all m); [discriminate|congruence].
Qed.

Hypothesis AC : acyclic o cases selection cached.

(** a chain of needs that ends in [n] has no repetition and only cases, so it is short *)
Inductive chain : list str -> Prop :=
| ch_one n : In n (map fst cases) -> chain [n]
| ch_cons n d l : chain (d :: l) -> needs d n -> chain (n :: d :: l).

Lemma chain_trans l : chain l -> forall n r x, l = n :: r -> In x r -> needs_trans x n.
Proof.
  induction 1 as [n Hn|n d l C IH N]; intros k r x [= -> <-] Hx; [destruct Hx|].
  destruct Hx as [->|Hx]; [now constructor|].
  specialize (IH d l x eq_refl Hx). clear - IH N. induction IH as [a b Nab|a e b Nae T IHT].
  - apply nt_step with b; [assumption|now constructor].
  - apply nt_step with e; auto.
Qed.

Lemma chain_NoDup l : chain l -> NoDup l.
Proof.
  induction 1 as [n Hn|n d l C IH N]; constructor; trivial; [intros []|constructor|].
  intros Hx. apply (AC n). refine (chain_trans (n :: d :: l) _ n (d :: l) n eq_refl Hx). now constructor.
Qed.

Lemma chain_cases l : chain l -> incl l (map fst cases).
Proof.
  induction 1 as [n Hn|n d l C IH N]; intros x [<-|Hx]; trivial; [destruct Hx| |auto].
  exact (needs_case _ _ N).
Qed.

Lemma chain_short l : chain l -> length l <= length cases.
Proof.
  intros C. rewrite <- (map_length fst cases). apply NoDup_incl_length; [now apply chain_NoDup|now apply chain_cases].
Qed.

Lemma all_deps_total fuel : forall n m l, In (n, m) cases -> chain (n :: l) ->
  length cases < fuel + length (n :: l) -> all_method_dependencies o cases fuel m selection cached <> None.
Proof.
  induction fuel as [|k IH]; intros n m l Hn C L.
  - pose proof (chain_short _ C). lia.
  - cbn [all_method_dependencies]. apply deps_loop_total. intros d m' Hd G.
    apply (IH d m' (n :: l)); [now apply get_case_In| |cbn [length] in *; lia].
    constructor; [assumption|]. now apply (mdeps_iff n m d Hn).
Qed.

Lemma selected_loop_total fuel cs : length cases <= fuel -> incl cs cases ->
  forall sel, selected_loop o cases fuel selection cached cs sel <> None.
Proof.
  intros L. induction cs as [|[n m] cs IH]; cbn [selected_loop]; intros I sel; [discriminate|].
  assert (I' : incl cs cases) by (intros y Hy; apply I; now right).
  destruct (is_selected n selection); [|auto].
  assert (Hn : In (n, m) cases) by (apply I; now left).
  pose proof (all_deps_total fuel n m [] Hn) as T.
  destruct (all_method_dependencies o cases fuel m selection cached); [auto|].
  exfalso. apply T; [|cbn; lia|reflexivity]. constructor. change n with (fst (n, m)). now apply in_map.
Qed.

Lemma selected_names_total fuel : length cases <= fuel ->
  exists l, selected_names o cases fuel selection cached = Some l.
Proof.
  intros L. pose proof (selected_loop_total fuel cases L (incl_refl _) []) as T.
  unfold selected_names. destruct (selected_loop _ _ _ _ _ _ _); [eauto|congruence].
Qed.

Lemma closed_before l n d : closed l -> In n l -> needs n d -> before l d n.
Proof.
  intros C Hn N. apply in_split in Hn. destruct Hn as (a & b & ->).
  pose proof (C a n b d eq_refl N) as Hd. apply in_split in Hd. destruct Hd as (a1 & a2 & ->).
  exists a1, a2, b. now rewrite <- app_assoc.
Qed.

End RunList.

(** ** Scheduled and used dependency *)
Section Used.
Variable o : objects.
Variable cases : list (str * meth).

Lemma used_function m dep : attr_self m = None -> used_case cases m dep = scheduled_case o cases m dep.
Proof.
  intros H. unfold used_case, scheduled_case, bind_dependent. rewrite H. now destruct (attr_self_type o dep).
Qed.

(** when the two differ, exactly *)
Lemma used_scheduled_iff m s dep : attr_self m = Some s ->
  used_case cases m dep = scheduled_case o cases m dep <->
  (typed o s dep -> case_by_method cases (bind_to dep s) = None -> case_by_method cases dep = None) /\
  (~ typed o s dep -> case_by_method cases (bind_to dep s) <> None ->
     case_by_method cases (bind_to dep s) = case_by_method cases dep).
Proof.
  intros H. unfold used_case, scheduled_case, bind_dependent, typed, looked_up. rewrite H.
  destruct (attr_self_type o dep) as [t|].
  - destruct (o_isinstance o s t) eqn:I.
    + destruct (case_by_method cases (bind_to dep s)) as [n|].
      * split; [|reflexivity]. intros _. split; [discriminate|]. intros X. exfalso. apply X. now exists t.
      * split.
        -- intros E. split; [intros _ _; assumption|]. intros X. exfalso. apply X. now exists t.
        -- intros [A _]. apply A; [now exists t|reflexivity].
    + assert (NT : ~ exists t0, Some t = Some t0 /\ o_isinstance o s t0 = true).
      { intros (t0 & [= <-] & J). congruence. }
      destruct (case_by_method cases (bind_to dep s)) as [n|].
      * split; [|intros [_ B]; apply B; [assumption|discriminate]]. intros E. split; [discriminate|]. intros _ _. assumption.
      * split; [|reflexivity]. intros _. split; [intros T; contradiction|]. intros _ X. congruence.
  - assert (NT : ~ exists t0, @None nat = Some t0 /\ o_isinstance o s t0 = true) by (intros (t0 & E & _); discriminate).
    destruct (case_by_method cases (bind_to dep s)) as [n|].
    + split; [|intros [_ B]; apply B; [assumption|discriminate]]. intros E. split; [discriminate|]. intros _ _. assumption.
    + split; [|reflexivity]. intros _. split; [intros T; contradiction|]. intros _ X. congruence.
Qed.

(** the dependency's own instance has priority *)
Lemma bound_identity dep s : attr_self dep = None ->
  method_identity (bind_to dep s) = (Some s, dep).
Proof. now destruct dep. Qed.

Lemma attr_func_self m : attr_self m = None <-> attr_func m = None.
Proof. induction m; cbn; [tauto|assumption|split; discriminate]. Qed.

Lemma unbound_identity dep : attr_self dep = None -> method_identity dep = (None, dep).
Proof.
  intros H. unfold method_identity. rewrite H. apply attr_func_self in H. now rewrite H.
Qed.

Lemma match_bound dep s x : attr_self dep = None ->
  match_method (bind_to dep s) x = true <-> method_identity x = (Some s, dep).
Proof.
  intros H. rewrite match_method_iff. pose proof (bound_identity dep s H) as B.
  assert (B1 : attr_self (bind_to dep s) = Some s) by (unfold method_identity in B; congruence).
  rewrite B, B1. cbn [snd]. unfold method_identity at 1 2. cbn [snd].
  split.
  - intros [E [W|W]]; [discriminate|]. congruence.
  - intros [= E1 E2]. rewrite E1, E2. split; [reflexivity|now right].
Qed.

Lemma match_unbound dep x : attr_self dep = None ->
  match_method dep x = true <-> snd (method_identity x) = dep.
Proof.
  intros H. rewrite match_method_iff. rewrite (unbound_identity dep H), H. cbn [snd]. intuition congruence.
Qed.

Lemma same_instance m s dep n x : attr_self m = Some s -> attr_self dep = None ->
  In (n, x) cases -> method_identity x = (Some s, dep) ->
  exists n', used_case cases m dep = Some n' /\ first_case cases (fun y => method_identity y = (Some s, dep)) n'.
Proof.
  intros Hm Hd Hin Hx. unfold used_case, looked_up. rewrite Hm.
  destruct (case_by_method cases (bind_to dep s)) as [n'|] eqn:E.
  - exists n'. split; [reflexivity|]. apply case_by_method_in_iff in E.
    destruct E as (a & y & b & -> & P & H). exists a, y, b. split; [reflexivity|].
    split; [now apply match_bound|]. intros n1 m1 H1 Q. apply (H n1 m1 H1). now apply match_bound.
  - exfalso. apply case_by_method_none with (n := n) (x := x) in E; [|assumption].
    assert (T : match_method (bind_to dep s) x = true) by now apply match_bound. congruence.
Qed.

(** *** Cases made of books *)
Variable books : list book.
Hypothesis B : built o books cases.

Lemma listed_iff dep s : attr_self dep = None ->
  case_by_method cases (bind_to dep s) <> None <-> exists b, In b books /\ b_inst b = s /\ lists b dep.
Proof.
  intros Hd. split.
  - intros H. destruct (case_by_method cases (bind_to dep s)) as [n|] eqn:E; [|congruence].
    apply case_by_method_in_iff in E. destruct E as (a & x & c & E & P & _).
    apply match_bound in P; [|assumption].
    apply (built_cases _ _ _ B n x). { rewrite E, in_app_iff. right. now left. } assumption.
  - intros (b & Hb & <- & L) E. destruct (built_all _ _ _ B b dep Hb L) as (n & x & Hin & Hx).
    pose proof (proj1 (case_by_method_none cases _) E n x Hin) as F.
    assert (T : match_method (bind_to dep (b_inst b)) x = true) by now apply match_bound. congruence.
Qed.

Lemma used_is_scheduled b m dep :
  In b books -> attr_self m = Some (b_inst b) -> attr_self dep = None ->
  (forall t, attr_self_type o dep = Some t -> exists b, In b books /\ lists b dep) ->
  (forall b1 b2, In b1 books -> In b2 books -> lists b1 dep ->
     o_isinstance o (b_inst b2) (b_class b1) = true -> lists b2 dep) ->
  (forall b1 b2, In b1 books -> In b2 books -> lists b1 dep -> lists b2 dep ->
     o_isinstance o (b_inst b2) (b_class b1) = true) ->
  used_case cases m dep = scheduled_case o cases m dep.
Proof.
  intros Hb Hm Hd HT H1 H2. apply (used_scheduled_iff m (b_inst b) dep Hm).
  pose proof (listed_iff dep (b_inst b) Hd) as LI. split.
  - intros (t & Ht & It) E. exfalso. destruct (HT t Ht) as (b0 & Hb0 & L0).
    destruct (built_type _ _ _ B b0 dep t Hb0 L0 Ht) as (b1 & Hb1 & <- & L1).
    apply LI in E; [assumption|]. exists b. split; [assumption|]. split; [reflexivity|]. exact (H1 b1 b Hb1 Hb L1 It).
  - intros NT E. exfalso. apply LI in E. destruct E as (b2 & Hb2 & E2 & L2).
    destruct (built_typed _ _ _ B b2 dep Hb2 L2) as [t Ht].
    destruct (built_type _ _ _ B b2 dep t Hb2 L2 Ht) as (b1 & Hb1 & <- & L1).
    apply NT. exists (b_class b1). split; [assumption|]. rewrite <- E2. exact (H2 b1 b2 Hb1 Hb2 L1 L2).
Qed.

End Used.
