(** Lemmas about the string functions of PyStr. *)
From Coq Require Export Lia.
From Verif Require Export PyStr.

Lemma str_eqb_refl a : str_eqb a a = true.
Proof. induction a as [|x a IH]; simpl; [reflexivity|]. now rewrite N.eqb_refl. Qed.

Lemma str_eqb_eq a b : str_eqb a b = true <-> a = b.
Proof.
  split; [|intros ->; apply str_eqb_refl].
  revert b; induction a as [|x a IH]; intros [|y b]; simpl; try congruence.
  intros H; apply andb_true_iff in H as [H1 H2].
  apply N.eqb_eq in H1 as ->. now rewrite (IH b H2).
Qed.

Lemma str_eqb_neq a b : str_eqb a b = false <-> a <> b.
Proof.
  rewrite <- (str_eqb_eq a b). destruct (str_eqb a b); split; congruence.
Qed.

Lemma str_eqb_spec a b : reflect (a = b) (str_eqb a b).
Proof.
  destruct (str_eqb a b) eqn:E; constructor.
  - now apply str_eqb_eq.
  - now apply str_eqb_neq.
Qed.

Lemma str_eqb_sym a b : str_eqb a b = str_eqb b a.
Proof.
  destruct (str_eqb_spec a b) as [->|H]; [now rewrite str_eqb_refl|].
  symmetry; apply str_eqb_neq; congruence.
Qed.

Lemma str_dec (a b : str) : {a = b} + {a <> b}.
Proof. apply (list_eq_dec N.eq_dec). Qed.

Lemma str_mem_In x l : str_mem x l = true <-> In x l.
Proof.
  unfold str_mem; rewrite existsb_exists; split.
  - intros (y & Hy & E); apply str_eqb_eq in E; now subst.
  - intros H; exists x; split; [exact H|apply str_eqb_refl].
Qed.

Lemma str_mem_not_In x l : str_mem x l = false <-> ~ In x l.
Proof. rewrite <- str_mem_In; destruct (str_mem x l); split; congruence. Qed.

Lemma starts_with_app p s : starts_with p (p ++ s) = true.
Proof. induction p as [|x p IH]; simpl; [reflexivity|]. now rewrite N.eqb_refl. Qed.

Lemma starts_with_iff p s : starts_with p s = true <-> exists r, s = p ++ r.
Proof.
  split.
  - revert s; induction p as [|x p IH]; intros s; simpl; [intros _; now exists s|].
    destruct s as [|y s]; [discriminate|]. intros H; apply andb_true_iff in H as [H1 H2].
    apply N.eqb_eq in H1 as ->. destruct (IH s H2) as [r ->]. now exists r.
  - intros [r ->]. apply starts_with_app.
Qed.

Lemma ends_with_iff p s : ends_with p s = true <-> exists r, s = r ++ p.
Proof.
  unfold ends_with; rewrite andb_true_iff, Nat.leb_le, str_eqb_eq; split.
  - intros [L E]. exists (firstn (length s - length p) s). rewrite <- E at 2.
    now rewrite firstn_skipn.
  - intros [r ->]. rewrite app_length. split; [lia|].
    replace (length r + length p - length p) with (length r) by lia.
    rewrite skipn_app, Nat.sub_diag, skipn_all. reflexivity.
Qed.

(** span *)
Lemma span_app f s a b : span f s = (a, b) -> s = a ++ b.
Proof.
  revert a b; induction s as [|c s IH]; simpl; intros a b H; [now inversion H|].
  destruct (f c); [|now inversion H].
  destruct (span f s) as [a' b'] eqn:E; inversion H; subst; simpl. f_equal. now apply IH.
Qed.

Lemma span_forall f s a b : span f s = (a, b) -> Forall (fun c => f c = true) a.
Proof.
  revert a b; induction s as [|c s IH]; simpl; intros a b H; [inversion H; constructor|].
  destruct (f c) eqn:Ec; [|inversion H; constructor].
  destruct (span f s) as [a' b'] eqn:E; inversion H; subst. constructor; eauto.
Qed.

Definition head_not (f : char -> bool) (s : str) : Prop :=
  match s with [] => True | c :: _ => f c = false end.

Lemma span_head f s a b : span f s = (a, b) -> head_not f b.
Proof.
  revert a b; induction s as [|c s IH]; simpl; intros a b H; [inversion H; exact I|].
  destruct (f c) eqn:Ec; [|inversion H; subst; exact Ec].
  destruct (span f s) as [a' b'] eqn:E; inversion H; subst. eauto.
Qed.

Lemma span_unique f a b :
  Forall (fun c => f c = true) a -> head_not f b -> span f (a ++ b) = (a, b).
Proof.
  induction a as [|c a IH]; simpl; intros Ha Hb.
  - destruct b as [|c b]; simpl in *; [reflexivity|now rewrite Hb].
  - inversion Ha; subst. rewrite H1. now rewrite IH.
Qed.

Lemma span_nonempty f c s a b :
  f c = true -> span f (c :: s) = (a, b) -> exists a', a = c :: a'.
Proof.
  simpl; intros -> H. destruct (span f s) as [a' b']; inversion H; now exists a'.
Qed.

(** split and join *)
Lemma split_on_nonempty sep s : split_on sep s <> [].
Proof.
  destruct s as [|c s]; simpl; [discriminate|]. destruct (N.eqb c sep); [discriminate|].
  destruct (split_on sep s); discriminate.
Qed.

Lemma split_on_no_sep sep s : ~ In sep s -> split_on sep s = [s].
Proof.
  induction s as [|c s IH]; simpl; intros H; [reflexivity|].
  destruct (N.eqb_spec c sep) as [->|Hc]; [tauto|]. rewrite IH by tauto. reflexivity.
Qed.

Lemma split_on_app sep a b :
  ~ In sep a -> split_on sep (a ++ sep :: b) = a :: split_on sep b.
Proof.
  induction a as [|c a IH]; simpl; intros H.
  - now rewrite N.eqb_refl.
  - destruct (N.eqb_spec c sep) as [->|Hc]; [tauto|]. rewrite IH by tauto. reflexivity.
Qed.

Lemma split_on_parts sep s : Forall (fun w => ~ In sep w) (split_on sep s).
Proof.
  induction s as [|c s IH]; simpl; [repeat constructor; easy|].
  destruct (N.eqb_spec c sep) as [->|Hc]; [constructor; [easy|exact IH]|].
  destruct (split_on sep s) as [|w ws]; [repeat constructor; simpl; intuition congruence|].
  inversion IH; subst. constructor; [simpl; intuition congruence|assumption].
Qed.

Lemma join_split sep s : join_with [sep] (split_on sep s) = s.
Proof.
  induction s as [|c s IH]; simpl; [reflexivity|].
  pose proof (split_on_nonempty sep s) as Hn.
  destruct (split_on sep s) as [|w ws] eqn:Es; [congruence|].
  destruct (N.eqb_spec c sep) as [->|Hc].
  - simpl. simpl in IH. destruct ws; simpl in *; now rewrite IH.
  - destruct ws; simpl in *; now rewrite IH.
Qed.

Lemma join_cons sep p ps :
  ps <> [] -> join_with sep (p :: ps) = p ++ sep ++ join_with sep ps.
Proof. destruct ps; [congruence|reflexivity]. Qed.

Lemma split_join sep ps :
  ps <> [] -> Forall (fun w => ~ In sep w) ps -> split_on sep (join_with [sep] ps) = ps.
Proof.
  induction ps as [|p ps IH]; intros Hn Hp; [congruence|].
  inversion Hp; subst. destruct ps as [|q ps].
  - simpl. now apply split_on_no_sep.
  - rewrite join_cons by discriminate. simpl ([sep] ++ _).
    rewrite split_on_app by assumption. f_equal. apply IH; [discriminate|assumption].
Qed.

(** strip *)
Lemma lstrip_nil_iff sp s : lstrip sp s = [] <-> Forall (fun c => sp c = true) s.
Proof.
  unfold lstrip. split.
  - destruct (span sp s) as [a b] eqn:E; simpl; intros ->.
    rewrite (span_app _ _ _ _ E), app_nil_r. eapply span_forall; eauto.
  - intros H. rewrite <- (app_nil_r s), (span_unique sp s []); [reflexivity|exact H|exact I].
Qed.

Lemma lstrip_head sp c s : sp c = false -> lstrip sp (c :: s) = c :: s.
Proof. intros H. unfold lstrip; simpl. now rewrite H. Qed.

Lemma rstrip_last sp s c : sp c = false -> rstrip sp (s ++ [c]) = s ++ [c].
Proof.
  intros H. unfold rstrip. rewrite rev_app_distr. simpl. rewrite lstrip_head by exact H.
  simpl. now rewrite rev_involutive.
Qed.

Lemma strip_nil_iff sp s : strip sp s = [] <-> Forall (fun c => sp c = true) s.
Proof.
  unfold strip, rstrip. split.
  - intros H. apply (f_equal (@rev char)) in H. rewrite rev_involutive in H. simpl in H.
    apply lstrip_nil_iff in H. apply Forall_rev in H. rewrite rev_involutive in H.
    unfold lstrip in H. destruct (span sp s) as [a b] eqn:E. simpl in H.
    rewrite (span_app _ _ _ _ E). apply Forall_app; split; [eapply span_forall; eauto|exact H].
  - intros H. apply lstrip_nil_iff in H as ->. reflexivity.
Qed.

(** universal newlines *)
Lemma univ_newlines_id s : ~ In CR s -> univ_newlines s = s.
Proof.
  induction s as [|c s IH]; simpl; intros H; [reflexivity|].
  destruct (N.eqb_spec c CR) as [->|Hc]; [tauto|]. now rewrite IH by tauto.
Qed.

Lemma univ_newlines_no_CR s : ~ In CR (univ_newlines s).
Proof.
  remember (length s) as n eqn:Hn. assert (Hle : length s <= n) by lia. clear Hn.
  revert s Hle; induction n as [|n IH]; intros [|c s] Hle; simpl in *; try lia; try easy.
  destruct (N.eqb_spec c CR) as [->|Hc].
  - destruct s as [|d s]; [simpl; unfold NL, CR; intuition congruence|].
    destruct (N.eqb_spec d NL) as [->|Hd]; simpl in *.
    + intros [E|E]; [unfold NL, CR in E; congruence|]. apply (IH s); [lia|exact E].
    + intros [E|E]; [unfold NL, CR in E; congruence|]. apply (IH (d :: s)); [simpl; lia|exact E].
  - intros [E|E]; [congruence|]. apply (IH s); [lia|exact E].
Qed.

Lemma ljust_ge n s : n <= length s -> ljust n s = s.
Proof. intros H. unfold ljust. replace (n - length s) with 0 by lia. simpl. apply app_nil_r. Qed.
