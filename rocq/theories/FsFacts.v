(** Lemmas about the file system model. *)
From Verif Require Export FsModel PyStrFacts.
From Coq Require Import Lia.

Lemma below_iff d p : below d p = true <-> exists r, p = d ++ SLASH :: r.
Proof.
  unfold below. rewrite starts_with_iff. split; intros [r ->]; exists r; now rewrite <- app_assoc.
Qed.

Lemma lookup_app p a b :
  lookup p (a ++ b) = match lookup p a with Some c => Some c | None => lookup p b end.
Proof.
  induction a as [|[q c] a IH]; [reflexivity|]. cbn [app lookup].
  destruct (str_eqb p q); [reflexivity|exact IH].
Qed.

Lemma lookup_filter p g f :
  lookup p (filter (fun e => g (fst e)) f) = if g p then lookup p f else None.
Proof.
  induction f as [|[q c] f IH]; cbn [filter lookup fst]; [now destruct (g p)|].
  destruct (str_eqb_spec p q) as [<-|Hne].
  - destruct (g p) eqn:Eg; cbn [lookup].
    + now rewrite str_eqb_refl.
    + exact IH.
  - destruct (g q); cbn [lookup]; [|exact IH].
    apply str_eqb_neq in Hne. now rewrite Hne.
Qed.

Lemma lookup_remove p q f : lookup p (remove_file q f) = if str_eqb q p then None else lookup p f.
Proof.
  unfold remove_file. rewrite (lookup_filter p (fun x => negb (str_eqb q x)) f).
  now destruct (str_eqb q p).
Qed.

Lemma lookup_write p q c f : lookup p (write_file q c f) = if str_eqb q p then Some c else lookup p f.
Proof.
  unfold write_file. cbn [lookup]. rewrite (str_eqb_sym p q).
  destruct (str_eqb q p) eqn:E; [reflexivity|].
  change (filter _ f) with (remove_file q f). rewrite lookup_remove. now rewrite E.
Qed.

Lemma lookup_In p c f : lookup p f = Some c -> In (p, c) f.
Proof.
  induction f as [|[q d] f IH]; [discriminate|]. cbn [lookup].
  destruct (str_eqb_spec p q) as [<-|]; [intros [= ->]; now left|right; auto].
Qed.

Lemma In_lookup p c f : In (p, c) f -> exists d, lookup p f = Some d.
Proof.
  induction f as [|[q d] f IH]; [easy|]. cbn [lookup]. intros [[= -> ->]|H].
  - rewrite str_eqb_refl. eauto.
  - destruct (str_eqb p q); eauto.
Qed.

Lemma is_dir_iff d f : is_dir d f = true <-> exists p c, lookup p f = Some c /\ below d p = true.
Proof.
  unfold is_dir. rewrite existsb_exists. split.
  - intros ((p, c) & H & Hb). destruct (In_lookup _ _ _ H) as [c' E]. exists p, c'. auto.
  - intros (p & c & H & Hb). exists (p, c). split; [now apply lookup_In|exact Hb].
Qed.

Lemma is_dir_false d f p : is_dir d f = false -> below d p = true -> lookup p f = None.
Proof.
  intros H Hb. destruct (lookup p f) as [c|] eqn:E; [|reflexivity].
  assert (is_dir d f = true) by (apply is_dir_iff; eauto). congruence.
Qed.

Lemma rebase_below a b r : rebase a b (a ++ SLASH :: r) = b ++ SLASH :: r.
Proof.
  unfold rebase. assert (below a (a ++ SLASH :: r) = true) as -> by (apply below_iff; eauto).
  f_equal. rewrite skipn_app, skipn_all, Nat.sub_diag. reflexivity.
Qed.

(** what a moved directory looks like afterwards *)
Lemma lookup_rename a b f : is_dir b f = false -> below a b = false ->
  forall p, lookup p (map (fun e => (rebase a b (fst e), snd e)) f) =
    if below b p then lookup (rebase b a p) f else if below a p then None else lookup p f.
Proof.
  intros Hb Hab. induction f as [|[q c] f IH]; intros p.
  - cbn. now destruct (below b p), (below a p).
  - unfold is_dir in Hb. cbn [existsb fst] in Hb. apply orb_false_iff in Hb as [Hbq Hb].
    specialize (IH Hb p). cbn [map lookup fst snd]. rewrite IH. clear IH.
    destruct (below b p) eqn:Ebp.
    + apply below_iff in Ebp as [r ->]. rewrite rebase_below.
      unfold rebase. destruct (below a q) eqn:Eaq.
      * apply below_iff in Eaq as [r' ->].
        replace (skipn (length a) (a ++ SLASH :: r')) with (SLASH :: r')
          by (rewrite skipn_app, skipn_all, Nat.sub_diag; reflexivity).
        destruct (str_eqb_spec (b ++ SLASH :: r) (b ++ SLASH :: r')) as [E|E];
          destruct (str_eqb_spec (a ++ SLASH :: r) (a ++ SLASH :: r')) as [E'|E']; try reflexivity.
        -- apply app_inv_head in E. congruence.
        -- apply app_inv_head in E'. congruence.
      * destruct (str_eqb_spec (b ++ SLASH :: r) q) as [<-|_].
        { assert (below b (b ++ SLASH :: r) = true) by (apply below_iff; eauto). congruence. }
        destruct (str_eqb_spec (a ++ SLASH :: r) q) as [<-|_]; [|reflexivity].
        assert (below a (a ++ SLASH :: r) = true) by (apply below_iff; eauto). congruence.
    + unfold rebase. destruct (below a q) eqn:Eaq.
      * apply below_iff in Eaq as [r' ->].
        replace (skipn (length a) (a ++ SLASH :: r')) with (SLASH :: r')
          by (rewrite skipn_app, skipn_all, Nat.sub_diag; reflexivity).
        destruct (str_eqb_spec p (b ++ SLASH :: r')) as [->|_].
        { assert (below b (b ++ SLASH :: r') = true) by (apply below_iff; eauto). congruence. }
        destruct (below a p) eqn:Eap; [reflexivity|].
        destruct (str_eqb_spec p (a ++ SLASH :: r')) as [->|_]; [|reflexivity].
        assert (below a (a ++ SLASH :: r') = true) by (apply below_iff; eauto). congruence.
      * destruct (str_eqb_spec p q) as [->|_]; [now rewrite Eaq|reflexivity].
Qed.

Lemma below_trans_app d r x : below d x = true -> below d (x ++ r) = true.
Proof. rewrite !below_iff. intros [y ->]. exists (y ++ r). now rewrite <- app_assoc. Qed.

(** joining *)
Lemma path_join_plain a b : a <> [] -> ends_with [SLASH] a = false -> starts_with [SLASH] b = false ->
  path_join a b = a ++ SLASH :: b.
Proof. intros Ha He Hb. unfold path_join. rewrite Hb. destruct a; [easy|]. now rewrite He. Qed.
