(** Totality of the API, line-by-line comparison, seeking. *)
From Verif Require Export CaseRunFacts.

Lemma nul_free_app a b : nul_free (a ++ b) <-> nul_free a /\ nul_free b.
Proof. unfold nul_free. rewrite in_app_iff. tauto. Qed.

Lemma nul_free_nl : nul_free [NL].
Proof. intros [H|[]]. discriminate. Qed.

Lemma nul_free_repeat c n : c <> NUL -> nul_free (repeat c n).
Proof. intros H Hi. apply repeat_spec in Hi. congruence. Qed.

Lemma nul_free_lit (x : string) : existsb (N.eqb NUL) (lit x) = false -> nul_free (lit x).
Proof.
  intros H Hi. assert (existsb (N.eqb NUL) (lit x) = true); [|congruence].
  apply existsb_exists. exists NUL. split; [exact Hi|apply N.eqb_refl].
Qed.

Section Lines.
Variable cc : CharClass.
Hypothesis TOK : TokClassOK cc.
Variable refloat : str -> option str.

(** ** Totality *)
Definition total (T : option str) (f : state -> option state) : Prop :=
  forall a s, Rel cc T a s -> exists ps s', f s = Some s' /\ reaches cc T a ps s'.

Lemma total_feed T c x : nul_free x -> total T (feed cc c x).
Proof.
  intros Hx a s HR. destruct (tokenize_total cc TOK x Hx) as [ts Hts].
  destruct (feed_exact cc TOK T a s c x ts HR Hts) as (s' & E & Hr). eauto.
Qed.

Lemma total_bind T f g : total T f -> total T g -> total T (fun s => bind (f s) g).
Proof.
  intros Hf Hg a s HR. destruct (Hf a s HR) as (p & s1 & E1 & H1).
  destruct (Hg _ s1 (proj2 H1)) as (q & s2 & E2 & H2).
  exists (p ++ q), s2. rewrite E1. split; [exact E2|]. eapply reaches_app; eauto.
Qed.

Lemma total_feedln T c x : nul_free x -> total T (fun s => bind (feed cc c x s) (feed cc c [NL])).
Proof. intros H. apply total_bind; apply total_feed; [exact H|apply nul_free_nl]. Qed.

Lemma total_seek T ok b e : total T (op_seek cc ok b e).
Proof.
  intros a s HR. destruct (op_seek_exact cc T a s ok b e HR) as (k & j & s' & E & Hr & _).
  eauto.
Qed.
Lemma total_jump T n : total T (op_jump cc n).
Proof. intros a s HR. destruct (op_jump_exact cc T a s n HR) as (s' & E & Hr). eauto. Qed.

Lemma total_mark T f p : (forall a s, Rel cc T a s -> Rel cc T (astep cc T a p) (f s)) ->
  good_prim T p -> total T (fun s => Some (f s)).
Proof.
  intros H Hg a s HR. exists [p], (f s). split; [reflexivity|].
  split; [constructor; [exact Hg|constructor]|]. now apply H.
Qed.
Lemma total_fail T : total T (fun s => Some (do_fail s)).
Proof. apply (total_mark T _ PFail); [apply do_fail_Rel|exact I]. Qed.
Lemma total_diff T : total T (fun s => Some (do_diff s)).
Proof. apply (total_mark T _ PDiff); [apply do_diff_Rel|exact I]. Qed.

Lemma total_steps T fs : Forall (total T) fs -> total T (steps fs).
Proof.
  induction 1 as [|f fs Hf _ IH].
  - intros a s HR. exists [], s. split; [reflexivity|now apply reaches_nil].
  - apply (total_bind T f (steps fs)); assumption.
Qed.

Lemma total_anchor T x : nul_free x -> total T (op_anchor cc x).
Proof. intros H. apply (total_bind T _ _ (total_seek T _ _ _)). now apply total_feed. Qed.
Lemma total_anchorln T x : nul_free x -> total T (op_anchorln cc x).
Proof. intros H. apply (total_bind T _ _ (total_seek T _ _ _)). now apply total_feedln. Qed.

Lemma total_header T h : nul_free h -> total T (op_header cc h).
Proof.
  intros H a s HR. unfold op_header. set (s1 := if Nat.ltb 0 (line_number s) then _ else s).
  assert (H1 : exists p, reaches cc T a p s1).
  { subst s1. destruct (Nat.ltb 0 (line_number s)).
    - eexists [PTok _ [NL]]. split; [constructor; [simpl; auto|constructor]|].
      apply feed_token_Rel; auto.
    - exists []. now apply reaches_nil. }
  destruct H1 as (p & Hp).
  destruct (total_bind T _ _ (total_anchorln T h H) (total_feedln T true [] (fun x => x))
              _ s1 (proj2 Hp)) as (q & s2 & E & Hq).
  exists (p ++ q), s2. split; [exact E|]. eapply reaches_app; eauto.
Qed.

Lemma total_ifloat T v u :
  nul_free v -> (forall x, u = Some x -> nul_free x) ->
  (forall x y, refloat x = Some y -> nul_free y) -> total T (op_ifloatln cc refloat v u).
Proof.
  intros Hv Hu Hr a s HR. unfold op_ifloatln.
  assert (Hp : nul_free (match u with Some u0 => [SP] ++ u0 | None => [] end)).
  { destruct u as [u|]; [|easy]. apply nul_free_app. split; [|now apply Hu].
    intros [H|[]]; discriminate. }
  set (post := match u with Some u0 => [SP] ++ u0 | None => [] end) in *. cbn zeta.
  destruct (match head_exp_token (rd s) with Some t => refloat t | None => None end) as [o|] eqn:Eo.
  - refine (total_bind T _ _ (total_feed T false _ _) (total_feedln T false _ _) a s HR).
    + apply nul_free_app; auto.
    + apply nul_free_app. split; [apply nul_free_lit; reflexivity|].
      apply nul_free_app. split.
      * destruct (head_exp_token (rd s)); [|discriminate]. eapply Hr; eauto.
      * apply nul_free_app. split; [exact Hp|apply nul_free_lit; reflexivity].
  - refine (total_bind T _ _ (total_feed T false _ _) (total_feedln T false _ _) a s HR).
    + apply nul_free_app; auto.
    + easy.
Qed.

Lemma total_assert T c m : (forall x, m = Some x -> nul_free x) -> total T (op_assertln cc c m).
Proof.
  intros Hm. unfold op_assertln. destruct c.
  - apply total_feedln. apply nul_free_lit; reflexivity.
  - apply (total_bind T _ _ (total_fail T)). apply total_feedln.
    destruct m as [[|ch m]|]; try (apply nul_free_lit; reflexivity). now apply Hm.
Qed.

Lemma strip_In sp x c : In c (strip sp x) -> In c x.
Proof.
  assert (H : forall s, In c (lstrip sp s) -> In c s).
  { intros s Hs. unfold lstrip in Hs. destruct (span sp s) as [u v] eqn:E.
    apply span_app in E. subst s. apply in_or_app. right. exact Hs. }
  unfold strip, rstrip. intros Hi. apply in_rev in Hi. apply H in Hi.
  apply in_rev in Hi. now apply H.
Qed.

Lemma cell_nul_free x : nul_free x -> nul_free (cell_text cc x).
Proof.
  intros Hx Hi. apply strip_In in Hi. apply in_map_iff in Hi as (d & E & Hi).
  apply in_map_iff in Hi as (d2 & E2 & Hi). subst d. revert E.
  destruct (N.eqb_spec d2 CR) as [->|]; [discriminate|].
  destruct (N.eqb_spec d2 NL) as [->|]; [discriminate|]. intros ->. auto.
Qed.

Lemma total_tdf T cols rows :
  (forall col, In col cols -> nul_free (fst col) /\ Forall nul_free (snd col)) ->
  total T (op_tdf cc cols rows).
Proof.
  intros Hc.
  assert (Hbar : nul_free bar) by (apply nul_free_lit; reflexivity).
  assert (Hfm : forall g, (forall col, In col cols -> nul_free (g col)) ->
    nul_free (bar ++ flat_map g cols)).
  { intros g Hg. apply nul_free_app. split; [exact Hbar|]. clear -Hg.
    induction cols as [|col cols IH]; [easy|]. simpl. apply nul_free_app.
    split; [apply Hg; now left|]. apply IH. intros; apply Hg; now right. }
  unfold op_tdf.
  refine (total_bind T _ _ (total_bind T _ _ (total_feedln T false _ _) (total_feedln T true _ _)) _).
  - apply Hfm. intros col Hin. apply nul_free_app. split; [|exact Hbar].
    unfold ljust. apply nul_free_app. split; [now apply Hc|]. apply nul_free_repeat. discriminate.
  - apply Hfm. intros col Hin. apply nul_free_app. split; [|exact Hbar].
    apply nul_free_repeat. discriminate.
  - apply total_steps. apply Forall_forall. intros f Hf. apply in_map_iff in Hf as (i & <- & _).
    apply total_steps. apply Forall_app. split; [constructor; [now apply total_feed|constructor]|].
    apply Forall_app. split; [|constructor; [now apply total_feedln|constructor]].
    apply Forall_forall. intros f Hf. apply in_flat_map in Hf as (col & Hin & Hf). cbn zeta in Hf.
    destruct Hf as [<-|[<-|[<-|[]]]]; apply total_feed; auto.
    + apply cell_nul_free. destruct (nth_in_or_default i (snd col) []) as [Hi| ->]; [|easy].
      destruct (Hc col Hin) as [_ H]. rewrite Forall_forall in H. now apply H.
    + apply nul_free_repeat. discriminate.
Qed.

Lemma total_tset_items T items prefix : nul_free prefix -> Forall nul_free items ->
  forall cmp a s, Rel cc T a s ->
  exists ps cmp' s', tset_items cc items prefix cmp s = Some (cmp', s') /\ reaches cc T a ps s'.
Proof.
  intros Hp Hi. induction Hi as [|i items Hi _ IH]; intros cmp a s HR.
  - exists [], cmp, s. split; [reflexivity|now apply reaches_nil].
  - cbn [tset_items]. assert (Hpi : nul_free (prefix ++ i)) by (apply nul_free_app; auto).
    assert (Hgo : forall f cmp2, total T f ->
      exists ps cmp' s', bind (f s) (tset_items cc items prefix cmp2) = Some (cmp', s') /\
                         reaches cc T a ps s').
    { intros f cmp2 Hf. destruct (Hf a s HR) as (p & s1 & E1 & H1).
      destruct (IH cmp2 _ s1 (proj2 H1)) as (q & c' & s2 & E2 & H2).
      exists (p ++ q), c', s2. rewrite E1. split; [exact E2|]. eapply reaches_app; eauto. }
    destruct cmp as [[compare [b e]]|].
    + destruct (str_mem i compare).
      * apply (Hgo (fun s => bind (op_seek_line cc (prefix ++ i) b (Some e) s)
                                  (op_iln cc (prefix ++ i)))).
        apply (total_bind T _ _ (total_seek T _ _ _)). now apply total_feedln.
      * apply (Hgo (fun s => op_iln cc (prefix ++ i) (do_diff s))).
        apply (total_bind T _ _ (total_diff T)). now apply total_feedln.
    + apply (Hgo (op_iln cc (prefix ++ i))). now apply total_feedln.
Qed.

Lemma total_tset T items prefix : nul_free prefix -> Forall nul_free items ->
  total T (op_tset cc items prefix).
Proof.
  intros Hp Hi a s HR. unfold op_tset. destruct (r_line (rd s)) as [l|] eqn:El.
  - destruct T as [t|]; [|rewrite (R_rd _ _ _ _ HR) in El; discriminate].
    assert (Hfu : reader_fuel (rd s) = S (length t)) by (rewrite (R_rd _ _ _ _ HR); reflexivity).
    pose proof (rlines_length t) as Hlen. pose proof (R_k _ _ _ _ HR) as Hk. simpl in Hk.
    destruct (tset_scan_total cc (reader_fuel (rd s)) prefix (last_checked s) t (a_k a) (a_j a) [])
      as (cmp & k' & j' & E & Hk'); [exact Hk|lia|].
    rewrite <- (R_rd _ _ _ _ HR) in E. rewrite E. cbn [bind].
    assert (HR1 : reaches cc (Some t) a [PMove k' j'] (set_rd (rpos cc (Some t) k' j') s)).
    { split; [constructor; [exact Hk'|constructor]|]. apply set_rd_Rel; [exact HR|exact Hk']. }
    destruct (total_tset_items (Some t) items prefix Hp Hi
      (Some (cmp, (r_num (rd s), r_num (rpos cc (Some t) k' j')))) _ _ (proj2 HR1))
      as (p & c' & s1 & E1 & H1).
    rewrite E1. cbn [bind fst snd]. pose proof (reaches_app _ _ _ _ _ _ _ HR1 H1) as H2.
    destruct c' as [[rest be]|]; [|eauto].
    destruct rest as [|x rest].
    + destruct (total_jump (Some t) (r_num (rpos cc (Some t) k' j')) _ s1 (proj2 H2)) as (q & s2 & E2 & H3).
      exists (([PMove k' j'] ++ p) ++ q), s2. split; [exact E2|]. eapply reaches_app; eauto.
    + pose proof (do_diff_Rel cc _ _ _ (proj2 H2)) as H2d.
      destruct (total_jump (Some t) (r_num (rpos cc (Some t) k' j')) _ _ H2d) as (q & s2 & E2 & H3).
      exists ((([PMove k' j'] ++ p) ++ [PDiff]) ++ q), s2. split; [exact E2|].
      eapply reaches_app; [|rewrite asteps_app; exact H3]. eapply reaches_app; [exact H2|].
      split; [repeat constructor|exact H2d].
  - destruct (total_tset_items T items prefix Hp Hi None a s HR) as (p & c' & s1 & E1 & H1).
    rewrite E1. cbn [bind snd]. eauto.
Qed.

Lemma exec_total T o :
  Forall nul_free (op_texts o) -> (forall x y, refloat x = Some y -> nul_free y) ->
  total T (exec cc refloat o).
Proof.
  intros Ht Hr.
  destruct o as [x|x|x|x| | |x|x|h|lv ti|k v|items p|items p|cols rows|v u|ov msg v
    |c m|ti c m|n|ok b e]; cbn [exec op_texts] in *;
    try (apply Forall_cons_iff in Ht as [Hx Ht]).
  - now apply total_feed.
  - now apply total_feedln.
  - now apply total_feed.
  - now apply total_feedln.
  - apply total_fail.
  - apply total_diff.
  - now apply total_anchor.
  - now apply total_anchorln.
  - now apply total_header.
  - apply total_header. apply nul_free_app. split; [apply nul_free_repeat; discriminate|].
    apply nul_free_app. split; [intros [H|[]]; discriminate|exact Hx].
  - apply Forall_cons_iff in Ht as [Hv _]. apply (total_bind T _ _ (total_anchor T k Hx)).
    apply total_feedln. apply nul_free_app. split; [intros [H|[]]; discriminate|exact Hv].
  - apply total_steps. apply Forall_forall. intros f Hf. apply in_map_iff in Hf as (i & <- & Hi).
    apply total_feedln. apply nul_free_app. rewrite Forall_forall in Ht. auto.
  - now apply total_tset.
  - apply total_tdf. intros col Hin. rewrite Forall_forall in Ht. split.
    + apply Ht. apply in_flat_map. exists col. split; [exact Hin|now left].
    + apply Forall_forall. intros x Hx. apply Ht. apply in_flat_map.
      exists col. split; [exact Hin|now right].
  - destruct u as [u|]; apply Forall_cons_iff in Ht as [Hv Ht].
    + apply Forall_cons_iff in Ht as [Hu _]. apply total_ifloat; auto. intros x E. inversion E; subst; exact Hu.
    + apply total_ifloat; auto. discriminate.
  - apply Forall_cons_iff in Ht as [Hv _]. unfold op_tmsln. destruct ov.
    + apply (total_bind T _ _ (total_fail T)). now apply total_feedln.
    + apply total_ifloat; auto. intros x E. inversion E. apply nul_free_lit; reflexivity.
  - apply total_assert. intros x ->. now apply Forall_cons_iff in Ht.
  - assert (Hti : nul_free ti /\ forall x, m = Some x -> nul_free x).
    { destruct m; apply Forall_cons_iff in Ht as [H1 H2]; split; auto; [|discriminate].
      intros x E. inversion E; subst. now apply Forall_cons_iff in H2. }
    apply (total_bind T (op_i cc (lit " * MUST " ++ ti ++ lit "...")) (op_assertln cc c m)).
    + apply total_feed. apply nul_free_app. split; [apply nul_free_lit; reflexivity|].
      apply nul_free_app. split; [exact (proj1 Hti)|apply nul_free_lit; reflexivity].
    + now apply total_assert.
  - apply total_jump.
  - apply total_seek.
Qed.

Lemma exec_all_total T ops :
  Forall (fun o => Forall nul_free (op_texts o)) ops ->
  (forall x y, refloat x = Some y -> nul_free y) -> total T (exec_all cc refloat ops).
Proof.
  intros Ho Hr. apply total_steps. apply Forall_forall. intros f Hf.
  apply in_map_iff in Hf as (o & <- & Hin). rewrite Forall_forall in Ho. apply exec_total; auto.
Qed.

Lemma run_body_total file point ops :
  Forall (fun o => Forall nul_free (op_texts o)) ops ->
  (forall x y, refloat x = Some y -> nul_free y) ->
  exists s, run_body cc refloat file point ops = Some s.
Proof.
  intros Ho Hr. pose proof (start_Rel cc file point) as HR.
  destruct (exec_all_total _ ops Ho Hr _ _ HR) as (ps & s & E & _). eauto.
Qed.

(** ** Seeking *)
Lemma find_from_spec ok ls : forall k, match find_from ok ls k with
  | Some k' => k <= k' /\ (exists l, nth_error ls (k' - k) = Some l /\ ok l = true) /\
               forall i, i < k' - k -> ~ exists l, nth_error ls i = Some l /\ ok l = true
  | None => forall i, ~ exists l, nth_error ls i = Some l /\ ok l = true
  end.
Proof.
  induction ls as [|l ls IH]; intros k; cbn [find_from].
  - intros i (l & H & _). destruct i; discriminate.
  - destruct (ok l) eqn:E.
    + split; [lia|]. rewrite Nat.sub_diag. split; [exists l; auto|]. intros i Hi; lia.
    + specialize (IH (S k)). destruct (find_from ok ls (S k)) as [k'|].
      * destruct IH as (H1 & H2 & H3). split; [lia|].
        replace (k' - k) with (S (k' - S k)) by lia. split; [exact H2|].
        intros [|i] Hi; [|apply H3; lia]. intros (x & Hx & Hok). inversion Hx; congruence.
      * intros [|i]; [|apply IH]. intros (x & Hx & Hok). inversion Hx; congruence.
Qed.

Lemma nth_error_skipn {A} (l : list A) k i : nth_error (skipn k l) i = nth_error l (k + i).
Proof.
  revert l; induction k as [|k IH]; intros l; [reflexivity|].
  destruct l as [|x l]; [simpl; destruct i; reflexivity|]. apply IH.
Qed.

Lemma nth_error_firstn {A} (l : list A) k i :
  nth_error (firstn k l) i = if Nat.ltb i k then nth_error l i else None.
Proof.
  revert l i; induction k as [|k IH]; intros l i.
  - destruct i; reflexivity.
  - destruct l as [|x l].
    + simpl. destruct i; simpl; [reflexivity|]. destruct (Nat.ltb _ _); reflexivity.
    + destruct i as [|i]; [reflexivity|]. simpl firstn. simpl nth_error. rewrite IH. reflexivity.
Qed.

Lemma seek_pos_spec ok ls k : k <= length ls -> seek_spec ok ls k (seek_pos ok ls k).
Proof.
  intros Hk. unfold seek_spec, seek_pos. cbn zeta.
  pose proof (find_from_spec ok (skipn k ls) k) as H1.
  destruct (find_from ok (skipn k ls) k) as [k'|].
  - destruct H1 as (A1 & A2 & A3). left. split; [exact A1|]. split.
    + destruct A2 as (l & A2 & Ao). rewrite nth_error_skipn in A2.
      replace (k + (k' - k)) with k' in A2 by lia. eauto.
    + intros i Hi. specialize (A3 (i - k)). rewrite nth_error_skipn in A3.
      replace (k + (i - k)) with i in A3 by lia. apply A3. lia.
  - assert (Hno : forall i, k <= i -> ~ exists l, nth_error ls i = Some l /\ ok l = true).
    { intros i Hi. specialize (H1 (i - k)). rewrite nth_error_skipn in H1.
      now replace (k + (i - k)) with i in H1 by lia. }
    pose proof (find_from_spec ok (firstn k ls) 0) as H2. right.
    destruct (find_from ok (firstn k ls) 0) as [k'|].
    + destruct H2 as (A1 & A2 & A3). left. rewrite Nat.sub_0_r in *.
      destruct A2 as (l & A2 & Ao). rewrite nth_error_firstn in A2.
      destruct (Nat.ltb_spec k' k); [|discriminate]. split; [assumption|].
      split; [eauto|]. split; [exact Hno|]. intros i Hi. specialize (A3 i Hi).
      rewrite nth_error_firstn in A3. destruct (Nat.ltb_spec i k); [exact A3|lia].
    + right. split; [reflexivity|]. intros i. destruct (Nat.le_gt_cases k i) as [Hi|Hi]; [auto|].
      specialize (H2 i). rewrite nth_error_firstn in H2.
      destruct (Nat.ltb_spec i k); [exact H2|lia].
Qed.

Definition cursor (s : state) : nat := r_num (rd s) - 1.

Lemma seek_run f point ops s ok :
  run_body cc refloat (Some f) point ops = Some s ->
  exists s', exec cc refloat (OSeek ok 0 None) s = Some s' /\
    s' = set_rd (rd s') s /\
    seek_spec ok (snapshot_lines f) (cursor s) (cursor s') /\
    r_line (rd s') = nth_error (snapshot_lines f) (cursor s') /\
    (cursor s' <> cursor s ->
     head_exp_token (rd s') = expected_token cc (snapshot_lines f) (cursor s') 0).
Proof.
  intros H. destruct (run_body_reaches cc TOK _ _ _ _ _ H) as (ps & [Hg HR] & _).
  cbn [option_map] in HR. set (t := univ_newlines f) in *.
  set (a := asteps cc (Some t) ps a0) in *.
  destruct (op_seek0_exact cc (Some t) a s ok HR) as (s' & E & Hr). cbn zeta in Hr.
  exists s'. split; [exact E|].
  destruct (op_seek_exact cc (Some t) a s ok 0 None HR) as (k & j & s1 & E1 & _ & Hs1).
  assert (Es : s' = set_rd (rpos cc (Some t) k j) s) by congruence.
  split; [rewrite Es; reflexivity|].
  unfold cursor. rewrite (R_rd _ _ _ _ (proj2 Hr)), (R_rd _ _ _ _ HR), !r_num_rpos, !r_line_rpos.
  cbn [asteps fold_left astep a_k a_j line_at]. rewrite <- rlines_snapshot. fold t.
  replace (S (a_k a) - 1) with (a_k a) by lia.
  set (k' := seek_pos ok (rlines t) (a_k a)). replace (S k' - 1) with k' by lia.
  split; [apply seek_pos_spec; exact (R_k _ _ _ _ HR)|]. split; [reflexivity|].
  intros Hne. rewrite head_exp_token_rpos, exp_tok_eq. f_equal. subst k'. unfold seek_pos in Hne.
  destruct (find_from ok (skipn (a_k a) (rlines t)) (a_k a)) as [k'|]; [|reflexivity].
  destruct (Nat.eqb_spec k' (a_k a)); [congruence|reflexivity].
Qed.

Lemma seek_run_none point ops s ok b e :
  run_body cc refloat None point ops = Some s -> exec cc refloat (OSeek ok b e) s = Some s.
Proof.
  intros H. destruct (run_body_reaches cc TOK _ _ _ _ _ H) as (ps & [Hg HR] & _).
  cbn [exec]. unfold op_seek, with_reader. rewrite (R_rd _ _ _ _ HR). cbn [option_map].
  unfold seek. cbn [rpos r_text]. cbn [option_map] in HR. pose proof (R_rd _ _ _ _ HR) as E.
  cbn [rpos] in E. rewrite <- E. destruct s; reflexivity.
Qed.

(** ** Simple tests, token by token *)
Definition ptoks (l : list (bool * str)) : list prim := map (fun x => PTok (fst x) (snd x)) l.

Lemma ptoks_toks c ts : ptoks (map (fun t => (c, t)) ts) = toks c ts.
Proof. unfold ptoks, toks. now rewrite map_map. Qed.

Lemma op_tokens_exec T o l : op_tokens cc o = Some l ->
  forall a s, Rel cc T a s ->
  exists s', exec cc refloat o s = Some s' /\ reaches cc T a (ptoks l) s'.
Proof.
  intros H a s HR. destruct o as [x|x|x|x| | |x|x|h|lv ti|k v|items p|items p|cols rows|v u|ov msg v
    |c m|ti c m|n|ok b e]; try discriminate; cbn [op_tokens] in H;
    destruct (tokenize cc x) as [ts|] eqn:E; try discriminate; cbn in H; inversion H; subst; clear H.
  - rewrite ptoks_toks. now apply feed_exact.
  - destruct (feedln_exact cc TOK T a s true x ts HR E) as (s' & E1 & H1).
    exists s'. split; [exact E1|]. unfold ptoks. rewrite map_app. fold (ptoks (map (fun t => (true, t)) ts)).
    rewrite ptoks_toks. unfold toks in *. rewrite map_app in H1. exact H1.
  - rewrite ptoks_toks. now apply feed_exact.
  - destruct (feedln_exact cc TOK T a s false x ts HR E) as (s' & E1 & H1).
    exists s'. split; [exact E1|]. unfold ptoks. rewrite map_app. fold (ptoks (map (fun t => (false, t)) ts)).
    rewrite ptoks_toks. unfold toks in *. rewrite map_app in H1. exact H1.
Qed.

Lemma op_tokens_None o : simple o = true -> op_tokens cc o = None ->
  forall s, exec cc refloat o s = None.
Proof.
  intros Hs H s. destruct o; try discriminate; cbn [op_tokens] in H;
    destruct (tokenize cc text) as [ts|] eqn:E; try discriminate;
    cbn [exec]; unfold op_t, op_tln, op_i, op_iln, feed; rewrite E; reflexivity.
Qed.

Lemma simple_exec T ops : forallb simple ops = true -> forall a s s',
  Rel cc T a s -> exec_all cc refloat ops s = Some s' ->
  exists tl, ops_tokens cc ops = Some tl /\ reaches cc T a (ptoks tl) s'.
Proof.
  induction ops as [|o ops IH]; intros Hs a s s' HR H.
  - inversion H; subst. exists []. split; [reflexivity|now apply reaches_nil].
  - cbn [forallb] in Hs. apply andb_true_iff in Hs as [Ho Hops].
    unfold exec_all in H. cbn [map steps] in H. apply bind_Some in H as (s1 & E1 & E2).
    cbn [ops_tokens]. destruct (op_tokens cc o) as [l|] eqn:El.
    + destruct (op_tokens_exec T o l El a s HR) as (s1' & E1' & H1).
      rewrite E1 in E1'. inversion E1'; subst s1'.
      destruct (IH Hops _ s1 s' (proj2 H1) E2) as (tl & Htl & H2). rewrite Htl.
      exists (l ++ tl). split; [reflexivity|]. unfold ptoks. rewrite map_app.
      eapply reaches_app; eauto.
    + rewrite (op_tokens_None o Ho El) in E1. discriminate.
Qed.

(** column of the first difference of a token list, as a function *)
Fixpoint diff_col (ls : list str) (n j col : nat) (l : list (bool * str)) : option nat :=
  match l with
  | [] => None
  | (c, t) :: l' =>
      if token_differs t (expected_token cc ls n j) && c then Some col
      else diff_col ls n (S j) (col + length t) l'
  end.

Lemma diff_col_app ls n l1 : forall j col l2,
  diff_col ls n j col (l1 ++ l2) =
  match diff_col ls n j col l1 with
  | Some p => Some p
  | None => diff_col ls n (j + length l1) (col + length (concat (map snd l1))) l2
  end.
Proof.
  induction l1 as [|[c t] l1 IH]; intros j col l2; cbn [diff_col app].
  - simpl. now rewrite !Nat.add_0_r.
  - destruct (token_differs t (expected_token cc ls n j) && c); [reflexivity|].
    rewrite IH. simpl. rewrite app_length. f_equal.
    now replace (S (j + length l1)) with (j + S (length l1)) by lia;
    rewrite Nat.add_assoc; replace (S j + length l1) with (j + S (length l1)) by lia.
Qed.

Lemma token_differs_iff t e : token_differs t e = true <-> e <> Some t.
Proof.
  unfold token_differs. destruct e as [x|]; [|split; congruence].
  destruct (str_eqb_spec t x) as [->|H]; simpl; split; congruence.
Qed.

Lemma diff_col_spec ls n l : forall j col,
  match diff_col ls n j col l with
  | Some p => exists i t, nth_error l i = Some (true, t) /\
      expected_token cc ls n (j + i) <> Some t /\
      (forall i' u, i' < i -> nth_error l i' = Some (true, u) ->
                    expected_token cc ls n (j + i') = Some u) /\
      p = col + length (concat (map snd (firstn i l)))
  | None => forall i t, nth_error l i = Some (true, t) -> expected_token cc ls n (j + i) = Some t
  end.
Proof.
  induction l as [|[c t] l IH]; intros j col; cbn [diff_col].
  - intros i t H. destruct i; discriminate.
  - destruct (token_differs t (expected_token cc ls n j) && c) eqn:E.
    + apply andb_true_iff in E as [E ->]. apply token_differs_iff in E.
      exists 0, t. rewrite Nat.add_0_r. split; [reflexivity|]. split; [exact E|].
      split; [intros; lia|]. simpl. lia.
    + assert (H0 : c = true -> expected_token cc ls n j = Some t).
      { intros ->. rewrite andb_true_r in E.
        destruct (expected_token cc ls n j) as [x|] eqn:Ex; [|discriminate].
        cbn in E. destruct (str_eqb_spec t x); [congruence|discriminate]. }
      specialize (IH (S j) (col + length t)).
      destruct (diff_col ls n (S j) (col + length t) l) as [p|].
      * destruct IH as (i & u & H1 & H2 & H3 & H4). exists (S i), u.
        replace (j + S i) with (S j + i) by lia. split; [exact H1|]. split; [exact H2|]. split.
        -- intros [|i'] v Hi Hv.
           ++ rewrite Nat.add_0_r. inversion Hv; subst. now apply H0.
           ++ replace (j + S i') with (S j + i') by lia. apply H3; [lia|exact Hv].
        -- rewrite H4. simpl. rewrite app_length. lia.
      * intros [|i] u Hu.
        -- inversion Hu; subst. rewrite Nat.add_0_r. now apply H0.
        -- replace (j + S i) with (S j + i) by lia. now apply IH.
Qed.

Lemma expected_min ls n j : expected_token cc ls (Nat.min n (length ls)) j = expected_token cc ls n j.
Proof.
  destruct (Nat.le_gt_cases n (length ls)).
  - now rewrite Nat.min_l.
  - rewrite Nat.min_r by lia. unfold expected_token.
    rewrite !(proj2 (nth_error_None _ _)) by lia. reflexivity.
Qed.

(** the record of line [n] made of the tokens [l] (newline included) *)
Definition rec_of (T : option str) (n : nat) (l : list (bool * str)) : line_rec :=
  {| lr_text := concat (map snd (removelast l));
     lr_exp := line_at T n;
     lr_diff := match T with None => None | Some t => diff_col (rlines t) n 0 0 l end;
     lr_err := None |}.

Fixpoint recs_of (T : option str) (n : nat) (ll : list (list (bool * str))) : list line_rec :=
  match ll with [] => [] | l :: ll' => rec_of T n l :: recs_of T (S n) ll' end.

Lemma line_at_min T n : line_at T (Nat.min n (nlines T)) = line_at T n.
Proof.
  destruct T as [t|]; [|reflexivity]. cbn [line_at nlines].
  destruct (Nat.le_gt_cases n (length (rlines t))).
  - now rewrite Nat.min_l.
  - rewrite Nat.min_r by lia. now rewrite !(proj2 (nth_error_None _ _)) by lia.
Qed.

Lemma simple_recs T tl : forall (cur : list (bool * str)) a,
  a_k a = Nat.min (length (a_recs a)) (nlines T) -> a_j a = length cur ->
  a_cur a = concat (map snd cur) -> a_e a = None ->
  a_d a = match T with None => None | Some t => diff_col (rlines t) (length (a_recs a)) 0 0 cur end ->
  a_recs (asteps cc T (ptoks tl) a) =
  a_recs a ++ recs_of T (length (a_recs a)) (token_lines_aux cur tl).
Proof.
  induction tl as [|[c t] tl IH]; intros cur a Hk Hj Hcur He Hd.
  - cbn. now rewrite app_nil_r.
  - cbn [ptoks map token_lines_aux fst snd]. fold (ptoks tl). rewrite asteps_cons.
    assert (Hd' : (if has_text T && token_differs t (exp_tok cc T (a_k a) (a_j a)) && c
                   then first_mark (a_d a) (length (a_cur a)) else a_d a) =
      match T with None => None
      | Some t0 => diff_col (rlines t0) (length (a_recs a)) 0 0 (cur ++ [(c, t)]) end).
    { destruct T as [t0|]; cbn [has_text andb]; [|rewrite Hd; reflexivity].
      rewrite exp_tok_eq, Hk. cbn [nlines]. rewrite expected_min, diff_col_app, <- Hd, Hj, Hcur.
      cbn [diff_col Nat.add].
      destruct (token_differs t (expected_token cc (rlines t0) (length (a_recs a)) (length cur)) && c);
        destruct (a_d a); reflexivity. }
    cbn [astep]. rewrite Hd'.
    destruct (str_eqb_spec t [NL]) as [->|Hne].
    + set (a' := {| a_k := _; a_j := 0; a_cur := []; a_d := None; a_e := None;
                    a_lc := c; a_recs := _ |}).
      rewrite (IH [] a').
      * subst a'. cbn [a_recs recs_of]. rewrite app_length. cbn [length].
        rewrite Nat.add_1_r, <- app_assoc. cbn [app]. f_equal. f_equal.
        unfold rec_of. rewrite He, Hcur, removelast_last, Hk, line_at_min. reflexivity.
      * subst a'. cbn [a_k a_recs]. rewrite app_length, Hk. simpl length. lia.
      * reflexivity.
      * reflexivity.
      * reflexivity.
      * subst a'. cbn [a_d a_recs]. destruct T; reflexivity.
    + set (a' := {| a_k := _; a_j := _; a_cur := _; a_d := _; a_e := _; a_lc := c; a_recs := _ |}).
      rewrite (IH (cur ++ [(c, t)]) a'); subst a'; cbn [a_k a_j a_cur a_d a_e a_recs]; auto.
      * rewrite app_length. simpl. lia.
      * rewrite map_app, concat_app, Hcur. simpl. now rewrite app_nil_r.
Qed.

Lemma recs_of_nth T ll : forall n i, nth_error (recs_of T n ll) i =
  option_map (rec_of T (n + i)) (nth_error ll i).
Proof.
  induction ll as [|l ll IH]; intros n i; [destruct i; reflexivity|].
  destruct i as [|i]; cbn [recs_of nth_error option_map]; [now rewrite Nat.add_0_r|].
  rewrite IH. now replace (S n + i) with (n + S i) by lia.
Qed.

Lemma recs_of_length T ll : forall n, length (recs_of T n ll) = length ll.
Proof. induction ll as [|l ll IH]; intros n; simpl; auto. Qed.

Lemma token_lines_aux_end tl : forall cur l, In l (token_lines_aux cur tl) ->
  exists q c, l = q ++ [(c, [NL])].
Proof.
  induction tl as [|[c t] tl IH]; intros cur l H; [easy|]. cbn [token_lines_aux] in H.
  destruct (str_eqb_spec t [NL]) as [->|Hne].
  - destruct H as [<-|H]; [eauto|]. eapply IH; eauto.
  - eapply IH; eauto.
Qed.

Lemma simple_run file point ops s :
  forallb simple ops = true -> run_body cc refloat file point ops = Some s ->
  exists tl, ops_tokens cc ops = Some tl /\
    accounts (recs_of (option_map univ_newlines file) 0 (token_lines tl)) s.
Proof.
  intros Hs H. pose proof (start_Rel cc file point) as HR.
  destruct (simple_exec _ ops Hs _ _ s HR H) as (tl & Htl & [Hg H1]).
  exists tl. split; [exact Htl|].
  pose proof (R_acc _ _ _ _ H1) as Ha.
  rewrite (simple_recs _ tl [] a0) in Ha; [exact Ha|..]; try reflexivity.
  - simpl. destruct file; reflexivity.
Qed.

Lemma simple_line_run f point ops s :
  forallb simple ops = true -> run_body cc refloat (Some f) point ops = Some s ->
  exists tl recs, ops_tokens cc ops = Some tl /\ accounts recs s /\
    length recs = length (token_lines tl) /\
    forall n l, nth_error (token_lines tl) n = Some l ->
    exists r, nth_error recs n = Some r /\ lr_text r ++ [NL] = concat (map snd l) /\
      lr_exp r = nth_error (snapshot_lines f) n /\ lr_err r = None /\
      (forall p, lr_diff r = Some p <-> first_difference cc (snapshot_lines f) n l p) /\
      (rec_differs r = true <-> line_differs cc (snapshot_lines f) n l).
Proof.
  intros Hs H. destruct (simple_run (Some f) point ops s Hs H) as (tl & Htl & Ha).
  cbn [option_map] in Ha. exists tl. eexists. split; [exact Htl|]. split; [exact Ha|].
  split; [apply recs_of_length|]. intros n l Hn. rewrite recs_of_nth, Hn. cbn [option_map Nat.add].
  exists (rec_of (Some (univ_newlines f)) n l). split; [reflexivity|].
  assert (Hend : exists q c, l = q ++ [(c, [NL])]).
  { apply nth_error_In in Hn. eapply token_lines_aux_end; eauto. }
  destruct Hend as (q & c & Eq).
  assert (Hd : forall p, lr_diff (rec_of (Some (univ_newlines f)) n l) = Some p <->
                         first_difference cc (snapshot_lines f) n l p).
  { intros p. cbn [rec_of lr_diff]. rewrite rlines_snapshot.
    pose proof (diff_col_spec (snapshot_lines f) n l 0 0) as Hs2. unfold first_difference.
    cbn [Nat.add] in Hs2. destruct (diff_col (snapshot_lines f) n 0 0 l) as [p'|].
    - destruct Hs2 as (i & t & A1 & A2 & A3 & A4). split.
      + intros E. inversion E; subst. exists i, t. auto.
      + intros (j & u & B1 & B2 & B3 & B4). f_equal.
        assert (i = j); [|subst; reflexivity].
        destruct (Nat.lt_trichotomy i j) as [Hlt|[E|Hlt]]; [|exact E|].
        * exfalso. apply A2. eapply B3; eauto.
        * exfalso. apply B2. eapply A3; eauto.
    - split; [discriminate|]. intros (j & u & B1 & B2 & _). exfalso. apply B2. now apply Hs2. }
  split; [|split; [|split; [reflexivity|split; [exact Hd|]]]].
  - cbn [rec_of lr_text]. rewrite Eq, removelast_last, map_app, concat_app. reflexivity.
  - cbn [rec_of lr_exp line_at]. now rewrite rlines_snapshot.
  - unfold rec_differs. destruct (lr_diff (rec_of (Some (univ_newlines f)) n l)) as [p|] eqn:E; cbn [marked].
    + split; [|reflexivity]. intros _. destruct (proj1 (Hd p) eq_refl) as (j & t & B1 & B2 & _). exists j, t. auto.
    + split; [discriminate|]. intros (j & t & B1 & B2). exfalso.
      cbn [rec_of lr_diff] in E. rewrite rlines_snapshot in E.
      pose proof (diff_col_spec (snapshot_lines f) n l 0 0) as Hs2. rewrite E in Hs2.
      apply B2. now apply Hs2.
Qed.

Lemma simple_line_run_none point ops s :
  forallb simple ops = true -> run_body cc refloat None point ops = Some s -> diffs s = 0 /\ errors s = 0.
Proof.
  intros Hs H. destruct (simple_run None point ops s Hs H) as (tl & Htl & Ha).
  rewrite (acc_diffs _ _ Ha), (acc_errors _ _ Ha). apply clean_counts.
  clear Ha. cbn [option_map]. generalize 0. induction (token_lines tl) as [|l ll IH]; intros n; cbn [recs_of].
  - constructor.
  - constructor; [split; reflexivity|apply IH].
Qed.

(** ** Tests that only use tln *)
Lemma tln_tokens ls : Forall nul_free ls ->
  exists tss : list (list str), Forall2 (fun l ts => tokenize cc l = Some ts) ls tss /\
    ops_tokens cc (map OTln ls) =
    Some (concat (map (fun ts => map (fun t => (true, t)) ts ++ [(true, [NL])]) tss)).
Proof.
  induction 1 as [|l ls Hl _ (tss & H1 & H2)].
  - exists []. split; [constructor|reflexivity].
  - destruct (tokenize_total cc TOK l Hl) as [ts Hts]. exists (ts :: tss).
    split; [constructor; auto|]. cbn [map ops_tokens op_tokens]. rewrite Hts, H2. reflexivity.
Qed.

Lemma tln_token_lines tss :
  Forall (Forall (fun t => t <> [NL])) tss ->
  token_lines (concat (map (fun ts => map (fun t : str => (true, t)) ts ++ [(true, [NL])]) tss)) =
  map (fun ts => map (fun t => (true, t)) ts ++ [(true, [NL])]) tss.
Proof.
  intros H.
  assert (Hg : forall ts cur rest, Forall (fun t : str => t <> [NL]) ts ->
    token_lines_aux cur ((map (fun t => (true, t)) ts ++ [(true, [NL])]) ++ rest) =
    (cur ++ map (fun t => (true, t)) ts ++ [(true, [NL])]) :: token_lines_aux [] rest).
  { intros ts; induction ts as [|t ts IH]; intros cur rest Ht.
    - reflexivity.
    - apply Forall_cons_iff in Ht as [Ht Hts]. cbn [map app token_lines_aux].
      destruct (str_eqb_spec t [NL]); [congruence|]. rewrite IH by exact Hts.
      now rewrite <- app_assoc. }
  unfold token_lines. induction H as [|ts tss Ht _ IH]; [reflexivity|].
  cbn [map concat]. rewrite Hg by exact Ht. now rewrite IH.
Qed.

Lemma tokens_no_nl l ts : tokenize cc l = Some ts -> ~ In NL l -> Forall (fun t => t <> [NL]) ts.
Proof.
  intros H Hn. apply Forall_forall. intros t Ht ->. apply Hn.
  rewrite <- (tokenize_concat cc TOK l ts H). apply in_concat. exists [NL]. split; [exact Ht|now left].
Qed.

(** a line written with tln agrees with snapshot line [n] exactly when they are equal *)
Lemma tln_line_agrees (ls : list str) n (l : str) ts :
  Forall (fun x : str => ~ In NL x) ls -> tokenize cc l = Some ts -> ~ In NL l ->
  (~ line_differs cc ls n (map (fun t => (true, t)) ts ++ [(true, [NL])])) <->
  nth_error ls n = Some l.
Proof.
  intros Hls Hts Hnl.
  assert (Hnth : forall j, j < length ts ->
     nth_error (map (fun t : str => (true, t)) ts ++ [(true, [NL])]) j = Some (true, nth j ts [])).
  { intros j Hj. rewrite nth_error_app1 by (rewrite map_length; lia).
    rewrite nth_error_map, (nth_error_nth' ts []) by lia. reflexivity. }
  assert (Hlast : nth_error (map (fun t : str => (true, t)) ts ++ [(true, [NL])]) (length ts) =
                  Some (true, [NL])).
  { rewrite nth_error_app2 by (rewrite map_length; lia). rewrite map_length, Nat.sub_diag. reflexivity. }
  split.
  - intros Hnd.
    assert (Hall : forall j t, nth_error (map (fun t => (true, t)) ts ++ [(true, [NL])]) j = Some (true, t) ->
                               expected_token cc ls n j = Some t).
    { intros j t Hj. destruct (expected_token cc ls n j) as [x|] eqn:E.
      - destruct (str_dec x t) as [->|Hne]; [reflexivity|]. exfalso. apply Hnd.
        exists j, t. split; [exact Hj|]. rewrite E. congruence.
      - exfalso. apply Hnd. exists j, t. split; [exact Hj|]. rewrite E. discriminate. }
    pose proof (Hall _ _ Hlast) as Hend. unfold expected_token in Hend.
    destruct (nth_error ls n) as [l'|] eqn:El; [|discriminate]. f_equal.
    cbn [option_map] in Hend. inversion Hend as [Hend'].
    assert (Hl' : ~ In NL l').
    { rewrite Forall_forall in Hls. apply Hls. eapply nth_error_In; eauto. }
    (* l' has exactly the tokens ts *)
    destruct (in_dec N.eq_dec NUL l') as [Hnul|Hnul].
    { exfalso. unfold line_token in Hend'.
      destruct (tok_iter_nul cc TOK (S (length ts)) l' Hnul) as [_ Hlen].
      pose proof (tok_iter_no_nl cc TOK (S (length ts)) l' Hl') as Hno.
      rewrite Forall_forall in Hno. apply (Hno [NL]); [|reflexivity].
      rewrite <- Hend' at 1. apply nth_In. rewrite Hlen. lia. }
    destruct (tokenize_total cc TOK l' Hnul) as [ts' Hts'].
    pose proof (tokens_no_nl l' ts' Hts' Hl') as Hno'.
    assert (Htok : forall j, line_token cc l' j = nth j ts' [NL]) by (intros; now apply line_token_nth).
    rewrite Htok in Hend'.
    assert (Hle : length ts' <= length ts).
    { destruct (Nat.le_gt_cases (length ts') (length ts)) as [|Hgt]; [assumption|exfalso].
      rewrite Forall_forall in Hno'. apply (Hno' [NL]); [|reflexivity].
      rewrite <- Hend' at 1. now apply nth_In. }
    assert (Heq : ts' = ts).
    { assert (Hnts : Forall (fun t => t <> [NL]) ts) by (eapply tokens_no_nl; eauto).
      assert (Hj : forall j, j < length ts -> nth j ts' [NL] = nth j ts []).
      { intros j Hj. specialize (Hall j _ (Hnth j Hj)). unfold expected_token in Hall.
        rewrite El in Hall. cbn [option_map] in Hall. rewrite Htok in Hall. congruence. }
      assert (Hlen : length ts' = length ts).
      { destruct (Nat.lt_ge_cases (length ts') (length ts)) as [Hlt|]; [exfalso|lia].
        specialize (Hj _ Hlt). rewrite nth_overflow in Hj by lia.
        rewrite Forall_forall in Hnts. apply (Hnts [NL]); [|reflexivity]. rewrite Hj. now apply nth_In. }
      apply (nth_ext ts' ts [NL] []); [exact Hlen|]. intros j Hjl. apply Hj. lia. }
    subst ts'. rewrite <- (tokenize_concat cc TOK l ts Hts), <- (tokenize_concat cc TOK l' ts Hts').
    reflexivity.
  - intros El (j & t & Hj & Hne). apply Hne. unfold expected_token. rewrite El. cbn [option_map].
    rewrite (line_token_nth cc TOK l ts j Hts). f_equal.
    destruct (Nat.lt_ge_cases j (length ts)) as [Hlt|Hge].
    + rewrite (Hnth j Hlt) in Hj. inversion Hj. now apply nth_indep.
    + rewrite nth_overflow by lia.
      assert (j = length ts).
      { assert (nth_error (map (fun t : str => (true, t)) ts ++ [(true, [NL])]) j <> None) by congruence.
        apply nth_error_Some in H. rewrite app_length, map_length in H. simpl in H. lia. }
      subst j. rewrite Hlast in Hj. congruence.
Qed.

Lemma tln_run f point (ls : list str) s :
  Forall (fun l => ~ In NL l /\ nul_free l) ls ->
  run_body cc refloat (Some f) point (map OTln ls) = Some s ->
  (verdict true s = OK <-> exists rest, snapshot_lines f = ls ++ rest).
Proof.
  intros Hls H.
  assert (Hs : forallb simple (map OTln ls) = true) by (clear; induction ls; simpl; auto).
  destruct (simple_line_run f point _ s Hs H) as (tl & recs & Htl & Ha & Hlen & Hrec).
  assert (Hnul : Forall nul_free ls) by (revert Hls; apply Forall_impl; tauto).
  destruct (tln_tokens ls Hnul) as (tss & Hts & Htl2). rewrite Htl in Htl2. inversion Htl2; subst tl.
  assert (Hnn : Forall (Forall (fun t => t <> [NL])) tss).
  { clear -Hts Hls TOK. induction Hts as [|l ts ls tss Ht _ IH]; [constructor|].
    apply Forall_cons_iff in Hls as [[Hn _] Hls]. constructor; [|now apply IH].
    eapply tokens_no_nl; eauto. }
  rewrite tln_token_lines in * by exact Hnn. rewrite map_length in Hlen.
  assert (Hlen2 : length tss = length ls).
  { clear -Hts. induction Hts; simpl; auto. }
  pose proof (verdict_rule _ _ true Ha) as (_ & _ & Vok). rewrite Vok.
  assert (Hrecs : forall n l, nth_error ls n = Some l ->
     exists r, nth_error recs n = Some r /\ rec_fails r = false /\
     (rec_differs r = false <-> nth_error (snapshot_lines f) n = Some l)).
  { intros n l Hn.
    assert (Htn : exists ts, nth_error tss n = Some ts /\ tokenize cc l = Some ts).
    { clear -Hts Hn. revert n Hn. induction Hts as [|l0 ts ls tss Ht _ IH]; intros [|n] Hn; try discriminate.
      - inversion Hn; subst. exists ts. split; [reflexivity|exact Ht].
      - apply IH. exact Hn. }
    destruct Htn as (ts & Htn & Htk).
    destruct (Hrec n (map (fun t => (true, t)) ts ++ [(true, [NL])])) as (r & R1 & _ & _ & R4 & _ & R6).
    { exact (map_nth_error _ n tss Htn). }
    exists r. split; [exact R1|]. split; [unfold rec_fails; now rewrite R4|].
    rewrite Forall_forall in Hls. destruct (Hls l (nth_error_In _ _ Hn)) as [Hnl _].
    rewrite <- (tln_line_agrees (snapshot_lines f) n l ts (snapshot_lines_no_nl f) Htk Hnl), <- R6.
    destruct (rec_differs r); split; congruence. }
  assert (Hrl : length recs = length ls) by exact (eq_trans Hlen Hlen2).
  split.
  - intros (Hf & Hd & _).
    assert (Hall : forall n l, nth_error ls n = Some l -> nth_error (snapshot_lines f) n = Some l).
    { intros n l Hn. destruct (Hrecs n l Hn) as (r & R1 & _ & R3). apply R3.
      destruct (rec_differs r) eqn:E; [|reflexivity].
      assert (existsb rec_differs recs = true); [|congruence].
      apply existsb_exists. exists r. split; [eapply nth_error_In; eauto|exact E]. }
    exists (skipn (length ls) (snapshot_lines f)).
    rewrite <- (firstn_skipn (length ls) (snapshot_lines f)) at 1. f_equal.
    assert (Hle : length ls <= length (snapshot_lines f)).
    { destruct ls as [|x ls'] eqn:E; [simpl; lia|]. rewrite <- E in *.
      destruct (nth_error ls (length ls - 1)) as [y|] eqn:En.
      - apply Hall in En. assert (length ls - 1 < length (snapshot_lines f)) by (apply nth_error_Some; congruence).
        rewrite E in *. simpl in *. lia.
      - apply nth_error_None in En. rewrite E in En. simpl in En. lia. }
    apply nth_ext with (d := []) (d' := []).
    + rewrite firstn_length. lia.
    + intros n Hn. rewrite firstn_length in Hn.
      assert (Hn2 : n < length ls) by lia.
      pose proof (nth_error_nth' ls [] Hn2) as E1. apply Hall in E1.
      apply (nth_error_nth _ _ []) in E1. rewrite <- E1. clear -Hn2.
      rewrite <- (firstn_skipn (length ls) (snapshot_lines f)) at 2.
      destruct (Nat.lt_ge_cases n (length (firstn (length ls) (snapshot_lines f)))) as [H|H].
      * now rewrite app_nth1.
      * rewrite firstn_length in H.
        assert (length (snapshot_lines f) <= n) by lia.
        rewrite firstn_skipn. rewrite !nth_overflow; auto. rewrite firstn_length. lia.
  - intros (rest & Er). split; [|split; [|reflexivity]].
    + destruct (existsb rec_fails recs) eqn:E; [|reflexivity]. apply existsb_exists in E as (r & Hin & Hr).
      apply In_nth_error in Hin as (n & Hn).
      assert (n < length recs) by (apply nth_error_Some; congruence).
      destruct (nth_error ls n) as [l|] eqn:El; [|apply nth_error_None in El; lia].
      destruct (Hrecs n l El) as (r' & R1 & R2 & _). congruence.
    + destruct (existsb rec_differs recs) eqn:E; [|reflexivity]. apply existsb_exists in E as (r & Hin & Hr).
      apply In_nth_error in Hin as (n & Hn).
      assert (n < length recs) by (apply nth_error_Some; congruence).
      destruct (nth_error ls n) as [l|] eqn:El; [|apply nth_error_None in El; lia].
      destruct (Hrecs n l El) as (r' & R1 & _ & R3).
      assert (rec_differs r' = false).
      { apply R3. rewrite Er, nth_error_app1 by lia. exact El. }
      congruence.
Qed.

End Lines.
