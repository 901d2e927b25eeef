(** Consequences of the refinement: output, marks, verdict, seeking, line comparison. *)
From Verif Require Export CaseRunProofs.

(** apply [H] to some hypothesis, up to unfolding *)
Ltac app_conv H := match goal with E : _ = Some _ |- _ => first
  [exact (H _ _ _ E) | exact (H _ _ _ _ E) | exact (H _ _ _ _ _ _ E)] end.

(** ** lines *)
Lemma rlines_unfold_nl s : rlines (NL :: s) = [] :: rlines s.
Proof. reflexivity. Qed.

Lemma rlines_line l s : ~ In NL l -> rlines (l ++ NL :: s) = l :: rlines s.
Proof.
  induction l as [|c l IH]; intros H; [reflexivity|].
  rewrite <- app_comm_cons, rlines_cons.
  destruct (N.eqb_spec c NL) as [->|Hc]; [exfalso; apply H; now left|].
  rewrite IH by (intros Hi; apply H; now right).
  destruct (l ++ NL :: s) eqn:E; [destruct l; discriminate|]. reflexivity.
Qed.

Lemma rlines_no_nl c l : ~ In NL (c :: l) -> rlines (c :: l) = [removelast (c :: l)].
Proof.
  revert c; induction l as [|d l IH]; intros c H; rewrite rlines_cons.
  - destruct (N.eqb_spec c NL) as [->|Hc]; [exfalso; apply H; now left|]. reflexivity.
  - destruct (N.eqb_spec c NL) as [->|Hc]; [exfalso; apply H; now left|].
    rewrite IH by (intros Hi; apply H; now right). reflexivity.
Qed.

Lemma rlines_text ls : Forall (fun l => ~ In NL l) ls -> rlines (lines_text ls) = ls.
Proof.
  induction 1 as [|l ls Hl _ IH]; [reflexivity|]. unfold lines_text. simpl.
  rewrite <- app_assoc. simpl. rewrite rlines_line by exact Hl. f_equal. exact IH.
Qed.

Lemma rlines_snapshot f : rlines (univ_newlines f) = snapshot_lines f.
Proof.
  unfold snapshot_lines. generalize (univ_newlines f). clear f. intros f.
  pose proof (join_split NL f) as Hj. pose proof (split_on_parts NL f) as Hp.
  pose proof (split_on_nonempty NL f) as Hn. revert Hj Hp Hn.
  generalize (split_on NL f). intros ps Hj Hp Hn. subst f.
  induction ps as [|p ps IH]; [congruence|]. apply Forall_cons_iff in Hp as [Hp Hps].
  destruct ps as [|q ps].
  - simpl. destruct p as [|c p]; [reflexivity|]. now rewrite rlines_no_nl.
  - rewrite join_cons by discriminate. change ([NL] ++ join_with [NL] (q :: ps))
      with (NL :: join_with [NL] (q :: ps)).
    rewrite rlines_line by exact Hp.
    change (removelast (p :: q :: ps)) with (p :: removelast (q :: ps)).
    change (last (p :: q :: ps) []) with (last (q :: ps) []).
    rewrite <- app_comm_cons. f_equal. apply IH; [exact Hps|discriminate].
Qed.

Lemma removelast_In {A} (x : A) l : In x (removelast l) -> In x l.
Proof.
  induction l as [|y l IH]; [easy|]. destruct l as [|z l]; [easy|].
  intros [->|H]; [now left|right; apply IH; exact H].
Qed.

Lemma last_In {A} (d : A) l : l <> [] -> In (last l d) l.
Proof.
  induction l as [|y [|z l] IH]; [congruence|now left|]. intros _. right. apply IH. discriminate.
Qed.

Lemma snapshot_lines_no_nl f : Forall (fun l => ~ In NL l) (snapshot_lines f).
Proof.
  unfold snapshot_lines. pose proof (split_on_parts NL (univ_newlines f)) as Hp.
  pose proof (split_on_nonempty NL (univ_newlines f)) as Hn.
  revert Hp Hn. generalize (split_on NL (univ_newlines f)). intros ps Hp Hn.
  rewrite Forall_forall in Hp. apply Forall_app; split.
  - apply Forall_forall. intros x Hx. apply Hp. apply removelast_In. exact Hx.
  - set (w := last ps []). assert (Hl : In w ps) by (apply last_In; exact Hn).
    clearbody w. destruct w as [|c t]; constructor; [|constructor].
    intros Hi. apply (Hp _ Hl). apply (removelast_In NL (c :: t)). exact Hi.
Qed.

(** ** tokens of a line *)
Section Facts.
Variable cc : CharClass.

Lemma tok_at_eq l j : tok_at cc l j = line_token cc l j.
Proof.
  unfold tok_at, line_token, bi_init.
  assert (H : forall j s, bi_head (bi_after cc j (bi_advance cc s)) =
                          nth_error (fst (tok_iter cc (S j) s)) j).
  { clear. intros j s.
    assert (Hs : forall j b, bi_after cc (S j) b = bi_after cc j (bi_step cc b)).
    { clear. induction j as [|j IH]; intros b; [reflexivity|].
      change (bi_after cc (S (S j)) b) with (bi_step cc (bi_after cc (S j) b)).
      now rewrite IH. }
    revert s; induction j as [|j IH]; intros s.
    - cbn [bi_after tok_iter]. unfold bi_advance. destruct (tok_step cc s) as [[t r]|]; reflexivity.
    - rewrite Hs. unfold bi_step, bi_next.
      destruct (tok_step cc s) as [[t r]|] eqn:Et.
      + unfold bi_advance at 1. rewrite Et. cbn [bi_head bi_rest].
        replace (bi_advance cc s) with {| bi_head := Some t; bi_rest := r |}
          by (unfold bi_advance; now rewrite Et).
        cbn [bi_head bi_rest]. rewrite IH.
        change (tok_iter cc (S (S j)) s) with
          (match tok_step cc s with None => ([], s)
           | Some (t, r) => let (ts, r') := tok_iter cc (S j) r in (t :: ts, r') end).
        rewrite Et. destruct (tok_iter cc (S j) r). reflexivity.
      + replace (bi_advance cc s) with {| bi_head := None; bi_rest := s |}
          by (unfold bi_advance; now rewrite Et).
        cbn [bi_head bi_rest].
        assert (Hb : forall i, bi_after cc i {| bi_head := None; bi_rest := s |} =
                               {| bi_head := None; bi_rest := s |}).
        { induction i as [|i IHi]; [reflexivity|]. cbn [bi_after]. rewrite IHi. reflexivity. }
        rewrite Hb. cbn [bi_head tok_iter]. rewrite Et. destruct j; reflexivity. }
  rewrite H. rewrite <- nth_default_eq. unfold nth_default.
  destruct (nth_error (fst (tok_iter cc (S j) l)) j); reflexivity.
Qed.

Lemma exp_tok_eq t k j : exp_tok cc (Some t) k j = expected_token cc (rlines t) k j.
Proof.
  unfold exp_tok, expected_token, line_at. destruct (nth_error (rlines t) k); simpl; [|reflexivity].
  now rewrite tok_at_eq.
Qed.

Hypothesis TOK : TokClassOK cc.

Lemma tok_iter_prefix s ts : tokenization cc s ts ->
  forall n, fst (tok_iter cc n s) = firstn n ts.
Proof.
  induction 1 as [|t r ts Ht _ IH]; intros n.
  - destruct n; reflexivity.
  - destruct n as [|n]; [reflexivity|]. cbn [tok_iter firstn].
    rewrite (token_step cc TOK _ _ Ht). specialize (IH n). destruct (tok_iter cc n r).
    simpl in *. now rewrite IH.
Qed.

Lemma nth_firstn_S {A} (d : A) : forall j l, nth j (firstn (S j) l) d = nth j l d.
Proof.
  induction j as [|j IH]; intros [|x l]; try reflexivity.
  change (firstn (S (S j)) (x :: l)) with (x :: firstn (S j) l). cbn [nth]. apply IH.
Qed.

Lemma line_token_nth l ts j : tokenize cc l = Some ts -> line_token cc l j = nth j ts [NL].
Proof.
  intros H. apply tokenize_iff in H; [|exact TOK]. unfold line_token.
  rewrite (tok_iter_prefix _ _ H). apply nth_firstn_S.
Qed.

(** tokens of a line with no newline are not the newline token, as long as there are any *)
Lemma tok_iter_no_nl n : forall s, ~ In NL s -> Forall (fun t => t <> [NL]) (fst (tok_iter cc n s)).
Proof.
  induction n as [|n IH]; intros s Hs; [constructor|]. cbn [tok_iter].
  destruct (tok_step cc s) as [[t r]|] eqn:E; [|constructor].
  assert (Hr : ~ In NL t /\ ~ In NL r).
  { destruct s as [|c s]; [discriminate|]. destruct (N.eq_dec c NUL) as [->|Hc].
    - rewrite (tok_step_nul cc TOK) in E. inversion E; subst. split; [easy|exact Hs].
    - destruct (tok_step_sound cc TOK _ _ _ E Hc) as (E' & _).
      rewrite E', in_app_iff in Hs. tauto. }
  specialize (IH r (proj2 Hr)). destruct (tok_iter cc n r). simpl in *.
  constructor; [|exact IH]. intros ->. apply (proj1 Hr). now left.
Qed.

(** ** The abstract machine: text, monotonicity, marks *)
Definition a_text (a : ast) : str := lines_text (map lr_text (a_recs a)) ++ a_cur a.

Lemma astep_text T a p : a_text (astep cc T a p) = a_text a ++ prim_text p.
Proof.
  unfold a_text. destruct p as [c t| | |k j]; simpl; rewrite ?app_nil_r; try reflexivity.
  destruct (str_eqb_spec t [NL]) as [->|H]; simpl.
  - rewrite map_app. cbn [map]. rewrite lines_text_snoc, app_nil_r. simpl.
    now rewrite <- app_assoc.
  - now rewrite app_assoc.
Qed.

Lemma asteps_cons T p ps a : asteps cc T (p :: ps) a = asteps cc T ps (astep cc T a p).
Proof. reflexivity. Qed.

Lemma asteps_text T ps : forall a, a_text (asteps cc T ps a) = a_text a ++ prims_text ps.
Proof.
  induction ps as [|p ps IH]; intros a; [cbn; now rewrite app_nil_r|].
  rewrite asteps_cons, IH, astep_text, <- app_assoc. reflexivity.
Qed.

Definition cur_ok (a : ast) : Prop := ~ In NL (a_cur a).

Lemma astep_cur_ok T a p : cur_ok a -> good_prim T p -> cur_ok (astep cc T a p).
Proof.
  unfold cur_ok. intros H Hg. destruct p as [c t| | |k j]; simpl in *; auto.
  destruct (str_eqb_spec t [NL]) as [->|Hne]; simpl; [easy|].
  rewrite in_app_iff. intros [Hi|Hi]; [auto|]. apply Hne; auto.
Qed.

Lemma asteps_cur_ok T ps : forall a,
  cur_ok a -> Forall (good_prim T) ps -> cur_ok (asteps cc T ps a).
Proof.
  induction ps as [|p ps IH]; intros a H Hg; [exact H|].
  apply Forall_cons_iff in Hg as [H1 H2]. apply (IH (astep cc T a p)); auto.
  now apply astep_cur_ok with (T := T).
Qed.

Lemma has_nl_iff s : has_nl s = true <-> In NL s.
Proof.
  unfold has_nl. rewrite existsb_exists. split.
  - intros (x & Hx & E). apply N.eqb_eq in E. now subst.
  - intros H. exists NL. split; [exact H|apply N.eqb_refl].
Qed.

Lemma has_nl_false s : has_nl s = false <-> ~ In NL s.
Proof. rewrite <- has_nl_iff. destruct (has_nl s); split; congruence. Qed.

Lemma started_has_nl a : cur_ok a -> started a = has_nl (a_text a).
Proof.
  intros H. unfold started, a_text. destruct (a_recs a) as [|r rs]; simpl.
  - symmetry. now apply has_nl_false.
  - symmetry. apply has_nl_iff. unfold lines_text. simpl. rewrite !in_app_iff.
    left; left; right; now left.
Qed.

(** records are only added *)
Lemma astep_recs T a p : exists q, a_recs (astep cc T a p) = a_recs a ++ q.
Proof.
  destruct p as [c t| | |k j]; simpl; try (exists []; now rewrite app_nil_r).
  destruct (str_eqb t [NL]); simpl; [eexists; reflexivity|exists []; now rewrite app_nil_r].
Qed.

Lemma asteps_recs T ps : forall a, exists q, a_recs (asteps cc T ps a) = a_recs a ++ q.
Proof.
  induction ps as [|p ps IH]; intros a; [exists []; now rewrite app_nil_r|].
  destruct (astep_recs T a p) as [q1 E1]. destruct (IH (astep cc T a p)) as [q2 E2].
  exists (q1 ++ q2). now rewrite asteps_cons, E2, E1, app_assoc.
Qed.

(** a pending mark ends up on a record when a line is finished *)
Lemma mark_error_commits T ps : forall a,
  Forall (good_prim T) ps -> a_e a <> None -> In NL (prims_text ps) ->
  exists r, In r (a_recs (asteps cc T ps a)) /\ rec_fails r = true.
Proof.
  induction ps as [|p ps IH]; intros a Hg He Hi; [easy|].
  apply Forall_cons_iff in Hg as [H1 H2].
  assert (Hnext : a_e (astep cc T a p) <> None -> In NL (prims_text ps) ->
     exists r, In r (a_recs (asteps cc T (p :: ps) a)) /\ rec_fails r = true).
  { intros. apply (IH (astep cc T a p)); auto. }
  destruct p as [c t| | |k j]; simpl in Hi.
  - destruct (str_eqb_spec t [NL]) as [->|Hne].
    + destruct (asteps_recs T ps (astep cc T a (PTok c [NL]))) as [q Eq].
      exists {| lr_text := a_cur a; lr_exp := line_at T (a_k a);
         lr_diff := if has_text T && token_differs [NL] (exp_tok cc T (a_k a) (a_j a)) && c
                    then first_mark (a_d a) (length (a_cur a)) else a_d a;
         lr_err := a_e a |}.
      split.
      * change (asteps cc T (PTok c [NL] :: ps) a) with (asteps cc T ps (astep cc T a (PTok c [NL]))).
        rewrite Eq. apply in_or_app. left. simpl. apply in_or_app. right. now left.
      * unfold rec_fails; simpl. destruct (a_e a); [reflexivity|congruence].
    + apply Hnext.
      * simpl. destruct (str_eqb_spec t [NL]); [congruence|]. exact He.
      * rewrite in_app_iff in Hi. destruct Hi as [Hi|Hi]; [|exact Hi]. apply H1 in Hi. congruence.
  - apply Hnext; auto. simpl. destruct (a_e a); simpl; congruence.
  - apply Hnext; auto.
  - apply Hnext; auto.
Qed.

Lemma mark_diff_commits T ps : forall a,
  Forall (good_prim T) ps -> a_d a <> None -> In NL (prims_text ps) ->
  exists r, In r (a_recs (asteps cc T ps a)) /\ rec_differs r = true.
Proof.
  induction ps as [|p ps IH]; intros a Hg He Hi; [easy|].
  apply Forall_cons_iff in Hg as [H1 H2].
  assert (Hnext : a_d (astep cc T a p) <> None -> In NL (prims_text ps) ->
     exists r, In r (a_recs (asteps cc T (p :: ps) a)) /\ rec_differs r = true).
  { intros. apply (IH (astep cc T a p)); auto. }
  destruct p as [c t| | |k j]; simpl in Hi.
  - assert (Hd : (if has_text T && token_differs t (exp_tok cc T (a_k a) (a_j a)) && c
                 then first_mark (a_d a) (length (a_cur a)) else a_d a) <> None).
    { destruct (has_text T && _ && c); [|exact He]. destruct (a_d a); simpl; congruence. }
    destruct (str_eqb_spec t [NL]) as [->|Hne].
    + destruct (asteps_recs T ps (astep cc T a (PTok c [NL]))) as [q Eq].
      eexists. split.
      * change (asteps cc T (PTok c [NL] :: ps) a) with (asteps cc T ps (astep cc T a (PTok c [NL]))).
        rewrite Eq. apply in_or_app. left. simpl. apply in_or_app. right. left. reflexivity.
      * unfold rec_differs; cbn [lr_diff]. match type of Hd with ?x <> None =>
          destruct x; [reflexivity|congruence] end.
    + apply Hnext.
      * simpl. destruct (str_eqb_spec t [NL]); [congruence|]. exact Hd.
      * rewrite in_app_iff in Hi. destruct Hi as [Hi|Hi]; [|exact Hi]. apply H1 in Hi. congruence.
  - apply Hnext; auto.
  - apply Hnext; auto. simpl. destruct (a_d a); simpl; congruence.
  - apply Hnext; auto.
Qed.

Lemma tok_diff_commits t0 t ps a :
  Forall (good_prim (Some t0)) (PTok true t :: ps) ->
  exp_tok cc (Some t0) (a_k a) (a_j a) <> Some t -> In NL (prims_text (PTok true t :: ps)) ->
  exists r, In r (a_recs (asteps cc (Some t0) (PTok true t :: ps) a)) /\ rec_differs r = true.
Proof.
  intros Hg Hne Hi. rewrite asteps_cons.
  assert (Hb : has_text (Some t0) && token_differs t (exp_tok cc (Some t0) (a_k a) (a_j a)) && true = true).
  { rewrite andb_true_r. cbn [has_text andb]. unfold token_differs.
    destruct (exp_tok cc (Some t0) (a_k a) (a_j a)) as [x|]; [|reflexivity].
    destruct (str_eqb_spec t x) as [->|]; [congruence|reflexivity]. }
  apply Forall_cons_iff in Hg as [Hg1 Hg2].
  destruct (str_eqb_spec t [NL]) as [->|Hnl].
  - destruct (asteps_recs (Some t0) ps (astep cc (Some t0) a (PTok true [NL]))) as [q Eq].
    rewrite Eq. cbn [astep]. rewrite Hb. cbn [str_eqb]. 
    change (str_eqb [NL] [NL]) with true. cbv iota. cbn [a_recs].
    eexists. split; [apply in_or_app; left; apply in_or_app; right; left; reflexivity|].
    unfold rec_differs. cbn [lr_diff]. destruct (a_d a); reflexivity.
  - apply mark_diff_commits; [exact Hg2| |].
    + cbn [astep]. rewrite Hb. destruct (str_eqb_spec t [NL]); [congruence|]. cbn [a_d].
      destruct (a_d a); discriminate.
    + cbn [prims_text flat_map prim_text] in Hi. apply in_app_or in Hi as [Hi|Hi]; [|exact Hi].
      exfalso. apply Hnl. now apply Hg1.
Qed.

Lemma fails_line_commits T ps : fails_line ps -> forall a,
  Forall (good_prim T) ps ->
  exists r, In r (a_recs (asteps cc T ps a)) /\ rec_fails r = true.
Proof.
  induction 1 as [ts q c|p ps _ IH]; intros a Hg.
  - apply Forall_cons_iff in Hg as [_ Hg].
    apply (mark_error_commits T _ (astep cc T a PFail) Hg).
    + simpl. destruct (a_e a); simpl; congruence.
    + rewrite prims_text_app, prims_text_toks, concat_app, !in_app_iff. left; right. now left.
  - apply Forall_cons_iff in Hg as [_ Hg]. apply (IH (astep cc T a p) Hg).
Qed.

(** harmless steps mark nothing *)
Definition clean (a : ast) : Prop :=
  a_d a = None /\ a_e a = None /\
  Forall (fun r => rec_differs r = false /\ rec_fails r = false) (a_recs a).

Lemma harmless_clean T ps : forall a,
  forallb harmless ps = true -> clean a -> clean (asteps cc T ps a).
Proof.
  induction ps as [|p ps IH]; intros a H Hc; [exact Hc|].
  simpl in H. apply andb_true_iff in H as [Hp Hps]. apply (IH (astep cc T a p) Hps).
  destruct Hc as (Hd & He & Hr). destruct p as [c t| | |k j]; simpl in Hp; try discriminate.
  - destruct c; [discriminate|]. unfold clean. simpl. rewrite andb_false_r, Hd, He.
    destruct (str_eqb t [NL]); simpl; repeat split; auto.
    apply Forall_app; split; [exact Hr|]. repeat constructor.
  - repeat split; auto.
Qed.

Lemma clean_counts recs :
  Forall (fun r => rec_differs r = false /\ rec_fails r = false) recs ->
  length (filter rec_differs recs) = 0 /\ length (filter rec_fails recs) = 0.
Proof.
  induction 1 as [|r rs [H1 H2] _ IH]; simpl; [auto|]. now rewrite H1, H2.
Qed.

Lemma count_pos (f : line_rec -> bool) recs r :
  In r recs -> f r = true -> 0 < length (filter f recs).
Proof.
  intros Hi Hf. assert (H : In r (filter f recs)) by (apply filter_In; auto).
  destruct (filter f recs); [easy|simpl; lia].
Qed.

(** ** Whole runs *)
Section Run.
Variable refloat : str -> option str.

Lemma runs_written T : forall ops a ps,
  runs cc T a ops ps -> cur_ok a -> Forall (good_prim T) ps ->
  written cc (a_text a) ops (a_text a ++ prims_text ps).
Proof.
  intros ops a ps H. induction H as [a|a o ops ps qs Ho _ IH]; intros Hc Hg.
  - rewrite app_nil_r. constructor.
  - apply Forall_app in Hg as [Hg1 Hg2].
    eapply written_cons; [rewrite <- started_has_nl by exact Hc; apply Ho|].
    rewrite prims_text_app, app_assoc, <- (asteps_text T ps a). apply IH; [|exact Hg2].
    now apply asteps_cur_ok.
Qed.

Lemma Rel_text T a s : Rel cc T a s -> out s ++ out_line s = a_text a.
Proof.
  intros HR. unfold a_text. rewrite (acc_out _ _ (R_acc _ _ _ _ HR)), (R_cur _ _ _ _ HR).
  reflexivity.
Qed.

Lemma run_body_written file point ops s :
  run_body cc refloat file point ops = Some s ->
  written cc [] ops (out s ++ out_line s) /\ ~ In NL (out_line s) /\
  (out s = [] \/ exists x, out s = x ++ [NL]).
Proof.
  intros H. destruct (run_body_reaches cc TOK _ _ _ _ _ H) as (ps & [Hg HR] & Hruns).
  pose proof (R_acc _ _ _ _ HR) as Hacc.
  split; [|split].
  - rewrite (Rel_text _ _ _ HR), asteps_text. apply (runs_written _ _ _ _ Hruns); [easy|exact Hg].
  - apply Hacc.
  - rewrite (acc_out _ _ Hacc). destruct (a_recs _) as [|r rs] eqn:E; [now left|right].
    assert (Hne : r :: rs <> []) by discriminate.
    destruct (exists_last Hne) as (l & x & El). rewrite El, map_app. cbn [map].
    rewrite lines_text_snoc. exists (lines_text (map lr_text l) ++ lr_text x).
    now rewrite <- app_assoc.
Qed.

(** the written text is determined by the calls *)
Lemma op_writes_det o st w1 w2 :
  snapshot_free o = true -> op_writes cc st o w1 -> op_writes cc st o w2 -> w1 = w2.
Proof.
  destruct o as [x|x|x|x| | |x|x|h|lv ti|k v|items p|items p|cols rows|v u|[|] msg v
    |c m|ti c m|n|ok b e]; simpl; intros H; try discriminate; congruence.
Qed.

Lemma written_det ops : forallb snapshot_free ops = true ->
  forall a b1 b2, written cc a ops b1 -> written cc a ops b2 -> b1 = b2.
Proof.
  induction ops as [|o ops IH]; intros Hf a b1 b2 H1 H2.
  - inversion H1; inversion H2; subst; congruence.
  - simpl in Hf. apply andb_true_iff in Hf as [Ho Hops].
    inversion H1 as [|? ? ? w1 ? W1 R1]; subst. inversion H2 as [|? ? ? w2 ? W2 R2]; subst.
    rewrite (op_writes_det _ _ _ _ Ho W1 W2) in R1. eapply IH; eauto.
Qed.

(** a text ending in a newline (or empty) followed by a newline-free rest: unique split *)
Lemma split_unique a1 b1 a2 b2 :
  (a1 = [] \/ exists x, a1 = x ++ [NL]) -> (a2 = [] \/ exists x, a2 = x ++ [NL]) ->
  ~ In NL b1 -> ~ In NL b2 -> a1 ++ b1 = a2 ++ b2 -> a1 = a2 /\ b1 = b2.
Proof.
  intros H1 H2 N1 N2 E.
  assert (Hlen : forall a b a' b' : str, (a = [] \/ exists x, a = x ++ [NL]) -> ~ In NL b' ->
     a ++ b = a' ++ b' -> length a <= length a').
  { clear. intros a b a' b' Ha Hb E. destruct Ha as [->|[x ->]]; [simpl; lia|].
    destruct (Nat.le_gt_cases (length (x ++ [NL])) (length a')) as [|Hgt]; [assumption|exfalso].
    rewrite app_length in Hgt. simpl in Hgt. apply Hb.
    assert (Hs : skipn (length a') ((x ++ [NL]) ++ b) = b').
    { rewrite E, skipn_app, Nat.sub_diag, skipn_all. reflexivity. }
    rewrite <- Hs, <- app_assoc, skipn_app. apply in_or_app. right.
    replace (length a' - length x) with 0 by lia. now left. }
  assert (L : length a1 = length a2).
  { apply Nat.le_antisymm; [apply (Hlen a1 b1 a2 b2)|apply (Hlen a2 b2 a1 b1)]; auto. }
  assert (F : a1 = a2).
  { rewrite <- (firstn_all a1), <- (firstn_all a2).
    transitivity (firstn (length a1) (a1 ++ b1)).
    - rewrite firstn_app, Nat.sub_diag, firstn_O, app_nil_r. reflexivity.
    - rewrite E, L, firstn_app, Nat.sub_diag, firstn_O, app_nil_r. reflexivity. }
  split; [exact F|]. subst a2. now apply app_inv_head in E.
Qed.

Lemma run_body_snapshot_free f1 f2 p1 p2 ops s1 s2 :
  forallb snapshot_free ops = true ->
  run_body cc refloat f1 p1 ops = Some s1 -> run_body cc refloat f2 p2 ops = Some s2 ->
  out s1 = out s2 /\ out_line s1 = out_line s2.
Proof.
  intros Hf H1 H2. apply run_body_written in H1 as (W1 & N1 & E1).
  apply run_body_written in H2 as (W2 & N2 & E2).
  apply split_unique; auto. eapply written_det; eauto.
Qed.

Lemma run_body_accounts file point ops s :
  run_body cc refloat file point ops = Some s -> exists recs, accounts recs s.
Proof.
  intros H. destruct (run_body_reaches cc TOK _ _ _ _ _ H) as (ps & [Hg HR] & _).
  exists (a_recs (asteps cc (option_map univ_newlines file) ps a0)). apply HR.
Qed.

Lemma verdict_rule recs s ex :
  accounts recs s ->
  (verdict ex s = FAIL <-> existsb rec_fails recs = true) /\
  (verdict ex s = DIFF <-> existsb rec_fails recs = false /\
                           (existsb rec_differs recs = true \/ ex = false)) /\
  (verdict ex s = OK <-> existsb rec_fails recs = false /\
                         existsb rec_differs recs = false /\ ex = true).
Proof.
  intros H. unfold verdict. rewrite (acc_errors _ _ H), (acc_diffs _ _ H).
  assert (Hc : forall f : line_rec -> bool,
    Nat.eqb (length (filter f recs)) 0 = negb (existsb f recs)).
  { intros f. clear. induction recs as [|r rs IH]; [reflexivity|].
    simpl. destruct (f r); [reflexivity|exact IH]. }
  rewrite !Hc, !negb_involutive.
  destruct (existsb rec_fails recs), (existsb rec_differs recs), ex; simpl;
    repeat split; intros; intuition congruence.
Qed.

(** unchecked traces *)
Lemma runs_harmless T : forall ops a ps,
  runs cc T a ops ps -> forallb unchecked_op ops = true -> forallb harmless ps = true.
Proof.
  intros ops a ps H; induction H as [a|a o ops ps qs Ho _ IH]; intros Hu; [reflexivity|].
  simpl in Hu. apply andb_true_iff in Hu as [H1 H2]. rewrite forallb_app, IH by exact H2.
  rewrite andb_true_r. now apply Ho.
Qed.

Lemma unchecked_run file point ops s :
  forallb unchecked_op ops = true -> run_body cc refloat file point ops = Some s ->
  diffs s = 0 /\ errors s = 0 /\ line_diff s = None /\ line_error s = None.
Proof.
  intros Hu H. destruct (run_body_reaches cc TOK _ _ _ _ _ H) as (ps & [Hg HR] & Hruns).
  pose proof (runs_harmless _ _ _ _ Hruns Hu) as Hh.
  destruct (harmless_clean (option_map univ_newlines file) ps a0 Hh) as (Hd & He & Hr).
  { repeat split; constructor. }
  destruct (clean_counts _ Hr) as [C1 C2]. pose proof (R_acc _ _ _ _ HR) as Hacc.
  rewrite (acc_diffs _ _ Hacc), (acc_errors _ _ Hacc), (R_d _ _ _ _ HR), (R_e _ _ _ _ HR). auto.
Qed.

(** no call changes the point_error_pos setting *)
Lemma exec_point o s s' : exec cc refloat o s = Some s' -> point_pos s' = point_pos s.
Proof.
  revert o s s'.
      assert (Hft : forall c s t, point_pos (feed_token cc c s t) = point_pos s).
      { intros c s t. unfold feed_token. destruct (next_exp_token cc (rd s)) as [e r].
        set (s1 := set_last_checked c (set_rd r s)).
        assert (H0 : point_pos (if match r_text r with Some _ => true | None => false end
             && token_differs t e && c then do_diff s1 else s1) = point_pos s).
        { destruct (_ && c); [|reflexivity]. unfold do_diff. destruct (line_diff s1); reflexivity. }
        destruct (str_eqb t [NL]); [|exact H0].
        rewrite <- H0. apply commit_fields. }
      assert (Hfd : forall c x s s', feed cc c x s = Some s' -> point_pos s' = point_pos s).
      { intros c x s s' H. unfold feed in H. destruct (tokenize cc x) as [ts|]; [|discriminate].
        inversion H; subst. clear H. revert s. induction ts as [|t ts IH]; intros s; [reflexivity|].
        simpl. now rewrite IH, Hft. }
      assert (Hln : forall c x s s', bind (feed cc c x s) (feed cc c [NL]) = Some s' ->
                                     point_pos s' = point_pos s).
      { intros c x s s' H. apply bind_Some in H as (s1 & E1 & E2).
        rewrite (Hfd _ _ _ _ E2). eauto. }
      assert (Hwr : forall f s s', with_reader f s = Some s' -> point_pos s' = point_pos s).
      { intros f s s' H. unfold with_reader in H. destruct (f (last_checked s) (rd s)); [|discriminate].
        inversion H; reflexivity. }
      assert (Hfl : forall s, point_pos (do_fail s) = point_pos s).
      { intros s. unfold do_fail. destruct (line_error s); reflexivity. }
      assert (Hdf : forall s, point_pos (do_diff s) = point_pos s).
      { intros s. unfold do_diff. destruct (line_diff s); reflexivity. }
      assert (Hst : forall fs, Forall (fun f : state -> option state =>
          forall s s', f s = Some s' -> point_pos s' = point_pos s) fs ->
          forall s s', steps fs s = Some s' -> point_pos s' = point_pos s).
      { clear. induction 1 as [|f fs Hf _ IH]; intros s s' H; [inversion H; reflexivity|].
        cbn [steps] in H. apply bind_Some in H as (s1 & E1 & E2). rewrite (IH _ _ E2). eauto. }
      assert (Hal : forall a s s', op_anchorln cc a s = Some s' -> point_pos s' = point_pos s).
      { intros a s s' H. apply bind_Some in H as (s1 & E1 & E2).
        rewrite (Hln _ _ _ _ E2). app_conv Hwr. }
      assert (Han : forall a s s', op_anchor cc a s = Some s' -> point_pos s' = point_pos s).
      { intros a s s' H. apply bind_Some in H as (s1 & E1 & E2).
        rewrite (Hfd _ _ _ _ E2). app_conv Hwr. }
      assert (Hhd : forall h s s', op_header cc h s = Some s' -> point_pos s' = point_pos s).
      { intros h s s' H. unfold op_header in H. apply bind_Some in H as (s1 & E1 & E2).
        rewrite (Hln _ _ _ _ E2), (Hal _ _ _ E1). destruct (Nat.ltb 0 (line_number s)); auto. }
      assert (Hif : forall v u s s', op_ifloatln cc refloat v u s = Some s' -> point_pos s' = point_pos s).
      { intros v u s s' H. unfold op_ifloatln in H. apply bind_Some in H as (s1 & E1 & E2).
        rewrite <- (Hfd _ _ _ _ E1).
        destruct (match head_exp_token (rd s) with Some t => refloat t | None => None end);
          app_conv Hln. }
      assert (Has : forall c m s s', op_assertln cc c m s = Some s' -> point_pos s' = point_pos s).
      { intros c m s s' H. unfold op_assertln in H. destruct c; [app_conv Hln|].
        rewrite (Hln _ _ _ _ H). apply Hfl. }
      assert (Hti : forall items p cmp s cmp' s', tset_items cc items p cmp s = Some (cmp', s') ->
                    point_pos s' = point_pos s).
      { induction items as [|i items IH]; intros p cmp s cmp' s' H; [inversion H; reflexivity|].
        cbn [tset_items] in H. destruct cmp as [[compare [b e]]|].
        - destruct (str_mem i compare).
          + apply bind_Some in H as (s2 & E2 & E3). apply bind_Some in E2 as (s1 & E1 & E2).
            rewrite (IH _ _ _ _ _ E3), (Hln _ _ _ _ E2). app_conv Hwr.
          + apply bind_Some in H as (s2 & E2 & E3).
            rewrite (IH _ _ _ _ _ E3), (Hln _ _ _ _ E2). apply Hdf.
        - apply bind_Some in H as (s2 & E2 & E3).
          rewrite (IH _ _ _ _ _ E3). app_conv Hln. }
      intros o s s' H. destruct o as [x|x|x|x| | |x|x|h|lv ti|k v|items p|items p|cols rows|v u|ov msg v
        |c m|ti c m|n|ok b e]; cbn [exec] in H.
      - exact (Hfd _ _ _ _ H).
      - exact (Hln _ _ _ _ H).
      - exact (Hfd _ _ _ _ H).
      - exact (Hln _ _ _ _ H).
      - inversion H; subst; apply Hfl.
      - inversion H; subst; apply Hdf.
      - exact (Han _ _ _ H).
      - exact (Hal _ _ _ H).
      - exact (Hhd _ _ _ H).
      - exact (Hhd _ _ _ H).
      - apply bind_Some in H as (s1 & E1 & E2). rewrite (Hln _ _ _ _ E2). exact (Han _ _ _ E1).
      - revert H. apply Hst. induction items; cbn [map]; constructor; [|assumption].
        intros s1 s2 H. exact (Hln _ _ _ _ H).
      - unfold op_tset in H. destruct (r_line (rd s)).
        + apply bind_Some in H as ([cmp r] & E1 & E2). apply bind_Some in E2 as ([c' s1] & E2 & E3).
          cbn [fst snd] in E3. apply Hti in E2. cbn [point_pos set_rd] in E2. rewrite <- E2.
          destruct c' as [[rest be]|]; [|inversion E3; reflexivity].
          destruct rest; [exact (Hwr _ _ _ E3)|]. rewrite (Hwr _ _ _ E3). apply Hdf.
        + apply bind_Some in H as ([c' s1] & E2 & E3). inversion E3; subst. exact (Hti _ _ _ _ _ _ E2).
      - unfold op_tdf in H. apply bind_Some in H as (s2 & E2 & E3). apply bind_Some in E2 as (s1 & E1 & E2).
        rewrite <- (Hln _ _ _ _ E1), <- (Hln _ _ _ _ E2). revert E3. apply Hst.
        induction (seq 0 rows) as [|i l IH]; cbn [map]; constructor; [|exact IH].
        assert (Hc : forall cs, Forall (fun f : state -> option state =>
          forall s s', f s = Some s' -> point_pos s' = point_pos s)
          (flat_map (fun col : str * list str =>
             let buf := cell_text cc (nth i (snd col) []) in
             [op_t cc buf; op_i cc (repeat SP (col_pad col - length buf)); op_t cc bar]) cs)).
        { induction cs as [|col cs IHc]; [constructor|]. cbn [flat_map]. apply Forall_app.
          split; [|exact IHc]. repeat constructor; intros; eapply Hfd; eassumption. }
        apply Hst. apply Forall_app. split; [repeat constructor; intros; eapply Hfd; eassumption|].
        apply Forall_app. split; [apply Hc|]. repeat constructor; intros s3 s4 H; exact (Hln _ _ _ _ H).
      - exact (Hif _ _ _ _ H).
      - unfold op_tmsln in H. destruct ov; [|exact (Hif _ _ _ _ H)].
        rewrite (Hln _ _ _ _ H). apply Hfl.
      - exact (Has _ _ _ _ H).
      - apply bind_Some in H as (s1 & E1 & E2). rewrite (Has _ _ _ _ E2). exact (Hfd _ _ _ _ E1).
      - exact (Hwr _ _ _ H).
      - exact (Hwr _ _ _ H).
Qed.

Lemma exec_all_point ops : forall s s',
  exec_all cc refloat ops s = Some s' -> point_pos s' = point_pos s.
Proof.
  induction ops as [|o ops IH]; intros s s' H; [inversion H; reflexivity|].
  unfold exec_all in H. cbn [map steps] in H. apply bind_Some in H as (s1 & E1 & E2).
  rewrite (IH s1 s' E2). eapply exec_point; eauto.
Qed.

(** counts never decrease *)
Lemma exec_all_monotone file point ops1 ops2 s1 s2 :
  run_body cc refloat file point ops1 = Some s1 ->
  exec_all cc refloat ops2 s1 = Some s2 ->
  diffs s1 <= diffs s2 /\ errors s1 <= errors s2 /\ line_number s1 <= line_number s2 /\
  (exists x, out s2 = out s1 ++ x) /\ (exists x, rep s2 = rep s1 ++ x).
Proof.
  intros H1 H2. destruct (run_body_reaches cc TOK _ _ _ _ _ H1) as (ps & [Hg HR] & _).
  destruct (exec_all_ok cc TOK _ refloat _ _ _ _ HR H2) as (qs & [Hg2 HR2] & _).
  destruct (asteps_recs (option_map univ_newlines file) qs
              (asteps cc (option_map univ_newlines file) ps a0)) as [q Eq].
  pose proof (R_acc _ _ _ _ HR) as A1. pose proof (R_acc _ _ _ _ HR2) as A2.
  rewrite (acc_diffs _ _ A1), (acc_diffs _ _ A2), (acc_errors _ _ A1), (acc_errors _ _ A2),
    (acc_number _ _ A1), (acc_number _ _ A2), (acc_out _ _ A1), (acc_out _ _ A2), Eq.
  rewrite !filter_app, !app_length. repeat split; try lia.
  - rewrite map_app. unfold lines_text. rewrite flat_map_app. eexists; reflexivity.
  - rewrite (acc_rep _ _ A1), (acc_rep _ _ A2), Eq, flat_map_app.
    rewrite (exec_all_point _ _ _ H2). eexists; reflexivity.
Qed.

Lemma runs_split T : forall ops1 ops2 a ps,
  runs cc T a (ops1 ++ ops2) ps ->
  exists p q, ps = p ++ q /\ runs cc T a ops1 p /\ runs cc T (asteps cc T p a) ops2 q.
Proof.
  induction ops1 as [|o ops1 IH]; intros ops2 a ps H.
  - exists [], ps. split; [reflexivity|]. split; [constructor|exact H].
  - simpl in H. inversion H as [|? ? ? p1 q1 Ho Hr]; subst.
    destruct (IH _ _ _ Hr) as (p & q & -> & H1 & H2).
    exists (p1 ++ p), q. split; [now rewrite app_assoc|]. split; [now constructor|].
    now rewrite asteps_app.
Qed.

Lemma exec_all_app ops1 ops2 s :
  exec_all cc refloat (ops1 ++ ops2) s = bind (exec_all cc refloat ops1 s) (exec_all cc refloat ops2).
Proof.
  unfold exec_all. rewrite map_app. generalize (map (exec cc refloat) ops1), (map (exec cc refloat) ops2).
  clear. intros l l2. revert s; induction l as [|f l IH]; intros s; [reflexivity|].
  simpl. destruct (f s); [apply IH|reflexivity].
Qed.

(** a failing call, wherever it is *)
Lemma failing_run file point ops o s ex :
  In o ops -> failing_op o = true -> run_body cc refloat file point ops = Some s ->
  verdict ex s = FAIL.
Proof.
  intros Hin Hf H. destruct (run_body_reaches cc TOK _ _ _ _ _ H) as (ps & [Hg HR] & Hruns).
  apply in_split in Hin as (l1 & l2 & ->).
  destruct (runs_split _ _ _ _ _ Hruns) as (p & q & -> & _ & H2).
  inversion H2 as [|? ? ? p1 q1 Ho Hr]; subst.
  assert (Hfl : fails_line (p ++ p1 ++ q1)).
  { apply fails_line_app. destruct Ho as (_ & _ & Hfo & _). specialize (Hfo Hf). clear -Hfo.
    induction Hfo as [ts q c|x ps _ IH].
    - simpl. rewrite <- app_assoc. apply fl_here.
    - simpl. now constructor. }
  destruct (fails_line_commits (option_map univ_newlines file) _ Hfl a0 Hg) as (r & Hr1 & Hr2).
  apply (verdict_rule _ _ ex (R_acc _ _ _ _ HR)). apply existsb_exists. eauto.
Qed.

(** marks are not lost once a line is finished after them *)
Lemma marked_run file point pre post o s1 s2 ex :
  (o = OFail \/ o = ODiff) ->
  run_body cc refloat file point (pre ++ [o]) = Some s1 ->
  exec_all cc refloat post s1 = Some s2 -> out s2 <> out s1 ->
  (o = OFail -> verdict ex s2 = FAIL) /\ (o = ODiff -> verdict ex s2 <> OK).
Proof.
  intros Ho H1 H2 Hout. destruct (run_body_reaches cc TOK _ _ _ _ _ H1) as (ps & [Hg HR] & Hruns).
  set (T := option_map univ_newlines file) in *.
  destruct (exec_all_ok cc TOK _ refloat _ _ _ _ HR H2) as (qs & [Hg2 HR2] & Hruns2).
  destruct (runs_split _ _ _ _ _ Hruns) as (p & q & -> & _ & H3).
  inversion H3 as [|? ? ? p1 q1 Hok Hr]; subst. inversion Hr; subst. rewrite app_nil_r in *.
  assert (Hnl : In NL (prims_text qs)).
  { apply has_nl_iff. destruct (has_nl (prims_text qs)) eqn:E; [reflexivity|exfalso].
    apply has_nl_false in E. apply Hout.
    pose proof (Rel_text _ _ _ HR) as T1. pose proof (Rel_text _ _ _ HR2) as T2.
    rewrite asteps_text, <- T1, <- app_assoc in T2. fold T in T2.
    assert (Hs : forall ops s, run_body cc refloat file point ops = Some s ->
                 (out s = [] \/ exists x, out s = x ++ [NL])).
    { intros ops s Hb. apply run_body_written in Hb. tauto. }
    refine (proj1 (split_unique (out s2) (out_line s2) (out s1) (out_line s1 ++ prims_text qs)
              _ _ _ _ T2)).
    - apply (Hs (pre ++ [o] ++ post)). unfold run_body in *. rewrite app_assoc, exec_all_app, H1. exact H2.
    - apply (Hs (pre ++ [o])). exact H1.
    - apply (acc_no_nl _ _ (R_acc _ _ _ _ HR2)).
    - rewrite in_app_iff. intros [Hi|Hi]; [|auto].
      apply (acc_no_nl _ _ (R_acc _ _ _ _ HR)). exact Hi. }
  pose proof (verdict_rule _ _ ex (R_acc _ _ _ _ HR2)) as (V1 & V2 & V3).
  destruct Hok as (_ & _ & _ & HF & HD). split; intros ->.
  - rewrite HF in * by reflexivity. apply V1. apply existsb_exists.
    apply (mark_error_commits T qs _ Hg2); [|exact Hnl].
    rewrite asteps_app. simpl. destruct (a_e _); simpl; congruence.
  - rewrite HD in * by reflexivity. intros E. apply V3 in E as (_ & E & _).
    destruct (mark_diff_commits T qs (asteps cc T (p ++ [PDiff]) a0) Hg2) as (r & R1 & R2); [|exact Hnl|].
    + rewrite asteps_app. simpl. destruct (a_d _); simpl; congruence.
    + assert (existsb rec_differs (a_recs (asteps cc T qs (asteps cc T (p ++ [PDiff]) a0))) = true).
      { apply existsb_exists; eauto. }
      congruence.
Qed.

(** a differing checked token *)
Lemma differing_run f point pre post x t ts s0 s2 ex :
  run_body cc refloat (Some f) point pre = Some s0 ->
  tokenize cc x = Some (t :: ts) -> head_exp_token (rd s0) <> Some t ->
  exec_all cc refloat (OT x :: post) s0 = Some s2 -> out s2 <> out s0 ->
  verdict ex s2 <> OK.
Proof.
  intros H0 Hx Hne H2 Hout.
  destruct (run_body_reaches cc TOK _ _ _ _ _ H0) as (ps & [Hg HR] & _).
  cbn [option_map] in *. set (T := Some (univ_newlines f)) in *.
  set (a := asteps cc T ps a0) in *.
  unfold exec_all in H2. cbn [map steps] in H2. apply bind_Some in H2 as (s1 & E1 & E2).
  destruct (feed_reaches cc TOK T a s0 true x s1 HR E1) as (ts' & Hts' & H1).
  rewrite Hx in Hts'. inversion Hts'; subst ts'. clear Hts'.
  destruct (exec_all_ok cc TOK _ refloat _ _ _ _ (proj2 H1) E2) as (qs & H3 & _).
  pose proof (reaches_app _ _ _ _ _ _ _ H1 H3) as [Hg4 HR4].
  change (toks true (t :: ts) ++ qs) with (PTok true t :: toks true ts ++ qs) in *.
  set (l := PTok true t :: toks true ts ++ qs) in *.
  assert (Hnl : In NL (prims_text l)).
  { apply has_nl_iff. destruct (has_nl (prims_text l)) eqn:E; [reflexivity|exfalso].
    apply has_nl_false in E. apply Hout.
    pose proof (Rel_text _ _ _ HR) as T1. pose proof (Rel_text _ _ _ HR4) as T2.
    rewrite asteps_text, <- T1, <- app_assoc in T2.
    assert (Hs : forall ops s, run_body cc refloat (Some f) point ops = Some s ->
                 (out s = [] \/ exists x, out s = x ++ [NL])).
    { intros ops s Hb. apply run_body_written in Hb. tauto. }
    refine (proj1 (split_unique (out s2) (out_line s2) (out s0) (out_line s0 ++ prims_text l)
              _ _ _ _ T2)).
    - apply (Hs (pre ++ OT x :: post)). unfold run_body in *. rewrite exec_all_app, H0.
      unfold exec_all. cbn [bind map steps]. rewrite E1. exact E2.
    - exact (Hs pre _ H0).
    - apply (acc_no_nl _ _ (R_acc _ _ _ _ HR4)).
    - rewrite in_app_iff. intros [Hi|Hi]; [|auto].
      apply (acc_no_nl _ _ (R_acc _ _ _ _ HR)). exact Hi. }
  destruct (tok_diff_commits (univ_newlines f) t (toks true ts ++ qs) a Hg4) as (r & R1 & R2).
  { rewrite (R_rd _ _ _ _ HR), head_exp_token_rpos in Hne. exact Hne. }
  { exact Hnl. }
  intros E. apply (verdict_rule _ _ ex (R_acc _ _ _ _ HR4)) in E as (_ & E & _).
  assert (existsb rec_differs (a_recs (asteps cc T l a)) = true).
  { apply existsb_exists. exists r. split; [exact R1|exact R2]. }
  congruence.
Qed.

End Run.
End Facts.
