(** The tokens of every line, on the abstract machine of CaseRunProofs (C72-C74). *)
From Verif Require Import PyStrFacts TokenizerSpec TokenizerProofs CaseRunModel CaseRunSpec ReaderProofs CaseRunProofs CaseRunFacts CaseRunLines CheckedModel.
From Coq Require Import Lia.

(** ** Token lists *)
Lemma open_aux_snoc tl : forall cur c x,
  open_aux cur (tl ++ [(c, x)]) = if str_eqb x [NL] then [] else open_aux cur tl ++ [(c, x)].
Proof.
  induction tl as [|[c' t] tl IH]; intros cur c x; cbn [app open_aux]; [reflexivity|]. destruct (str_eqb t [NL]); apply IH.
Qed.
Lemma token_lines_aux_snoc tl : forall cur c x,
  token_lines_aux cur (tl ++ [(c, x)]) =
  token_lines_aux cur tl ++ (if str_eqb x [NL] then [open_aux cur tl ++ [(c, x)]] else []).
Proof.
  induction tl as [|[c' t] tl IH]; intros cur c x; cbn [app open_aux token_lines_aux]; [destruct (str_eqb x [NL]); reflexivity|].
  destruct (str_eqb t [NL]); rewrite IH; reflexivity.
Qed.
Lemma open_snoc_nl tl c : open_tokens (tl ++ [(c, [NL])]) = [].
Proof. unfold open_tokens. now rewrite open_aux_snoc. Qed.
Lemma begun_app a b : begun (a ++ b) = begun a || begun b.
Proof. apply existsb_app. Qed.
Lemma token_lines_begun tl : forall cur, match token_lines_aux cur tl with [] => false | _ => true end = begun tl.
Proof.
  induction tl as [|[c t] tl IH]; intros cur; [reflexivity|]. cbn [token_lines_aux begun existsb snd].
  destruct (str_eqb t [NL]); [reflexivity|]. apply IH.
Qed.

Section Checked.
Variable cc : CharClass.
Hypothesis TOK : TokClassOK cc.

Lemma feed_tokens_app p : forall q, feed_tokens cc (p ++ q) =
  match feed_tokens cc p, feed_tokens cc q with Some a, Some b => Some (a ++ b) | _, _ => None end.
Proof.
  induction p as [|[c x] p IH]; intros q; cbn [app feed_tokens]; [destruct (feed_tokens cc q); reflexivity|].
  rewrite IH. destruct (tokenize cc x); [|reflexivity]. destruct (feed_tokens cc p); [|reflexivity].
  destruct (feed_tokens cc q); [|reflexivity]. now rewrite app_assoc.
Qed.
Lemma feed_tokens_line_end p c ts : feed_tokens cc (p ++ [(c, [NL])]) = Some ts -> exists us, ts = us ++ [(c, [NL])].
Proof.
  rewrite feed_tokens_app. destruct (feed_tokens cc p) as [us|]; [|discriminate]. cbn [feed_tokens]. rewrite (tokenize_NL cc TOK). intros H. inversion H. now exists us.
Qed.
Lemma feed_tokens_begun p : forall ts, feed_tokens cc p = Some ts -> begun ts = existsb (fun x => has_nl (snd x)) p.
Proof.
  induction p as [|[c x] p IH]; intros ts H; cbn [feed_tokens] in H; [now inversion H|].
  destruct (tokenize cc x) as [us|] eqn:E; [|discriminate]. destruct (feed_tokens cc p) as [vs|] eqn:E2; [|discriminate]. inversion H; subst.
  rewrite begun_app, (IH vs eq_refl). cbn [existsb snd]. f_equal.
  pose proof (tokenize_good cc TOK x us E) as G. pose proof (tokenize_concat cc TOK x us E) as C. subst x. clear E H.
  induction us as [|u us IHu]; [reflexivity|]. inversion G as [|? ? G1 G2]; subst. cbn [map begun existsb snd concat]. unfold has_nl. rewrite existsb_app. f_equal; [|now apply IHu].
  destruct (str_eqb_spec u [NL]) as [->|Hne]; [reflexivity|]. symmetry. change (has_nl u = false). apply has_nl_false. intros I. apply Hne, G1, I.
Qed.
Lemma ends_line_tokens c x ts tl : tokenize cc x = Some ts -> ends_line x = true -> open_tokens (tl ++ map (fun t => (c, t)) ts) = [].
Proof.
  intros H E. unfold ends_line in E. destruct (rev x) as [|n r] eqn:ER; [discriminate|]. apply N.eqb_eq in E. subst n.
  assert (EX : x = rev r ++ NL :: []) by (apply (f_equal (@rev _)) in ER; rewrite rev_involutive in ER; exact ER). subst x.
  destruct (tokenize_total cc TOK (rev r)) as [us Hu].
  { intros I. assert (N : tokenize cc (rev r ++ [NL]) = None) by (apply tokenize_none_iff; [exact TOK|]; rewrite in_app_iff; now left). congruence. }
  assert (H0 : tokenize cc [] = Some []) by reflexivity. rewrite (tokenize_app_nl cc TOK _ _ _ _ Hu H0) in H. inversion H; subst.
  rewrite map_app, app_assoc. apply open_snoc_nl.
Qed.

(** ** What a call's texts leave behind *)
Lemma line_feed_end p c x ts tl : feed_tokens cc (p ++ line_feed c x) = Some ts -> open_tokens (tl ++ ts) = [].
Proof.
  unfold line_feed. intros H. change [(c, x); (c, [NL])] with ([(c, x)] ++ [(c, [NL])]) in H. rewrite app_assoc in H.
  apply feed_tokens_line_end in H as [us ->]. rewrite app_assoc. apply open_snoc_nl.
Qed.
Lemma lines_feed_end {A} (f : A -> str) c items ts tl : items <> [] ->
  feed_tokens cc (flat_map (fun i => line_feed c (f i)) items) = Some ts -> open_tokens (tl ++ ts) = [].
Proof.
  intros H HT. destruct (exists_last H) as (l & y & ->). rewrite flat_map_snoc in HT. apply line_feed_end with (tl := tl) in HT. exact HT.
Qed.
Lemma rows_feed_end cols p rows ts tl : (exists q c x, p = q ++ line_feed c x) ->
  feed_tokens cc (p ++ flat_map (row_feed cc cols) rows) = Some ts -> open_tokens (tl ++ ts) = [].
Proof.
  intros (q & c & x & ->) H. destruct rows as [|i rows]; [rewrite app_nil_r in H; now apply line_feed_end with (tl := tl) in H|].
  destruct (exists_last (l := i :: rows) ltac:(discriminate)) as (l & y & E). rewrite E, flat_map_snoc in H. unfold row_feed at 2 in H.
  rewrite !app_assoc in H. now apply line_feed_end with (tl := tl) in H.
Qed.
Lemma start_after_ok b o p ts tl at_start : op_feeds cc b o p -> feed_tokens cc p = Some ts ->
  (at_start = true -> open_tokens tl = []) -> start_after at_start o = true -> open_tokens (tl ++ ts) = [].
Proof.
  intros HF HT Hat.
  assert (ONE : forall c x, p = [(c, x)] -> (match x with [] => at_start | _ => ends_line x end) = true -> open_tokens (tl ++ ts) = []).
  { intros c x -> HE. cbn [feed_tokens] in HT. destruct (tokenize cc x) as [us|] eqn:EU; [|discriminate]. rewrite app_nil_r in HT. inversion HT; subst.
    destruct x as [|ch x]; [|now apply (ends_line_tokens c (ch :: x))]. assert (us = []) by (symmetry in EU; now inversion EU). subst us. cbn [map]. rewrite app_nil_r. now apply Hat. }
  assert (NONE : p = [] -> at_start = true -> open_tokens (tl ++ ts) = []).
  { intros -> HE. cbn in HT. inversion HT. rewrite app_nil_r. now apply Hat. }
  destruct o as [x|x|x|x| | |x|x|h|lv ti|k v|items pre|items pre|cols rows|v u|[|] msg v|c m|ti c m|n|ok bb e]; cbn [op_feeds start_after] in *; intros HS;
    try (now apply (ONE true x)); try (now apply (ONE false x)); try (now apply NONE).
  - subst p. apply (line_feed_end []) with (tl := tl) in HT. exact HT.
  - subst p. apply (line_feed_end []) with (tl := tl) in HT. exact HT.
  - subst p. apply (line_feed_end []) with (tl := tl) in HT. exact HT.
  - destruct HF as [c ->]. rewrite app_assoc in HT. apply line_feed_end with (tl := tl) in HT. exact HT.
  - destruct HF as [c ->]. rewrite app_assoc in HT. apply line_feed_end with (tl := tl) in HT. exact HT.
  - subst p. apply (line_feed_end [(true, k)]) with (tl := tl) in HT. exact HT.
  - subst p. destruct items as [|i items]; [now apply NONE|]. apply (lines_feed_end (fun i => pre ++ i)) with (tl := tl) in HT; [exact HT|discriminate].
  - subst p. destruct items as [|i items]; [now apply NONE|]. apply (lines_feed_end (fun i => pre ++ i)) with (tl := tl) in HT; [exact HT|discriminate].
  - subst p. rewrite app_assoc in HT. apply rows_feed_end with (tl := tl) in HT; [exact HT|]. eexists _, _, _. reflexivity.
  - destruct HF as (was & _ & ->). apply (line_feed_end [(false, v ++ unit_text u)]) with (tl := tl) in HT. exact HT.
  - subst p. apply (line_feed_end []) with (tl := tl) in HT. exact HT.
  - destruct HF as (was & _ & ->). apply (line_feed_end [(false, v ++ unit_text (Some (lit "ms")))]) with (tl := tl) in HT. exact HT.
  - subst p. apply (line_feed_end []) with (tl := tl) in HT. exact HT.
  - subst p. apply (line_feed_end [(false, lit " * MUST " ++ ti ++ lit "...")]) with (tl := tl) in HT. exact HT.
Qed.
Lemma begun_after_ok b o p ts : op_feeds cc b o p -> feed_tokens cc p = Some ts -> begun_after b o = b || begun ts.
Proof.
  intros HF HT. rewrite (feed_tokens_begun p ts HT). clear HT.
  assert (L : forall q c x, existsb (fun y => has_nl (snd y)) (q ++ line_feed c x) = true).
  { intros q c x. rewrite existsb_app. unfold line_feed. cbn [existsb snd has_nl]. rewrite N.eqb_refl. cbn. now rewrite !orb_true_r. }
  assert (L0 : forall c x, existsb (fun y : bool * str => has_nl (snd y)) (line_feed c x) = true) by (intros c x; exact (L [] c x)).
  assert (LC : forall y c x, existsb (fun y : bool * str => has_nl (snd y)) (y :: line_feed c x) = true) by (intros y c x; exact (L [y] c x)).
  destruct o as [x|x|x|x| | |x|x|h|lv ti|k v|items pre|items pre|cols rows|v u|[|] msg v|c m|ti c m|n|ok bb e]; cbn [op_feeds begun_after] in *;
    try (subst p; cbn [existsb snd]; rewrite ?orb_false_r; reflexivity).
  - subst p. rewrite (L0 _ _). now rewrite orb_true_r.
  - subst p. rewrite (L0 _ _). now rewrite orb_true_r.
  - subst p. rewrite (L0 _ _). now rewrite orb_true_r.
  - destruct HF as [c ->]. rewrite app_assoc, L. now rewrite orb_true_r.
  - destruct HF as [c ->]. rewrite app_assoc, L. now rewrite orb_true_r.
  - subst p. rewrite (LC _ _ _). now rewrite orb_true_r.
  - subst p. destruct items as [|i items]; [cbn; now rewrite orb_false_r|]. cbn [flat_map]. rewrite existsb_app, (L0 _ _). now rewrite orb_true_r.
  - subst p. destruct items as [|i items]; [cbn; now rewrite orb_false_r|]. cbn [flat_map]. rewrite existsb_app, (L0 _ _). now rewrite orb_true_r.
  - subst p. rewrite existsb_app, (L0 _ _). now rewrite orb_true_r.
  - destruct HF as (was & _ & ->). rewrite (LC _ _ _). now rewrite orb_true_r.
  - subst p. rewrite (L0 _ _). now rewrite orb_true_r.
  - destruct HF as (was & _ & ->). rewrite (LC _ _ _). now rewrite orb_true_r.
  - subst p. rewrite (L0 _ _). now rewrite orb_true_r.
  - subst p. rewrite (LC _ _ _). now rewrite orb_true_r.
Qed.

(** ** The invariant *)
Variable t : str.
Notation T := (Some t).
Notation ls := (rlines t).

Record Inv (a : ast) (tl : list (bool * str)) : Prop := {
  I_j : a_j a = length (open_tokens tl);
  I_cur : a_cur a = concat (map snd (open_tokens tl));
  I_d : a_d a = None -> forall j u, nth_error (open_tokens tl) j = Some (true, u) -> expected_token cc ls (a_k a) j = Some u;
  I_recs : Forall2 (line_compared cc ls) (a_recs a) (token_lines tl) }.

Lemma Inv_started a tl : Inv a tl -> started a = begun tl.
Proof.
  intros [_ _ _ R]. rewrite <- (token_lines_begun tl []). unfold started. fold (token_lines tl). inversion R; reflexivity.
Qed.

Lemma nth_error_snoc {A} (l : list A) x j y : nth_error (l ++ [x]) j = Some y -> nth_error l j = Some y \/ (j = length l /\ y = x).
Proof.
  intros H. destruct (Nat.lt_ge_cases j (length l)).
  - left. now rewrite nth_error_app1 in H.
  - right. rewrite nth_error_app2 in H by lia. destruct (j - length l) as [|m] eqn:E; [|destruct m; discriminate]. inversion H. split; [lia|auto].
Qed.

Lemma Inv_tok a tl c x : Inv a tl -> Inv (astep cc T a (PTok c x)) (tl ++ [(c, x)]).
Proof.
  intros [J C D R]. cbn [astep has_text andb]. rewrite exp_tok_eq.
  set (d := if token_differs x (expected_token cc ls (a_k a) (a_j a)) && c then first_mark (a_d a) (length (a_cur a)) else a_d a).
  assert (DD : d = None -> forall j u, nth_error (open_tokens tl ++ [(c, x)]) j = Some (true, u) -> expected_token cc ls (a_k a) j = Some u).
  { intros Hd j u Hj. unfold d in Hd. destruct (token_differs x (expected_token cc ls (a_k a) (a_j a)) && c) eqn:E.
    - destruct (a_d a); discriminate.
    - apply nth_error_snoc in Hj as [Hj|[-> Hj]]; [now apply D|]. inversion Hj; subst. rewrite andb_true_r in E. rewrite <- J.
      destruct (expected_token cc ls (a_k a) (a_j a)) as [y|]; [|discriminate]. cbn [token_differs] in E. apply negb_false_iff, str_eqb_eq in E. now subst. }
  destruct (str_eqb x [NL]) eqn:EN.
  - constructor; cbn [a_j a_cur a_d a_k a_recs]; unfold open_tokens, token_lines; rewrite ?open_aux_snoc, ?token_lines_aux_snoc, EN.
    + reflexivity.
    + reflexivity.
    + intros _ [|j] u Hu; discriminate Hu.
    + apply Forall2_app; [exact R|]. constructor; [|constructor]. split.
      * cbn [lr_text]. apply str_eqb_eq in EN. subst x. fold (open_tokens tl). rewrite map_app, concat_app, C. reflexivity.
      * exists (a_k a). split; [reflexivity|]. cbn [rec_differs lr_diff]. unfold rec_differs. cbn [lr_diff]. intros Hd. fold (open_tokens tl). apply DD. now destruct d.
  - constructor; cbn [a_j a_cur a_d a_k a_recs]; unfold open_tokens, token_lines; rewrite ?open_aux_snoc, ?token_lines_aux_snoc, EN.
    + fold (open_tokens tl). rewrite app_length, J. cbn [length]. lia.
    + fold (open_tokens tl). rewrite map_app, concat_app, C. cbn [map concat snd]. now rewrite app_nil_r.
    + exact DD.
    + rewrite app_nil_r. exact R.
Qed.
Lemma Inv_toks c ts : forall a tl, Inv a tl -> Inv (asteps cc T (toks c ts) a) (tl ++ map (fun t => (c, t)) ts).
Proof.
  induction ts as [|x ts IH]; intros a tl HI; [cbn; now rewrite app_nil_r|].
  cbn [toks map]. rewrite asteps_cons. fold (toks c ts). replace (tl ++ (c, x) :: map (fun t0 => (c, t0)) ts) with ((tl ++ [(c, x)]) ++ map (fun t0 => (c, t0)) ts) by now rewrite <- app_assoc.
  apply IH, Inv_tok, HI.
Qed.
Lemma Inv_move a tl k : Inv a tl -> open_tokens tl = [] -> Inv (astep cc T a (PMove k 0)) tl.
Proof.
  intros [J C D R] E. constructor; cbn [astep a_j a_cur a_d a_k a_recs]; [now rewrite E|exact C|rewrite E; intros _ [|j] u Hu; discriminate Hu|exact R].
Qed.
Lemma Inv_diff a tl : Inv a tl -> Inv (astep cc T a PDiff) tl.
Proof. intros [J C D R]. constructor; cbn [astep a_j a_cur a_d a_k a_recs]; auto. intros H. destruct (a_d a); discriminate. Qed.
Lemma Inv_fail a tl : Inv a tl -> Inv (astep cc T a PFail) tl.
Proof. intros [J C D R]. constructor; cbn [astep a_j a_cur a_d a_k a_recs]; auto. Qed.
Lemma Inv_j0 a tl : Inv a tl -> open_tokens tl = [] -> a_j a = 0.
Proof. intros HI E. rewrite (I_j _ _ HI), E. reflexivity. Qed.

(** ** Calls *)
Definition pre_ok (b : bool) (tl : list (bool * str)) : Prop := b = true -> open_tokens tl = [].
Definition traces (b : bool) (f : state -> option state) (p : list (bool * str)) : Prop :=
  forall a s s' tl, Rel cc T a s -> Inv a tl -> pre_ok b tl -> f s = Some s' ->
  exists a' ts, Rel cc T a' s' /\ Inv a' (tl ++ ts) /\ feed_tokens cc p = Some ts.

Lemma tr_feed b c x : traces b (feed cc c x) [(c, x)].
Proof.
  intros a s s' tl HR HI _ H. destruct (feed_reaches cc TOK T a s c x s' HR H) as (ts & Ht & [_ Hr]).
  exists (asteps cc T (toks c ts) a), (map (fun t => (c, t)) ts). split; [exact Hr|]. split; [now apply Inv_toks|]. cbn [feed_tokens]. now rewrite Ht, app_nil_r.
Qed.
Lemma tr_bind b b2 f g p q : traces b f p -> traces b2 g q ->
  (forall tl ts, pre_ok b tl -> feed_tokens cc p = Some ts -> pre_ok b2 (tl ++ ts)) -> traces b (fun s => bind (f s) g) (p ++ q).
Proof.
  intros Hf Hg Hp a s s' tl HR HI HP H. apply bind_Some in H as (s1 & E1 & E2).
  destruct (Hf a s s1 tl HR HI HP E1) as (a1 & ts & R1 & I1 & T1). destruct (Hg a1 s1 s' _ R1 I1 (Hp tl ts HP T1) E2) as (a2 & us & R2 & I2 & T2).
  exists a2, (ts ++ us). split; [exact R2|]. split; [now rewrite app_assoc|]. now rewrite feed_tokens_app, T1, T2.
Qed.
Lemma tr_weak b f p : traces false f p -> traces b f p.
Proof. intros H a s s' tl HR HI _ E. apply (H a s s' tl HR HI); [discriminate|exact E]. Qed.
Lemma tr_feedln b c x : traces b (fun s => bind (feed cc c x s) (feed cc c [NL])) (line_feed c x).
Proof. change (line_feed c x) with ([(c, x)] ++ [(c, [NL])]). apply tr_weak. eapply tr_bind; [apply tr_feed|apply (tr_feed false)|]. intros ? ? ? ? ?; discriminate. Qed.
Lemma tr_move f : (forall a s, Rel cc T a s -> a_j a = 0 -> exists k, k <= nlines T /\ f s = Some (set_rd (rpos cc T k 0) s)) -> traces true f [].
Proof.
  intros Hf a s s' tl HR HI HP E. pose proof (HP eq_refl) as HO. destruct (Hf a s HR (Inv_j0 a tl HI HO)) as (k & Hk & E'). rewrite E' in E. inversion E; subst.
  exists (astep cc T a (PMove k 0)), []. split; [now apply set_rd_Rel|]. rewrite app_nil_r. split; [now apply Inv_move|reflexivity].
Qed.
Lemma seek_start a s ok b e : Rel cc T a s -> a_j a = 0 -> exists k, k <= nlines T /\ op_seek cc ok b e s = Some (set_rd (rpos cc T k 0) s).
Proof.
  intros HR J. unfold op_seek, with_reader. rewrite (R_rd _ _ _ _ HR), J. pose proof (R_k _ _ _ _ HR) as Hk. cbn [nlines] in *.
  pose proof (rlines_length t) as Hlen. unfold seek. rewrite r_text_rpos.
  assert (Hfuel : reader_fuel (rpos cc T (a_k a) 0) = S (length t)) by reflexivity.
  rewrite Hfuel. rewrite next_while_rpos by lia. cbn zeta. cbv iota. set (k1 := scan_from _ _ _).
  assert (Hk1 : k1 <= length ls).
  { pose proof (scan_from_bounds (fun l n => negb (ok l) && before_end n e) (skipn (a_k a) ls) (a_k a)) as Hb. rewrite skipn_length in Hb. fold k1 in Hb. lia. }
  assert (IF : forall b0 : bool, (if b0 then 0 else 0) = 0) by now intros [|]. rewrite ?IF.
  rewrite r_line_rpos. destruct (line_at T k1).
  - exists k1. split; [exact Hk1|reflexivity].
  - rewrite jump_rpos by exact Hk1. rewrite next_while_rpos by lia. cbn zeta. cbv iota. set (k2 := Nat.min _ _). rewrite ?IF.
    pose proof (scan_from_bounds (fun l n => negb (ok l) && Nat.ltb n (r_num (rpos cc T (a_k a) 0))) (skipn k2 ls) k2) as Hb. rewrite skipn_length in Hb.
    eexists. split; [|reflexivity]. lia.
Qed.
Lemma jump_start a s n : Rel cc T a s -> a_j a = 0 -> exists k, k <= nlines T /\ op_jump cc n s = Some (set_rd (rpos cc T k 0) s).
Proof.
  intros HR J. unfold op_jump, with_reader. rewrite (R_rd _ _ _ _ HR), J. pose proof (R_k _ _ _ _ HR) as Hk. cbn [nlines] in *. rewrite jump_rpos by exact Hk.
  exists (Nat.min (n - 1) (length ls)). split; [lia|]. now destruct (Nat.eqb n (S (a_k a))).
Qed.
Lemma tr_seek ok b e : traces true (op_seek cc ok b e) [].
Proof. apply tr_move. intros a s HR J. now apply (seek_start a). Qed.
Lemma tr_jump n : traces true (op_jump cc n) [].
Proof. apply tr_move. intros a s HR J. now apply (jump_start a). Qed.
Lemma tr_diff b : traces b (fun s => Some (do_diff s)) [].
Proof. intros a s s' tl HR HI _ E. inversion E; subst. eexists _, []. rewrite app_nil_r. split; [apply do_diff_Rel, HR|]. split; [apply Inv_diff, HI|reflexivity]. Qed.
Lemma tr_fail b : traces b (fun s => Some (do_fail s)) [].
Proof. intros a s s' tl HR HI _ E. inversion E; subst. eexists _, []. rewrite app_nil_r. split; [apply do_fail_Rel, HR|]. split; [apply Inv_fail, HI|reflexivity]. Qed.
Lemma tr_steps fs ps : Forall2 (traces false) fs ps -> traces false (steps fs) (concat ps).
Proof.
  induction 1 as [|f p fs ps Hf H IH]; cbn [steps concat].
  - intros a s s' tl HR HI _ E. inversion E; subst. exists a, []. rewrite app_nil_r. split; [exact HR|]. split; [exact HI|reflexivity].
  - apply (tr_bind false false f (steps fs)); auto. intros ? ? ? ? ?; discriminate.
Qed.
Lemma tr_anchorln x : traces true (op_anchorln cc x) (line_feed true x).
Proof. apply (tr_bind true false _ _ [] (line_feed true x) (tr_seek _ _ _) (tr_feedln false true x)). intros ? ? ? ? ?; discriminate. Qed.
Lemma tr_anchor x : traces true (op_anchor cc x) [(true, x)].
Proof. apply (tr_bind true false _ _ [] [(true, x)] (tr_seek _ _ _) (tr_feed false true x)). intros ? ? ? ? ?; discriminate. Qed.
Lemma tr_keyvalueln k v : traces true (op_keyvalueln cc k v) ((true, k) :: line_feed true ([SP] ++ v)).
Proof. apply (tr_bind true false _ _ [(true, k)] (line_feed true ([SP] ++ v)) (tr_anchor k) (tr_feedln false true _)). intros ? ? ? ? ?; discriminate. Qed.
Lemma tr_tlist items pre : traces false (op_tlist cc items pre) (flat_map (fun i => line_feed true (pre ++ i)) items).
Proof.
  rewrite flat_map_concat_map. apply tr_steps. induction items as [|i items IH]; cbn [map]; constructor; [apply (tr_feedln false)|exact IH].
Qed.
Lemma tr_row cols i : traces false (steps ([op_t cc bar] ++
    flat_map (fun col => let buf := cell_shown cc (nth i (snd col) []) in [op_t cc buf; op_i cc (repeat SP (col_width col - length buf)); op_t cc bar]) cols ++
    [op_tln cc []])) (row_feed cc cols i).
Proof.
  assert (E : row_feed cc cols i = concat ([[(true, bar)]] ++ flat_map (fun col => let buf := cell_shown cc (nth i (snd col) []) in
      [[(true, buf)]; [(false, repeat SP (col_width col - length buf))]; [(true, bar)]]) cols ++ [line_feed true []])).
  { unfold row_feed. rewrite !concat_app. cbn [concat app]. f_equal. f_equal. induction cols as [|col cols IH]; [reflexivity|]. cbn [flat_map]. rewrite concat_app, <- IH. reflexivity. }
  rewrite E. apply tr_steps. cbn [app]. constructor; [apply (tr_feed false)|]. clear E. induction cols as [|col cols IH]; cbn [flat_map app].
  - constructor; [apply (tr_feedln false)|constructor].
  - cbn zeta. cbn [app]. constructor; [apply (tr_feed false)|]. constructor; [apply (tr_feed false)|]. constructor; [apply (tr_feed false)|]. exact IH.
Qed.
Lemma tr_tdf cols rows : traces false (op_tdf cc cols rows)
  (line_feed false (bar ++ flat_map (fun col => ljust (col_width col) (fst col) ++ bar) cols) ++
   line_feed true (bar ++ flat_map (fun col => repeat MINUS (col_width col) ++ bar) cols) ++ flat_map (row_feed cc cols) (seq 0 rows)).
Proof.
  assert (X : forall b tl ts p, pre_ok b tl -> feed_tokens cc p = Some ts -> pre_ok false (tl ++ ts)) by (intros; discriminate).
  rewrite app_assoc. rewrite op_tdf_eq. eapply (tr_bind false false); [| |intros; discriminate].
  - eapply (tr_bind false false); [apply (tr_feedln false)|apply (tr_feedln false)|intros; discriminate].
  - rewrite flat_map_concat_map. apply tr_steps. induction (seq 0 rows) as [|i l IH]; cbn [map]; constructor; [apply tr_row|exact IH].
Qed.
Lemma tr_assert c m : traces false (op_assertln cc c m) (line_feed false (assert_text c m)).
Proof.
  unfold op_assertln. destruct c; cbn [assert_text]; [apply (tr_feedln false)|].
  apply (tr_bind false false _ _ [] _ (tr_fail false) (tr_feedln false false _)). intros; discriminate.
Qed.
Lemma tr_must ti c m : traces false (op_must cc ti c m) ((false, lit " * MUST " ++ ti ++ lit "...") :: line_feed false (assert_text c m)).
Proof.
  apply (tr_bind false false _ _ [(false, lit " * MUST " ++ ti ++ lit "...")] _ (tr_feed false false _) (tr_assert c m)). intros; discriminate.
Qed.
Lemma tr_float refloat v u a s s' tl : Rel cc T a s -> Inv a tl -> op_ifloatln cc refloat v u s = Some s' ->
  exists a' was ts, Rel cc T a' s' /\ Inv a' (tl ++ ts) /\
    was = match expected_token cc ls (a_k a) (length (open_tokens tl)) with
          | Some x => match refloat x with Some o => lit " (was " ++ o ++ unit_text u ++ lit ")" | None => [] end
          | None => [] end /\
    feed_tokens cc ((false, v ++ unit_text u) :: line_feed false was) = Some ts.
Proof.
  intros HR HI H. unfold op_ifloatln in H. rewrite (R_rd _ _ _ _ HR), head_exp_token_rpos, exp_tok_eq, (I_j _ _ HI) in H.
  change (match u with Some u0 => [SP] ++ u0 | None => [] end) with (unit_text u) in *.
  set (e := expected_token cc ls (a_k a) (length (open_tokens tl))) in *.
  set (was := match e with Some x => match refloat x with Some o => lit " (was " ++ o ++ unit_text u ++ lit ")" | None => [] end | None => [] end).
  assert (H2 : bind (op_i cc (v ++ unit_text u) s) (op_iln cc was) = Some s').
  { rewrite <- H. unfold was. destruct e as [x|]; [destruct (refloat x)|]; reflexivity. }
  destruct (tr_bind false false _ _ _ _ (tr_feed false false (v ++ unit_text u)) (tr_feedln false false was)
              (fun _ _ _ _ Z => False_ind _ (Bool.diff_false_true Z)) a s s' tl HR HI (fun Z => False_ind _ (Bool.diff_false_true Z)) H2) as (a' & ts & R' & I' & T').
  exists a', was, ts. split; [exact R'|]. split; [exact I'|]. split; [reflexivity|exact T'].
Qed.
Lemma tr_header h a s s' tl : Rel cc T a s -> Inv a tl -> (open_tokens tl = [] \/ begun tl = true) -> op_header cc h s = Some s' ->
  exists a' p ts, Rel cc T a' s' /\ Inv a' (tl ++ ts) /\ header_feed (begun tl) h p /\ feed_tokens cc p = Some ts.
Proof.
  intros HR HI HP H. unfold op_header in H. rewrite (Rel_started cc T a s HR), (Inv_started a tl HI) in H.
  set (c := last_checked s && match r_line (rd s) with Some _ => true | None => false end) in H.
  assert (H1 : exists a1, let ts1 := if begun tl then [(c, [NL])] else [] in
            Rel cc T a1 (if begun tl then feed_token cc c s [NL] else s) /\ Inv a1 (tl ++ ts1) /\ open_tokens (tl ++ ts1) = []).
  { destruct (begun tl) eqn:EB; cbn zeta.
    - exists (astep cc T a (PTok c [NL])). split; [apply feed_token_Rel; auto|]. split; [now apply Inv_tok|apply open_snoc_nl].
    - exists a. rewrite app_nil_r. split; [exact HR|]. split; [exact HI|]. destruct HP as [HP|HP]; [exact HP|discriminate]. }
  destruct H1 as (a1 & R1 & I1 & O1). set (ts1 := if begun tl then [(c, [NL])] else []) in *.
  destruct (tr_bind true false _ _ _ _ (tr_anchorln h) (tr_feedln false true []) (fun _ _ _ _ Z => False_ind _ (Bool.diff_false_true Z))
              a1 _ s' (tl ++ ts1) R1 I1 (fun _ => O1) H) as (a' & ts & R' & I' & T').
  exists a', ((if begun tl then [(c, [NL])] else []) ++ line_feed true h ++ line_feed true []), (ts1 ++ ts).
  split; [exact R'|]. split; [now rewrite app_assoc|]. split; [now exists c|]. rewrite feed_tokens_app, T'.
  subst ts1. destruct (begun tl); cbn [feed_tokens]; [|reflexivity]. rewrite (tokenize_NL cc TOK). reflexivity.
Qed.

Lemma tr_tset_items items pre : forall cmp a s cmp' s' tl,
  Rel cc T a s -> Inv a tl -> open_tokens tl = [] -> tset_items cc items pre cmp s = Some (cmp', s') ->
  exists a' ts, Rel cc T a' s' /\ Inv a' (tl ++ ts) /\ open_tokens (tl ++ ts) = [] /\
    feed_tokens cc (flat_map (fun i => line_feed false (pre ++ i)) items) = Some ts.
Proof.
  induction items as [|i items IH]; intros cmp a s cmp' s' tl HR HI HO H.
  - cbn [tset_items] in H. inversion H; subst. exists a, []. rewrite app_nil_r. split; [exact HR|]. split; [exact HI|]. split; [exact HO|reflexivity].
  - cbn [tset_items] in H.
    assert (G : forall b f, traces b f (line_feed false (pre ++ i)) -> forall s2 cmp2, f s = Some s2 -> tset_items cc items pre cmp2 s2 = Some (cmp', s') ->
      exists a' ts, Rel cc T a' s' /\ Inv a' (tl ++ ts) /\ open_tokens (tl ++ ts) = [] /\
        feed_tokens cc (flat_map (fun i => line_feed false (pre ++ i)) (i :: items)) = Some ts).
    { intros b f Hf s2 cmp2 E2 E3. destruct (Hf a s s2 tl HR HI (fun _ => HO) E2) as (a1 & ts & R1 & I1 & T1).
      pose proof (line_feed_end [] false (pre ++ i) ts tl T1) as O1.
      destruct (IH _ _ _ _ _ _ R1 I1 O1 E3) as (a' & us & R' & I' & O' & T'). exists a', (ts ++ us).
      rewrite app_assoc. split; [exact R'|]. split; [exact I'|]. split; [exact O'|]. cbn [flat_map]. now rewrite feed_tokens_app, T1, T'. }
    destruct cmp as [[compare [b e]]|]; [destruct (str_mem i compare)|]; apply bind_Some in H as (s2 & E2 & E3).
    + eapply (G true (fun s => bind (op_seek_line cc (pre ++ i) b (Some e) s) (op_iln cc (pre ++ i)))); [|exact E2|exact E3].
      apply (tr_bind true false _ _ [] (line_feed false (pre ++ i)) (tr_seek _ _ _) (tr_feedln false false _)). intros; discriminate.
    + eapply (G true (fun s => bind (Some (do_diff s)) (op_iln cc (pre ++ i)))); [|exact E2|exact E3].
      apply (tr_bind true false _ _ [] (line_feed false (pre ++ i)) (tr_diff true) (tr_feedln false false _)). intros; discriminate.
    + eapply (G true (op_iln cc (pre ++ i))); [|exact E2|exact E3]. apply (tr_feedln true).
Qed.
Lemma tset_scan_start fuel pre lc : forall k cmp, k <= length ls -> length ls - k <= fuel ->
  exists cmp' k', tset_scan cc fuel pre lc (rpos cc T k 0) cmp = Some (cmp', rpos cc T k' 0) /\ k' <= length ls.
Proof.
  induction fuel as [|fuel IH]; intros k cmp Hk Hf; cbn [tset_scan]; rewrite r_line_rpos; cbn [line_at].
  - rewrite (proj2 (nth_error_None _ _)) by lia. eexists _, _; split; [reflexivity|lia].
  - destruct (nth_error ls k) as [l|] eqn:E; [|eexists _, _; split; [reflexivity|lia]].
    assert (k < length ls) by (apply nth_error_Some; congruence). destruct (starts_with pre l); [|eexists _, _; split; [reflexivity|lia]].
    rewrite next_exp_line_rpos by (cbn [nlines]; lia). cbn [nlines]. rewrite Nat.min_l by lia. apply IH; lia.
Qed.
Lemma tr_tset items pre : traces true (op_tset cc items pre) (flat_map (fun i => line_feed false (pre ++ i)) items).
Proof.
  intros a s s' tl HR HI HP H. pose proof (HP eq_refl) as HO. unfold op_tset in H. destruct (r_line (rd s)) as [l|] eqn:El.
  - assert (Hfu : reader_fuel (rd s) = S (length t)) by (rewrite (R_rd _ _ _ _ HR); reflexivity).
    pose proof (rlines_length t) as Hlen. pose proof (R_k _ _ _ _ HR) as Hk. cbn [nlines] in Hk.
    destruct (tset_scan_start (reader_fuel (rd s)) pre (last_checked s) (a_k a) []) as (cmp & k' & E & Hk'); [exact Hk|lia|].
    rewrite <- (Inv_j0 a tl HI HO), <- (R_rd _ _ _ _ HR) in E. rewrite (Inv_j0 a tl HI HO) in E. rewrite E in H. cbn [bind] in H.
    apply bind_Some in H as ([c' s1] & E1 & E2). cbn [fst snd] in E2.
    pose proof (set_rd_Rel cc T a s k' 0 HR Hk') as HR1. pose proof (Inv_move a tl k' HI HO) as HI1.
    destruct (tr_tset_items _ _ _ _ _ _ _ _ HR1 HI1 HO E1) as (a' & ts & R' & I' & O' & T').
    destruct c' as [[rest be]|]; [|inversion E2; subst; eauto 6].
    assert (G : exists a2, Rel cc T a2 (match rest with [] => s1 | _ :: _ => do_diff s1 end) /\ Inv a2 (tl ++ ts)).
    { destruct rest; [eauto|]. eexists. split; [apply do_diff_Rel, R'|apply Inv_diff, I']. }
    destruct G as (a2 & R2 & I2). destruct (tr_jump _ a2 _ s' (tl ++ ts) R2 I2 (fun _ => O') E2) as (a3 & us & R3 & I3 & T3).
    inversion T3; subst us. rewrite app_nil_r in I3. eauto 6.
  - apply bind_Some in H as ([c' s1] & E1 & E2). inversion E2; subst. destruct (tr_tset_items _ _ _ _ _ _ _ _ HR HI HO E1) as (a' & ts & R' & I' & O' & T'). eauto 6.
Qed.

Variable refloat : str -> option str.

Lemma was_text_of u (e : option str) :
  was_text u (match e with Some x => match refloat x with Some o => lit " (was " ++ o ++ unit_text u ++ lit ")" | None => [] end | None => [] end).
Proof. destruct e as [x|]; [|now left]. destruct (refloat x) as [o|]; [right; now exists o|now left]. Qed.

Lemma exec_feeds o a s s' tl at_start :
  Rel cc T a s -> Inv a tl -> (at_start = true -> open_tokens tl = []) -> placed_op at_start (begun tl) o = true ->
  exec cc refloat o s = Some s' ->
  exists a' p ts, Rel cc T a' s' /\ Inv a' (tl ++ ts) /\ op_feeds cc (begun tl) o p /\ feed_tokens cc p = Some ts.
Proof.
  intros HR HI Hat HP H.
  assert (G : forall b f p, traces b f p -> (b = true -> at_start = true) -> f s = Some s' -> op_feeds cc (begun tl) o p ->
    exists a' p ts, Rel cc T a' s' /\ Inv a' (tl ++ ts) /\ op_feeds cc (begun tl) o p /\ feed_tokens cc p = Some ts).
  { intros b f p Hf Hb E HF. destruct (Hf a s s' tl HR HI (fun Z => Hat (Hb Z)) E) as (a' & ts & R' & I' & T'). exists a', p, ts. auto. }
  assert (F : forall v u, op_ifloatln cc refloat v u s = Some s' -> (forall p, float_feed v u p -> op_feeds cc (begun tl) o p) ->
    exists a' p ts, Rel cc T a' s' /\ Inv a' (tl ++ ts) /\ op_feeds cc (begun tl) o p /\ feed_tokens cc p = Some ts).
  { intros v u E HF. destruct (tr_float refloat v u a s s' tl HR HI E) as (a' & was & ts & R' & I' & W & T').
    eexists a', _, ts. split; [exact R'|]. split; [exact I'|]. split; [|exact T']. apply HF. exists was. split; [|reflexivity]. rewrite W. apply was_text_of. }
  assert (NT : false = true -> at_start = true) by discriminate.
  destruct o as [x|x|x|x| | |x|x|h|lv ti|k v|items pre|items pre|cols rows|v u|[|] msg v|c m|ti c m|n|ok bb e]; cbn [exec placed_op] in *.
  - eapply (G false); [apply tr_feed|exact NT|exact H|reflexivity].
  - eapply (G false); [apply tr_feedln|exact NT|exact H|reflexivity].
  - eapply (G false); [apply tr_feed|exact NT|exact H|reflexivity].
  - eapply (G false); [apply tr_feedln|exact NT|exact H|reflexivity].
  - eapply (G false); [apply tr_fail|exact NT|exact H|reflexivity].
  - eapply (G false); [apply tr_diff|exact NT|exact H|reflexivity].
  - eapply (G true); [apply tr_anchor|auto|exact H|reflexivity].
  - eapply (G true); [apply tr_anchorln|auto|exact H|reflexivity].
  - destruct (tr_header h a s s' tl HR HI) as (a' & p & ts & R' & I' & HF & T'); [|exact H|exists a', p, ts; auto].
    apply orb_true_iff in HP as [HP|HP]; auto.
  - destruct (tr_header (repeat HASH lv ++ [SP] ++ ti) a s s' tl HR HI) as (a' & p & ts & R' & I' & HF & T'); [|exact H|exists a', p, ts; auto].
    apply orb_true_iff in HP as [HP|HP]; auto.
  - eapply (G true); [apply tr_keyvalueln|auto|exact H|reflexivity].
  - eapply (G false); [apply tr_tlist|exact NT|exact H|reflexivity].
  - eapply (G true); [apply tr_tset|auto|exact H|reflexivity].
  - eapply (G false); [apply tr_tdf|exact NT|exact H|reflexivity].
  - apply (F v u); [exact H|auto].
  - unfold op_tmsln in H. eapply (G false (fun s => bind (Some (do_fail s)) (op_tln cc msg))); [|exact NT|exact H|reflexivity].
    apply (tr_bind false false _ _ [] _ (tr_fail false) (tr_feedln false true _)). intros; discriminate.
  - unfold op_tmsln in H. apply (F v (Some (lit "ms"))); [exact H|auto].
  - eapply (G false); [apply tr_assert|exact NT|exact H|reflexivity].
  - eapply (G false); [apply tr_must|exact NT|exact H|reflexivity].
  - eapply (G true); [apply tr_jump|auto|exact H|reflexivity].
  - eapply (G true); [apply tr_seek|auto|exact H|reflexivity].
Qed.

Lemma exec_all_feeds ops : forall a s s' tl at_start,
  Rel cc T a s -> Inv a tl -> (at_start = true -> open_tokens tl = []) -> placed at_start (begun tl) ops = true ->
  exec_all cc refloat ops s = Some s' ->
  exists a' tl', Rel cc T a' s' /\ Inv a' tl' /\ ops_feed cc tl ops tl'.
Proof.
  induction ops as [|o ops IH]; intros a s s' tl at_start HR HI Hat HP H.
  - inversion H; subst. exists a, tl. split; [exact HR|]. split; [exact HI|constructor].
  - unfold exec_all in H. cbn [map steps] in H. apply bind_Some in H as (s1 & E1 & E2). cbn [placed] in HP. apply andb_true_iff in HP as [P1 P2].
    destruct (exec_feeds o a s s1 tl at_start HR HI Hat P1 E1) as (a1 & p & ts & R1 & I1 & F1 & T1).
    destruct (IH a1 s1 s' (tl ++ ts) (start_after at_start o) R1 I1) as (a' & tl' & R' & I' & F'); [| |exact E2|].
    + apply (start_after_ok (begun tl) o p ts tl at_start F1 T1 Hat).
    + rewrite begun_app, <- (begun_after_ok (begun tl) o p ts F1 T1). exact P2.
    + exists a', tl'. split; [exact R'|]. split; [exact I'|]. econstructor; eauto.
Qed.
Lemma Inv_start : Inv a0 [].
Proof. constructor; try reflexivity; [intros _ [|j] u Hu; discriminate Hu|constructor]. Qed.
End Checked.

Section Run.
Variable cc : CharClass.
Hypothesis TOK : TokClassOK cc.
Variable refloat : str -> option str.

Lemma run_body_feeds f point ops s : placed true false ops = true -> run_body cc refloat (Some f) point ops = Some s ->
  exists a tl, Rel cc (Some (univ_newlines f)) a s /\ Inv cc (univ_newlines f) a tl /\ ops_feed cc [] ops tl.
Proof.
  intros HP H. apply (exec_all_feeds cc TOK (univ_newlines f) refloat ops a0 (start cc (Some f) point) s [] true); auto.
  - apply (start_Rel cc (Some f)).
  - apply Inv_start.
Qed.
End Run.
