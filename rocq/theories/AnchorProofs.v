(** Lemmas for C73 and C74: what one checked line does, at the line of the snapshot it is compared with. *)
From Verif Require Import PyStrFacts TokenizerProps TokenizerSpec TokenizerProofs CaseRunModel CaseRunSpec ReaderProofs CaseRunProofs CaseRunFacts CaseRunLines CaseRunProps SectionProofs TsetProofs
  CheckedModel CheckedProofs CheckedProps.
From Coq Require Import Lia.

Section Anchor.
Variable cc : CharClass.
Hypothesis TOK : TokClassOK cc.
Variable t : str.
Let T := Some t.
Let ls := rlines t.
Hypothesis HLS : Forall (fun x : str => ~ In NL x) ls.

Definition with_d (a : ast) (d : option nat) : ast :=
  {| a_k := a_k a; a_j := a_j a; a_cur := a_cur a; a_d := d; a_e := a_e a; a_lc := a_lc a; a_recs := a_recs a |}.

Lemma token_differs_iff x e : token_differs x e = false <-> e = Some x.
Proof.
  destruct e as [y|]; cbn [token_differs]; [|now split].
  destruct (str_eqb_spec x y) as [->|H]; cbn; split; try easy. intros E. inversion E. congruence.
Qed.
Lemma agrees_cons k j x ts : agrees cc T true k j (x :: ts) <-> exp_tok cc T k j = Some x /\ agrees cc T true k (S j) ts.
Proof.
  split.
  - intros H. split; [|now apply agrees_tail with (t := x)]. specialize (H eq_refl 0). cbn [length nth] in H. rewrite Nat.add_0_r in H. apply H. lia.
  - intros [H1 H2] _ i Hi. destruct i as [|i]; [now rewrite Nat.add_0_r|]. rewrite Nat.add_succ_r. cbn [nth]. specialize (H2 eq_refl i). cbn [Nat.add] in H2. apply H2. cbn [length] in Hi. lia.
Qed.
Lemma first_mark_some d n : first_mark d n <> None.
Proof. now destruct d. Qed.

(** the tokens of a line, all compared: marked iff one of them is not the expected one *)
Lemma asteps_checked (ts : list str) : forall a, Forall (fun x => x <> [NL]) ts ->
  exists d, asteps cc T (toks true (ts ++ [[NL]])) a = next_line T (with_d a d) true (concat ts) /\
    (d = None <-> a_d a = None /\ agrees cc T true (a_k a) (a_j a) (ts ++ [[NL]])).
Proof.
  induction ts as [|x ts IH]; intros a Hn.
  - cbn [app toks map]. rewrite asteps_cons. cbn [astep]. change (str_eqb [NL] [NL]) with true. cbv iota.
    eexists. split; [unfold next_line; cbn [with_d a_k a_j a_cur a_d a_e a_lc a_recs concat]; rewrite app_nil_r; reflexivity|].
    rewrite agrees_cons, <- token_differs_iff. rewrite andb_true_r. cbn [has_text T andb]. destruct (token_differs _ _); split.
    + intros E. now elim (first_mark_some _ _ E).
    + easy.
    + intros E. split; [exact E|]. split; [reflexivity|]. intros _ i Hi. cbn [length] in Hi. lia.
    + easy.
  - inversion Hn as [|? ? Hx Hts]; subst. cbn [toks map app]. rewrite asteps_cons. cbn [astep].
    destruct (str_eqb_spec x [NL]) as [|_]; [congruence|]. fold (toks true (ts ++ [[NL]])).
    match goal with |- context [asteps cc T _ ?a1] => destruct (IH a1 Hts) as (d & E & D) end. cbn [a_k a_j a_cur a_d a_e a_lc a_recs] in *.
    exists d. split.
    + refine (eq_trans E _). unfold next_line. cbn [with_d a_k a_j a_cur a_d a_e a_lc a_recs concat]. now rewrite <- app_assoc.
    + rewrite D, agrees_cons, <- token_differs_iff, andb_true_r. cbn [has_text T andb]. destruct (token_differs _ _); split; try easy.
      intros [E0 _]. now elim (first_mark_some _ _ E0).
Qed.

(** tokens that agree with a line are the tokens of that line *)
Lemma agrees_text k (q : list str) : Forall (fun x => x <> [NL]) q -> agrees cc T true k 0 (q ++ [[NL]]) -> nth_error ls k = Some (concat q).
Proof.
  intros Hq H. change T with (Some t) in H. apply (tokens_line cc TOK); [exact HLS|exact Hq| |].
  - intros j Hj. specialize (H eq_refl j). rewrite app_length in H. rewrite app_nth1 in H by exact Hj. cbn [Nat.add] in H. rewrite exp_tok_eq in H. apply H. lia.
  - specialize (H eq_refl (length q)). rewrite app_length, app_nth2, Nat.sub_diag in H by lia. cbn [Nat.add nth length] in H. rewrite exp_tok_eq in H. apply H. lia.
Qed.
Lemma agrees_line k (l : str) ts : tokenize cc l = Some ts -> ~ In NL l ->
  (agrees cc T true k 0 (ts ++ [[NL]]) <-> nth_error ls k = Some l).
Proof.
  intros Ht Hl. split.
  - intros H. rewrite <- (tokenize_concat cc TOK l ts Ht). apply agrees_text; [now apply (tokens_no_nl cc TOK l)|exact H].
  - intros H. now apply (line_agrees cc TOK t k l ts).
Qed.

(** at the start of a line, without marks *)
Definition fresh (a : ast) : Prop := a_j a = 0 /\ a_cur a = [] /\ a_d a = None /\ a_e a = None.
Definition line_is (ls : list str) (k : nat) (l : str) : bool := match nth_error ls k with Some x => str_eqb x l | None => false end.
Lemma line_is_iff ks k l : line_is ks k l = true <-> nth_error ks k = Some l.
Proof. unfold line_is. destruct (nth_error ks k) as [x|]; [|now split]. rewrite str_eqb_eq. split; [now intros -> | now intros [= ->]]. Qed.
Definition miss (ls : list str) (k : nat) (l : str) : nat := if line_is ls k l then 0 else 1.
Lemma miss_past ks k l : length ks <= k -> miss ks k l = 1.
Proof. intros H. unfold miss, line_is. now rewrite (proj2 (nth_error_None ks k) H). Qed.
Lemma miss_min ks k l : miss ks (Nat.min k (length ks)) l = miss ks k l.
Proof. destruct (Nat.le_gt_cases (length ks) k); [|now rewrite Nat.min_l by lia]. now rewrite Nat.min_r, !miss_past by lia. Qed.

Lemma checked_step (q : list str) a : fresh a -> Forall (fun x => x <> [NL]) q ->
  let a' := asteps cc T (toks true (q ++ [[NL]])) a in
  fresh a' /\ a_k a' = Nat.min (S (a_k a)) (length ls) /\ a_lc a' = true /\ nfails a' = nfails a /\
  (agrees cc T true (a_k a) 0 (q ++ [[NL]]) -> ndiffs a' = ndiffs a) /\
  (~ agrees cc T true (a_k a) 0 (q ++ [[NL]]) -> ndiffs a' = S (ndiffs a)).
Proof.
  intros (J & C & D & E) Hq. cbn zeta. destruct (asteps_checked q a Hq) as (d & -> & HD). rewrite J in HD.
  split; [now repeat split|]. split; [reflexivity|]. split; [reflexivity|].
  destruct (next_line_counts t (with_d a d) true (concat q)) as [N1 N2]. fold T in N1, N2. rewrite N1, N2. cbn [with_d a_d a_e]. rewrite E.
  change (ndiffs (with_d a d)) with (ndiffs a). change (nfails (with_d a d)) with (nfails a). split; [cbn [marked]; lia|]. split; intros H.
  - destruct d; [|cbn [marked]; lia]. destruct HD as [_ HD]. discriminate HD. now split.
  - destruct d; [cbn [marked]; lia|]. elim H. now apply HD.
Qed.
Lemma tln_exact a s l : Rel cc T a s -> fresh a -> ~ In NL l -> ~ In NUL l ->
  exists a' s', op_tln cc l s = Some s' /\ Rel cc T a' s' /\ fresh a' /\ a_k a' = Nat.min (S (a_k a)) (length ls) /\ a_lc a' = true /\
    nfails a' = nfails a /\ ndiffs a' = ndiffs a + miss ls (a_k a) l.
Proof.
  intros HR HF Hn Hu. destruct (tokenize_total cc TOK l Hu) as [ts Ht]. destruct (feedln_exact cc TOK T a s true l ts HR Ht) as (s' & E & [_ HR']).
  destruct (checked_step ts a HF (tokens_no_nl cc TOK l ts Ht Hn)) as (F & K & L & X & A1 & A2).
  eexists _, s'. split; [exact E|]. split; [exact HR'|]. split; [exact F|]. split; [exact K|]. split; [exact L|]. split; [exact X|].
  rewrite (agrees_line _ l ts Ht Hn) in A1, A2. rewrite <- line_is_iff in A1, A2. unfold miss. destruct (line_is ls (a_k a) l); [rewrite A1|rewrite A2]; try easy; lia.
Qed.
Lemma seek0_fresh a s ok : Rel cc T a s -> fresh a ->
  exists a' s', op_seek cc ok 0 None s = Some s' /\ Rel cc T a' s' /\ fresh a' /\ a_k a' = seek_pos ok ls (a_k a) /\
    ndiffs a' = ndiffs a /\ nfails a' = nfails a /\ a_lc a' = a_lc a.
Proof.
  intros HR (J & C & D & E). destruct (op_seek0_exact cc T a s ok HR) as (s' & E1 & [_ R1]).
  eexists _, s'. split; [exact E1|]. split; [exact R1|]. cbn [asteps fold_left astep]. split; [|now repeat split].
  split; [|now repeat split]. cbn [a_j]. destruct (find_from _ _ _) as [k'|]; [|reflexivity]. now destruct (Nat.eqb _ _).
Qed.
Lemma anchorln_exact a s l : Rel cc T a s -> fresh a -> ~ In NL l -> ~ In NUL l ->
  let k := seek_pos (fun x => str_eqb x l) ls (a_k a) in
  exists a' s', op_anchorln cc l s = Some s' /\ Rel cc T a' s' /\ fresh a' /\ a_k a' = Nat.min (S k) (length ls) /\ a_lc a' = true /\
    nfails a' = nfails a /\ ndiffs a' = ndiffs a + miss ls k l.
Proof.
  intros HR HF Hn Hu. cbn zeta. destruct (seek0_fresh a s (fun x => str_eqb x l) HR HF) as (a1 & s1 & E1 & R1 & F1 & K1 & D1 & X1 & _).
  destruct (tln_exact a1 s1 l R1 F1 Hn Hu) as (a2 & s2 & E2 & R2 & F2 & K2 & L2 & X2 & D2). rewrite K1 in K2, D2.
  exists a2, s2. split; [unfold op_anchorln, op_seek_line; rewrite E1; exact E2|]. split; [exact R2|]. split; [exact F2|]. split; [exact K2|]. split; [exact L2|]. split; lia.
Qed.
Fixpoint misses_at (ls : list str) (k : nat) (xs : list str) : nat :=
  match xs with [] => 0 | x :: r => miss ls k x + misses_at ls (S k) r end.
Lemma misses_min ks xs : forall k, misses_at ks (Nat.min k (length ks)) xs = misses_at ks k xs.
Proof.
  induction xs as [|x xs IH]; intros k; cbn [misses_at]; [reflexivity|]. rewrite miss_min. f_equal. destruct (Nat.le_gt_cases k (length ks)); [now rewrite Nat.min_l by lia|].
  rewrite Nat.min_r by lia. rewrite <- (IH (S k)), <- (IH (S (length ks))). f_equal. lia.
Qed.
Lemma tlist_exact pre items : forall a s, Rel cc T a s -> fresh a -> Forall (fun i => ~ In NL (pre ++ i) /\ ~ In NUL (pre ++ i)) items ->
  exists a' s', op_tlist cc items pre s = Some s' /\ Rel cc T a' s' /\ fresh a' /\ a_k a' = Nat.min (a_k a + length items) (length ls) /\
    nfails a' = nfails a /\ ndiffs a' = ndiffs a + misses_at ls (a_k a) (map (fun i => pre ++ i) items).
Proof.
  induction items as [|i items IH]; intros a s HR HF HI.
  - exists a, s. split; [reflexivity|]. split; [exact HR|]. split; [exact HF|]. cbn [length map misses_at]. pose proof (R_k _ _ _ _ HR) as Hk. cbn [nlines T] in Hk. fold ls in Hk. split; lia.
  - inversion HI as [|? ? [Hn Hu] HI']; subst. destruct (tln_exact a s (pre ++ i) HR HF Hn Hu) as (a1 & s1 & E1 & R1 & F1 & K1 & _ & X1 & D1).
    destruct (IH a1 s1 R1 F1 HI') as (a2 & s2 & E2 & R2 & F2 & K2 & X2 & D2). exists a2, s2. split.
    { unfold op_tlist in *. cbn [map steps]. rewrite E1. exact E2. }
    split; [exact R2|]. split; [exact F2|]. cbn [length map misses_at]. rewrite K1 in K2, D2. rewrite misses_min in D2. split; [lia|]. split; lia.
Qed.
Lemma keyvalueln_exact a s k v : Rel cc T a s -> fresh a -> ~ In NL (k ++ [SP] ++ v) -> ~ In NUL (k ++ [SP] ++ v) ->
  let n := seek_pos (fun x => starts_with k x) ls (a_k a) in
  exists a' s', op_keyvalueln cc k v s = Some s' /\ Rel cc T a' s' /\ fresh a' /\ a_k a' = Nat.min (S n) (length ls) /\
    nfails a' = nfails a /\ ndiffs a <= ndiffs a' <= S (ndiffs a) /\
    (ndiffs a' = ndiffs a -> nth_error ls n = Some (k ++ [SP] ++ v)) /\
    ((exists tk tv, tokenize cc k = Some tk /\ tokenize cc ([SP] ++ v) = Some tv /\ tokenize cc (k ++ [SP] ++ v) = Some (tk ++ tv)) ->
     nth_error ls n = Some (k ++ [SP] ++ v) -> ndiffs a' = ndiffs a).
Proof.
  intros HR HF Hn Hu. cbn zeta. destruct (seek0_fresh a s (fun x => starts_with k x) HR HF) as (a1 & s1 & E1 & R1 & F1 & K1 & D1 & X1 & _).
  rewrite !in_app_iff in Hn, Hu. destruct (tokenize_total cc TOK k) as [tk Hk]; [tauto|]. destruct (tokenize_total cc TOK ([SP] ++ v)) as [tv Hv]; [rewrite in_app_iff; tauto|].
  destruct (feed_exact cc TOK T a1 s1 true k tk R1 Hk) as (s2 & E2 & [_ R2]). destruct (feedln_exact cc TOK T _ s2 true _ tv R2 Hv) as (s3 & E3 & [_ R3]).
  rewrite <- asteps_app in R3. unfold toks in R3. rewrite <- map_app, app_assoc in R3. fold (toks true ((tk ++ tv) ++ [[NL]])) in R3.
  assert (Q : Forall (fun x => x <> [NL]) (tk ++ tv)).
  { apply Forall_app. split; [apply (tokens_no_nl cc TOK k); [exact Hk|tauto]|apply (tokens_no_nl cc TOK ([SP] ++ v)); [exact Hv|rewrite in_app_iff; tauto]]. }
  destruct (checked_step (tk ++ tv) a1 F1 Q) as (F & K & L & X & A1 & A2). cbn zeta in *. rewrite K1 in K, A1, A2.
  assert (C : concat (tk ++ tv) = k ++ [SP] ++ v) by (now rewrite concat_app, (tokenize_concat cc TOK k tk Hk), (tokenize_concat cc TOK _ tv Hv)).
  exists (asteps cc T (toks true ((tk ++ tv) ++ [[NL]])) a1), s3. split.
  { unfold op_keyvalueln, op_anchor, op_seek_prefix. rewrite E1. cbn [bind]. unfold op_t. rewrite E2. exact E3. }
  split; [exact R3|]. split; [exact F|]. split; [exact K|]. split; [lia|].
  set (n := seek_pos _ ls (a_k a)) in *. set (aa := asteps _ _ _ a1) in *.
  assert (DEC : agrees cc T true n 0 ((tk ++ tv) ++ [[NL]]) \/ ~ agrees cc T true n 0 ((tk ++ tv) ++ [[NL]])).
  { destruct (asteps_checked (tk ++ tv) a1 Q) as (d & _ & HD). destruct F1 as (J & _ & D & _). rewrite J, K1, D in HD. fold n in HD. destruct d; [right|left; now apply HD].
    intros Z. destruct HD as [_ HD]. discriminate HD. now split. }
  split; [destruct DEC as [Z|Z]; [rewrite (A1 Z)|rewrite (A2 Z)]; lia|]. split.
  - intros Eq. destruct DEC as [Z|Z]; [|specialize (A2 Z); lia]. rewrite <- C. now apply agrees_text.
  - intros (tk' & tv' & Hk' & Hv' & Hkv) Hl. rewrite Hk in Hk'. rewrite Hv in Hv'. inversion Hk'; inversion Hv'; subst tk' tv'.
    rewrite A1; [lia|]. now apply (line_agrees cc TOK t n (k ++ [SP] ++ v)).
Qed.
Lemma header_exact a s h : Rel cc T a s -> fresh a -> ~ In NL h -> ~ In NUL h ->
  let c := started a && a_lc a && match nth_error ls (a_k a) with Some _ => true | None => false end in
  let k0 := if started a then Nat.min (S (a_k a)) (length ls) else a_k a in
  let n := seek_pos (fun x => str_eqb x h) ls k0 in
  exists a' s', op_header cc h s = Some s' /\ Rel cc T a' s' /\ fresh a' /\ a_k a' = Nat.min (S (S n)) (length ls) /\ nfails a' = nfails a /\
    ndiffs a' = ndiffs a + (if c then miss ls (a_k a) [] else 0) + miss ls n h + miss ls (S n) [].
Proof.
  intros HR HF Hn Hu. cbn zeta. unfold op_header. rewrite (Rel_started cc T a s HR). rewrite (R_lc _ _ _ _ HR), (R_rd _ _ _ _ HR), r_line_rpos.
  set (c0 := a_lc a && _). set (k0 := if started a then Nat.min (S (a_k a)) (length ls) else a_k a). set (n := seek_pos _ ls k0).
  assert (H1 : exists a1, Rel cc T a1 (if started a then feed_token cc c0 s [NL] else s) /\ fresh a1 /\ a_k a1 = k0 /\ nfails a1 = nfails a /\
            ndiffs a1 = ndiffs a + (if started a && c0 then miss ls (a_k a) [] else 0)).
  { subst k0. destruct (started a) eqn:ST; [|exists a; cbn [andb]; split; [exact HR|]; split; [exact HF|]; split; [reflexivity|]; split; lia].
    pose proof (feed_token_Rel cc T a s c0 [NL] HR (fun _ => eq_refl)) as R1. eexists. split; [exact R1|]. cbn [andb]. destruct c0 eqn:EC.
    - destruct (checked_step [] a HF (Forall_nil _)) as (F & K & L & X & A1 & A2). cbn [app toks map] in F, K, X, A1, A2.
      cbn [asteps fold_left] in F, K, X, A1, A2. split; [exact F|]. split; [exact K|]. split; [exact X|].
      assert (N0 : ~ In NL (@nil char)) by easy. pose proof (agrees_line (a_k a) [] [] eq_refl N0) as AL. cbn [app] in AL. rewrite AL in A1, A2. rewrite <- line_is_iff in A1, A2.
      unfold miss. destruct (line_is ls (a_k a) []); [rewrite A1|rewrite A2]; try easy; lia.
    - assert (EQ : astep cc T a (PTok false [NL]) = next_line T a false []).
      { pose proof (asteps_line cc T false [] a (Forall_nil _)) as G. apply G. intros Z. discriminate. }
      rewrite EQ. destruct HF as (J & C & D & E). split; [now repeat split|]. split; [reflexivity|].
      destruct (next_line_counts t a false []) as [N1 N2]. fold T in N1, N2. rewrite N1, N2, D, E. cbn [marked]. split; lia. }
  destruct H1 as (a1 & R1 & F1 & K1 & X1 & D1).
  destruct (anchorln_exact a1 _ h R1 F1 Hn Hu) as (a2 & s2 & E2 & R2 & F2 & K2 & _ & X2 & D2). rewrite K1 in K2, D2. fold n in K2, D2.
  destruct (tln_exact a2 s2 [] R2 F2) as (a3 & s3 & E3 & R3 & F3 & K3 & _ & X3 & D3); try easy. rewrite K2 in K3, D3. rewrite miss_min in D3.
  exists a3, s3. split; [rewrite E2; exact E3|]. split; [exact R3|]. split; [exact F3|]. split; [lia|]. split; [lia|].
  rewrite D3, D2, D1. unfold c0. change (line_at T (a_k a)) with (nth_error ls (a_k a)). rewrite <- andb_assoc. reflexivity.
Qed.
Lemma anchor_exact a s x : Rel cc T a s -> fresh a -> ~ In NL x -> ~ In NUL x ->
  exists a' s', op_anchor cc x s = Some s' /\ Rel cc T a' s' /\ a_k a' = seek_pos (fun l => starts_with x l) ls (a_k a) /\ a_cur a' = x /\
    ndiffs a' = ndiffs a /\ nfails a' = nfails a.
Proof.
  intros HR HF Hn Hu. destruct (seek0_fresh a s (fun l => starts_with x l) HR HF) as (a1 & s1 & E1 & R1 & F1 & K1 & D1 & X1 & _).
  destruct (tokenize_total cc TOK x Hu) as [ts Ht]. destruct (feed_exact cc TOK T a1 s1 true x ts R1 Ht) as (s2 & E2 & [_ R2]).
  eexists _, s2. split; [unfold op_anchor, op_seek_prefix; rewrite E1; exact E2|]. split; [exact R2|].
  pose proof (tokens_no_nl cc TOK x ts Ht Hn) as Hq. rewrite <- K1, <- D1, <- X1. destruct F1 as (_ & C & _). rewrite <- (tokenize_concat cc TOK x ts Ht).
  replace (concat ts) with (a_cur a1 ++ concat ts) by now rewrite C. clear - Hq.
  revert a1. induction Hq as [|y ts Hy Hq IH]; intros a1; cbn [toks map concat]; [now rewrite app_nil_r|]. rewrite asteps_cons. fold (toks true ts).
  cbn [astep]. destruct (str_eqb_spec y [NL]); [contradiction|]. match goal with |- context [asteps cc T _ ?a2] => destruct (IH a2) as (A1 & A2 & A3 & A4) end.
  rewrite A1, A2, A3, A4. cbn [a_k a_cur]. rewrite <- app_assoc. now repeat split.
Qed.
End Anchor.
