(** Lines fed to the abstract machine of CaseRunProofs; sections in any order (C14). *)
From Verif Require Import PyStrFacts TokenizerSpec TokenizerProofs CaseRunModel CaseRunSpec ReaderProofs CaseRunProofs CaseRunFacts CaseRunLines SectionModel.
From Coq Require Import Lia.

Lemma nth_lt {A} (l : list A) i x : nth_error l i = Some x -> i < length l.
Proof. intros H. apply nth_error_Some. now rewrite H. Qed.

Section Sections.
Variable cc : CharClass.
Hypothesis TOK : TokClassOK cc.
Variable refloat : str -> option str.

(** tokens that are not compared, or agree with what is expected *)
Definition agrees (T : option str) (c : bool) (k j : nat) (ts : list str) : Prop :=
  c = true -> forall i, i < length ts -> exp_tok cc T k (j + i) = Some (nth i ts []).

Lemma agrees_tail T c k j t ts : agrees T c k j (t :: ts) -> agrees T c k (S j) ts.
Proof. intros H Hc i Hi. specialize (H Hc (S i)). cbn [length nth] in H. rewrite Nat.add_succ_r in H. apply H. lia. Qed.
Lemma agrees_head T c k j t ts : agrees T c k j (t :: ts) ->
  has_text T && token_differs t (exp_tok cc T k j) && c = false.
Proof.
  intros H. destruct c; [|now rewrite andb_false_r]. specialize (H eq_refl 0). cbn [length nth] in H. rewrite Nat.add_0_r in H. rewrite H by lia.
  cbn [token_differs]. rewrite str_eqb_refl. cbn. now rewrite andb_false_r.
Qed.

Lemma asteps_toks T c (ts : list str) : forall a, Forall (fun t => t <> [NL]) ts -> agrees T c (a_k a) (a_j a) ts ->
  asteps cc T (toks c ts) a =
  {| a_k := a_k a; a_j := a_j a + length ts; a_cur := a_cur a ++ concat ts; a_d := a_d a; a_e := a_e a;
     a_lc := match ts with [] => a_lc a | _ => c end; a_recs := a_recs a |}.
Proof.
  induction ts as [|t ts IH]; intros a Hn Ha.
  - cbn. rewrite Nat.add_0_r, app_nil_r. now destruct a.
  - inversion Hn as [|? ? Ht Hts]; subst. cbn [toks map]. rewrite asteps_cons. cbn [astep].
    destruct (str_eqb_spec t [NL]) as [|_]; [congruence|]. rewrite (agrees_head T c _ _ t ts Ha).
    fold (toks c ts). rewrite IH; cbn [a_k a_j a_cur a_d a_e a_lc a_recs]; [|assumption|now apply agrees_tail with (t := t)].
    cbn [length concat]. rewrite <- app_assoc. f_equal; [lia|]. destruct ts; reflexivity.
Qed.

(** a whole line *)
Definition next_line (T : option str) (a : ast) (c : bool) (l : str) : ast :=
  {| a_k := Nat.min (S (a_k a)) (nlines T); a_j := 0; a_cur := []; a_d := None; a_e := None; a_lc := c;
     a_recs := a_recs a ++ [{| lr_text := a_cur a ++ l; lr_exp := line_at T (a_k a); lr_diff := a_d a; lr_err := a_e a |}] |}.
Lemma asteps_line T c (ts : list str) a : Forall (fun t => t <> [NL]) ts -> agrees T c (a_k a) (a_j a) (ts ++ [[NL]]) ->
  asteps cc T (toks c (ts ++ [[NL]])) a = next_line T a c (concat ts).
Proof.
  intros Hn Ha. unfold toks. rewrite map_app, asteps_app. fold (toks c ts). rewrite asteps_toks; [|assumption|].
  - cbn [map]. rewrite asteps_cons. cbn [astep]. change (str_eqb [NL] [NL]) with true. cbv iota. cbn [a_k a_j a_cur a_d a_e a_lc a_recs].
    rewrite (agrees_head T c (a_k a) (a_j a + length ts) [NL] []); [reflexivity|].
    intros Hc i Hi. cbn [length] in Hi. replace i with 0 in * by lia. specialize (Ha Hc (length ts)). rewrite app_length in Ha. cbn [length] in Ha.
    rewrite Nat.add_0_r. cbn [nth]. rewrite Ha by lia. rewrite app_nth2, Nat.sub_diag by lia. reflexivity.
  - intros Hc i Hi. rewrite (Ha Hc i) by (rewrite app_length; cbn [length]; lia). now rewrite app_nth1 by lia.
Qed.

(** writing the expected line, checked; writing any line, unchecked *)
Lemma line_agrees t k l ts : nth_error (rlines t) k = Some l -> tokenize cc l = Some ts -> agrees (Some t) true k 0 (ts ++ [[NL]]).
Proof.
  intros Hl Ht _ i Hi. rewrite exp_tok_eq. unfold expected_token. rewrite Hl. cbn [option_map Nat.add]. rewrite (line_token_nth cc TOK l ts i Ht).
  f_equal. rewrite app_length in Hi. cbn [length] in Hi. destruct (Nat.lt_ge_cases i (length ts)).
  - rewrite app_nth1 by lia. now apply nth_indep.
  - rewrite app_nth2, nth_overflow by lia. replace (i - length ts) with 0 by lia. reflexivity.
Qed.
Lemma tln_expected t a s l : Rel cc (Some t) a s -> a_j a = 0 -> nth_error (rlines t) (a_k a) = Some l -> ~ In NL l -> ~ In NUL l ->
  exists s', op_tln cc l s = Some s' /\ Rel cc (Some t) (next_line (Some t) a true l) s'.
Proof.
  intros HR Hj Hl Hn Hu. destruct (tokenize_total cc TOK l Hu) as [ts Ht].
  destruct (feedln_exact cc TOK (Some t) a s true l ts HR Ht) as (s' & E & [_ HR']). exists s'. split; [exact E|].
  rewrite asteps_line in HR'; [|now apply (tokens_no_nl cc TOK l)|rewrite Hj; now apply (line_agrees t _ l)].
  rewrite (tokenize_concat cc TOK l ts Ht) in HR'. exact HR'.
Qed.
Lemma iln_any T a s l : Rel cc T a s -> ~ In NL l -> ~ In NUL l ->
  exists s', op_iln cc l s = Some s' /\ Rel cc T (next_line T a false l) s'.
Proof.
  intros HR Hn Hu. destruct (tokenize_total cc TOK l Hu) as [ts Ht].
  destruct (feedln_exact cc TOK T a s false l ts HR Ht) as (s' & E & [_ HR']). exists s'. split; [exact E|].
  rewrite asteps_line in HR'; [|now apply (tokens_no_nl cc TOK l)|discriminate].
  rewrite (tokenize_concat cc TOK l ts Ht) in HR'. exact HR'.
Qed.

(** at the start of a line with nothing wrong so far *)
Definition at_start (a : ast) : Prop := a_j a = 0 /\ a_cur a = [] /\ clean a.
Lemma next_line_start T a c l : at_start a -> at_start (next_line T a c l).
Proof.
  intros (J & C & D & E & F). unfold at_start, clean. cbn. rewrite D, E. repeat split; auto. apply Forall_app. split; [exact F|]. constructor; [|constructor].
  now split.
Qed.

Lemma tlns_expected t ls : forall a s, Rel cc (Some t) a s -> at_start a -> Forall (fun l => ~ In NL l /\ ~ In NUL l) ls ->
  (forall i l, nth_error ls i = Some l -> nth_error (rlines t) (a_k a + i) = Some l) ->
  exists a' s', exec_all cc refloat (map OTln ls) s = Some s' /\ Rel cc (Some t) a' s' /\ at_start a' /\
    a_k a' = a_k a + length ls /\ a_lc a' = match ls with [] => a_lc a | _ => true end /\ length (a_recs a') = length (a_recs a) + length ls.
Proof.
  induction ls as [|l ls IH]; intros a s HR HS HP HL.
  - exists a, s. split; [reflexivity|]. split; [exact HR|]. split; [exact HS|]. cbn [length]. split; [lia|]. split; [reflexivity|lia].
  - inversion HP as [|? ? [Hn Hu] HP']; subst. pose proof (HL 0 l eq_refl) as H0. rewrite Nat.add_0_r in H0.
    destruct (tln_expected t a s l HR (proj1 HS) H0 Hn Hu) as (s1 & E1 & R1).
    assert (LT : a_k a < length (rlines t)) by (apply nth_error_Some; congruence).
    destruct (IH _ s1 R1 (next_line_start _ _ _ _ HS) HP') as (a' & s' & E' & R' & S' & K' & L' & N').
    { intros i l' Hi. specialize (HL (S i) l' Hi). cbn [next_line a_k nlines]. rewrite Nat.min_l by lia.
      rewrite <- HL. f_equal. lia. }
    exists a', s'. split; [unfold exec_all in *; cbn [map steps exec]; rewrite E1; exact E'|]. split; [exact R'|]. split; [exact S'|]. split; [|split].
    + rewrite K'. cbn [next_line a_k nlines length]. rewrite Nat.min_l by lia. lia.
    + rewrite L'. destruct ls; reflexivity.
    + rewrite N'. cbn [next_line a_recs]. rewrite app_length. cbn [length]. lia.
Qed.
Lemma ilns_any T ls : forall a s, Rel cc T a s -> at_start a -> Forall (fun l => ~ In NL l /\ ~ In NUL l) ls ->
  exists a' s', exec_all cc refloat (map OIln ls) s = Some s' /\ Rel cc T a' s' /\ at_start a' /\
    match ls with [] => a' = a | _ => a_lc a' = false end /\ length (a_recs a') = length (a_recs a) + length ls.
Proof.
  induction ls as [|l ls IH]; intros a s HR HS HP.
  - exists a, s. split; [reflexivity|]. split; [exact HR|]. split; [exact HS|]. split; [reflexivity|]. cbn [length]. lia.
  - inversion HP as [|? ? [Hn Hu] HP']; subst. destruct (iln_any T a s l HR Hn Hu) as (s1 & E1 & R1).
    destruct (IH _ s1 R1 (next_line_start _ _ _ _ HS) HP') as (a' & s' & E' & R' & S' & L' & N').
    exists a', s'. split; [unfold exec_all in *; cbn [map steps exec]; rewrite E1; exact E'|]. split; [exact R'|]. split; [exact S'|]. split.
    + destruct ls; [subst a'; reflexivity|exact L'].
    + rewrite N'. cbn [next_line a_recs]. rewrite app_length. cbn [length]. lia.
Qed.

(** seeking a line that occurs once *)
Lemma seek_unique ls k i h : k <= length ls -> nth_error ls i = Some h -> (forall j, nth_error ls j = Some h -> j = i) ->
  seek_pos (fun x => str_eqb x h) ls k = i.
Proof.
  intros Hk Hi Hu. destruct (seek_pos_spec (fun x => str_eqb x h) ls k Hk) as [(_ & (l & Hl & E) & _)|[(_ & (l & Hl & E) & _)|(_ & N)]].
  - apply str_eqb_eq in E. subst l. now apply Hu.
  - apply str_eqb_eq in E. subst l. now apply Hu.
  - exfalso. apply (N i). exists h. split; [exact Hi|apply str_eqb_refl].
Qed.

Lemma header_expected t a s h i : Rel cc (Some t) a s -> at_start a ->
  (a_recs a = [] \/ a_lc a = false \/ nth_error (rlines t) (a_k a) = None \/ nth_error (rlines t) (a_k a) = Some []) ->
  nth_error (rlines t) i = Some h -> (forall j, nth_error (rlines t) j = Some h -> j = i) ->
  nth_error (rlines t) (S i) = Some [] -> ~ In NL h -> ~ In NUL h ->
  exists a' s', op_header cc h s = Some s' /\ Rel cc (Some t) a' s' /\ at_start a' /\ a_k a' = S (S i) /\ a_lc a' = true /\ a_recs a' <> [].
Proof.
  intros HR HS Hsep Hi Hu Hb Hn Hn0. unfold op_header. rewrite (Rel_started cc (Some t) a s HR).
  set (s1 := if started a then _ else s).
  assert (H1 : exists a1, Rel cc (Some t) a1 s1 /\ at_start a1).
  { subst s1. destruct (started a) eqn:ST; [|exists a; split; assumption]. rewrite (R_lc _ _ _ _ HR), (R_rd _ _ _ _ HR), r_line_rpos.
    set (c := a_lc a && _). pose proof (feed_token_Rel cc (Some t) a s c [NL] HR (fun _ => eq_refl)) as R1.
    exists (next_line (Some t) a c []). split; [|now apply next_line_start].
    assert (EQ : astep cc (Some t) a (PTok c [NL]) = next_line (Some t) a c []).
    { pose proof (asteps_line (Some t) c [] a (Forall_nil _)) as G. apply G. cbn [app]. intros Hc i' Hi'. cbn [length] in Hi'. replace i' with 0 by lia.
      rewrite Nat.add_0_r. destruct HS as (J & _). rewrite J. unfold c in Hc. apply andb_true_iff in Hc. destruct Hc as [Hc1 Hc2].
      cbn [line_at] in Hc2. destruct Hsep as [E|[E|[E|E]]].
      - exfalso. unfold started in ST. rewrite E in ST. discriminate.
      - congruence.
      - rewrite E in Hc2. discriminate.
      - rewrite exp_tok_eq. unfold expected_token. rewrite E. reflexivity. }
    rewrite <- EQ. exact R1. }
  destruct H1 as (a1 & R1 & S1). unfold op_anchorln, op_seek_line.
  destruct (op_seek0_exact cc (Some t) a1 s1 (fun x => str_eqb x h) R1) as (s2 & E2 & [_ R2]). rewrite E2. cbn [bind].
  cbn [asteps fold_left] in R2. rewrite (seek_unique (rlines t) (a_k a1) i h (R_k _ _ _ _ R1) Hi Hu) in R2.
  match type of R2 with Rel _ _ (astep _ _ _ (PMove _ ?j)) _ => assert (J0 : j = 0) end.
  { destruct (find_from _ _ _); [|reflexivity]. destruct (Nat.eqb _ _); [apply S1|reflexivity]. }
  rewrite J0 in R2. set (a2 := astep cc (Some t) a1 (PMove i 0)) in R2.
  assert (S2 : at_start a2) by (destruct S1 as (A & B & C & D & F); repeat split; assumption).
  destruct (tln_expected t a2 s2 h R2 eq_refl Hi Hn Hn0) as (s3 & E3 & R3). rewrite E3. cbn [bind].
  assert (LT : S i < length (rlines t)) by (apply nth_error_Some; congruence).
  assert (K3 : a_k (next_line (Some t) a2 true h) = S i) by (cbn [next_line a_k nlines a2 astep]; rewrite Nat.min_l; lia).
  destruct (tln_expected t (next_line (Some t) a2 true h) s3 [] R3 eq_refl) as (s4 & E4 & R4); [rewrite K3; exact Hb|easy|easy|].
  exists (next_line (Some t) (next_line (Some t) a2 true h) true []), s4. split; [exact E4|]. split; [exact R4|].
  split; [now apply next_line_start, next_line_start|]. split; [|split; [reflexivity|]].
  - cbn [next_line a_k nlines] in *. rewrite K3. rewrite Nat.min_l; lia.
  - cbn [next_line a_recs]. intros E. apply app_eq_nil in E. destruct E; discriminate.
Qed.

(** ** Sections *)
Lemma layout_tail xs x : In x xs -> exists A B, flat_map (fun y => [] :: section_lines y) xs = A ++ section_lines x ++ B /\ (B = [] \/ exists B', B = [] :: B').
Proof.
  induction xs as [|y xs IH]; [easy|]. cbn [flat_map]. intros [-> |I].
  - exists [[]], (flat_map (fun y => [] :: section_lines y) xs). split; [reflexivity|]. destruct xs; [now left|right; eexists; reflexivity].
  - destruct (IH I) as (A & B & E & HB). exists (([] :: section_lines y) ++ A), B. split; [|exact HB]. now rewrite E, <- app_assoc.
Qed.
Lemma layout_split xs x : In x xs -> exists A B, layout xs = A ++ section_lines x ++ B /\ (B = [] \/ exists B', B = [] :: B').
Proof.
  destruct xs as [|y xs]; [easy|]. cbn [layout]. intros [-> |I].
  - exists [], (flat_map (fun y => [] :: section_lines y) xs). split; [reflexivity|]. destruct xs; [now left|right; eexists; reflexivity].
  - destruct (layout_tail xs x I) as (A & B & E & HB). exists (section_lines y ++ A), B. split; [|exact HB]. now rewrite E, <- app_assoc.
Qed.

Definition from_section (xs : list section) (y : section) : Prop :=
  exists x, In x xs /\ sec_head y = sec_head x /\ sec_checked y = sec_checked x /\ (sec_free x <> [] -> sec_free y <> []) /\
    Forall plain_line (sec_free y).
Definition between (t : str) (a : ast) : Prop := 
  a_recs a = [] \/ a_lc a = false \/ nth_error (rlines t) (a_k a) = None \/ nth_error (rlines t) (a_k a) = Some [].

Lemma plain_two ls : Forall plain_line ls -> Forall (fun l => ~ In NL l /\ ~ In NUL l) ls.
Proof. apply Forall_impl. unfold plain_line. tauto. Qed.

Lemma section_run t xs : rlines t = layout xs -> Forall plain_line (layout xs) ->
  (forall x i j, In x xs -> nth_error (layout xs) i = Some (sec_head x) -> nth_error (layout xs) j = Some (sec_head x) -> i = j) ->
  forall y a s, from_section xs y -> Rel cc (Some t) a s -> at_start a -> between t a ->
  exists a' s', exec_all cc refloat (section_ops y) s = Some s' /\ Rel cc (Some t) a' s' /\ at_start a' /\ between t a'.
Proof.
  intros EL PL HU y a s (x & Ix & Eh & Ec & Ef & Pf) HR HS HB.
  destruct (layout_split xs x Ix) as (A & B & ELay & HBt).
  assert (NTH : forall i l, nth_error (section_lines x ++ B) i = Some l -> nth_error (rlines t) (length A + i) = Some l).
  { intros i l Hi. rewrite EL, ELay. rewrite nth_error_app2 by lia. now replace (length A + i - length A) with i by lia. }
  assert (PX : Forall plain_line (section_lines x)).
  { rewrite ELay in PL. apply Forall_app in PL as [_ PL]. now apply Forall_app in PL as [PL _]. }
  assert (PH : plain_line (sec_head x)) by (inversion PX; assumption).
  destruct (header_expected t a s (sec_head x) (length A) HR HS HB) as (a1 & s1 & E1 & R1 & S1 & K1 & L1 & N1); try apply PH.
  { specialize (NTH 0 (sec_head x) eq_refl). now rewrite Nat.add_0_r in NTH. }
  { intros j Hj. apply (HU x); [exact Ix|now rewrite <- EL|]. specialize (NTH 0 (sec_head x) eq_refl). rewrite Nat.add_0_r in NTH. now rewrite <- EL. }
  { specialize (NTH 1 [] eq_refl). now rewrite Nat.add_1_r in NTH. }
  destruct (tlns_expected t (sec_checked y) a1 s1 R1 S1) as (a2 & s2 & E2 & R2 & S2 & K2 & L2 & N2).
  { rewrite Ec. apply plain_two. inversion PX as [|? ? _ PX']; subst. inversion PX' as [|? ? _ PX2]; subst. now apply Forall_app in PX2 as [PX2 _]. }
  { rewrite Ec, K1. intros i l Hi. specialize (NTH (2 + i) l). replace (length A + (2 + i)) with (S (S (length A)) + i) in NTH by lia. apply NTH.
    cbn [section_lines app nth_error Nat.add]. rewrite <- app_assoc, nth_error_app1; [exact Hi|]. exact (nth_lt _ _ _ Hi). }
  destruct (ilns_any (Some t) (sec_free y) a2 s2 R2 S2 (plain_two _ Pf)) as (a3 & s3 & E3 & R3 & S3 & L3 & N3).
  exists a3, s3. split; [|split; [exact R3|split; [exact S3|]]].
  - unfold section_ops. change (exec_all cc refloat (OHeader (sec_head y) :: map OTln (sec_checked y) ++ map OIln (sec_free y)) s)
      with (bind (op_header cc (sec_head y) s) (exec_all cc refloat (map OTln (sec_checked y) ++ map OIln (sec_free y)))).
    rewrite Eh, E1. cbn [bind]. rewrite exec_all_app, E2. exact E3.
  - destruct (sec_free y) as [|f fs] eqn:EF; [|right; left; exact L3]. subst a3. right. right.
    assert (FX : sec_free x = []) by (destruct (sec_free x); [reflexivity|exfalso; apply Ef; [discriminate|reflexivity]]).
    rewrite K2, K1, Ec.
    assert (POS : nth_error (rlines t) (S (S (length A)) + length (sec_checked x)) = nth_error B 0).
    { rewrite EL, ELay. unfold section_lines. rewrite FX, app_nil_r.
      rewrite nth_error_app2 by lia. rewrite nth_error_app2 by (cbn [length]; lia). f_equal. cbn [length]. lia. }
    destruct HBt as [EB|(B' & EB)]; rewrite EB in POS; [left; exact POS|right; exact POS].
Qed.

Lemma sections_run t xs : rlines t = layout xs -> Forall plain_line (layout xs) ->
  (forall x i j, In x xs -> nth_error (layout xs) i = Some (sec_head x) -> nth_error (layout xs) j = Some (sec_head x) -> i = j) ->
  forall ys a s, Forall (from_section xs) ys -> Rel cc (Some t) a s -> at_start a -> between t a ->
  exists a' s', exec_all cc refloat (flat_map section_ops ys) s = Some s' /\ Rel cc (Some t) a' s' /\ at_start a'.
Proof.
  intros EL PL HU ys. induction ys as [|y ys IH]; intros a s F HR HS HB.
  - exists a, s. split; [reflexivity|]. now split.
  - inversion F as [|? ? Fy Fys]; subst. destruct (section_run t xs EL PL HU y a s Fy HR HS HB) as (a1 & s1 & E1 & R1 & S1 & B1).
    destruct (IH a1 s1 Fys R1 S1 B1) as (a' & s' & E' & R' & S'). exists a', s'. cbn [flat_map]. rewrite exec_all_app, E1. auto.
Qed.
End Sections.
