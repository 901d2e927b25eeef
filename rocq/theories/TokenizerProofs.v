From Verif Require Import PyStrFacts TokenizerModel TokenizerSpec.

Section Proofs.
Variable cc : CharClass.
Hypothesis OK : TokClassOK cc.

Lemma is_blank_iff c : is_blank c = true <-> blank c.
Proof. unfold is_blank, blank. rewrite orb_true_iff, !N.eqb_eq. tauto. Qed.
Lemma is_sign_iff c : is_sign c = true <-> sign c.
Proof. unfold is_sign, sign. rewrite orb_true_iff, !N.eqb_eq. tauto. Qed.

Lemma alnum_facts c :
  cc_alnum cc c = true ->
  c <> NUL /\ c <> TAB /\ c <> NL /\ c <> SP /\ c <> PLUS /\ c <> MINUS /\ c <> DOT.
Proof.
  destruct OK. intros H; repeat split; intros ->; congruence.
Qed.

Lemma num_alnum c : cc_numeric cc c = true -> cc_alnum cc c = true.
Proof. apply (tco_numeric_alnum cc OK). Qed.

Lemma not_at_iff f P s :
  (forall c, f c = true <-> P c) -> head_not f s <-> not_at P s.
Proof.
  intros H. destruct s as [|c s]; simpl; [tauto|]. rewrite <- H. destruct (f c); intuition congruence.
Qed.

Lemma Forall_iff (P Q : char -> Prop) l : (forall c, P c <-> Q c) -> Forall P l <-> Forall Q l.
Proof. intros H; split; apply Forall_impl; intros c; apply H. Qed.

Lemma digit_at_iff s : head_not (cc_numeric cc) s <-> not_at (digit cc) s.
Proof. apply not_at_iff; intros; reflexivity. Qed.
Lemma alnum_at_iff s : head_not (cc_alnum cc) s <-> not_at (alnum cc) s.
Proof. apply not_at_iff; intros; reflexivity. Qed.
Lemma blank_at_iff s : head_not is_blank s <-> not_at blank s.
Proof. apply not_at_iff, is_blank_iff. Qed.

(** the fraction scanner *)
Lemma scan_fraction_cases r :
  (scan_fraction cc r = ([], r) /\ ~ fraction_at cc r) \/
  (exists fs r2, scan_fraction cc r = (DOT :: fs, r2) /\ r = DOT :: fs ++ r2 /\
     fs <> [] /\ Forall (digit cc) fs /\ not_at (digit cc) r2).
Proof.
  destruct r as [|p [|d r]]; simpl.
  - left; split; [reflexivity|]. intros (d & r & H & _); discriminate.
  - left; split; [reflexivity|]. intros (d & r & H & _); discriminate.
  - destruct (N.eqb_spec p DOT) as [->|Hp]; simpl.
    + destruct (cc_numeric cc d) eqn:Ed; simpl.
      * right. destruct (span (cc_numeric cc) r) as [a b] eqn:E.
        exists (d :: a), b. split; [reflexivity|]. rewrite (span_app _ _ _ _ E).
        split; [reflexivity|]. split; [discriminate|]. split.
        -- constructor; [exact Ed|]. exact (span_forall _ _ _ _ E).
        -- apply digit_at_iff. exact (span_head _ _ _ _ E).
      * left; split; [reflexivity|]. intros (d' & r' & H & Hd). inversion H; subst.
        unfold digit in Hd; congruence.
    + left; split; [reflexivity|]. intros (d' & r' & H & Hd). inversion H; congruence.
Qed.

Lemma scan_number_sound s t r :
  scan_number cc s = Some (t, r) -> s = t ++ r /\ t <> [] /\ token cc t r.
Proof.
  unfold scan_number.
  destruct (match s with [] => ([], s) | c :: r0 => if is_sign c then ([c], r0) else ([], s) end)
    as [sg r0] eqn:Esg.
  assert (Hsg : s = sg ++ r0 /\ (sg = [] \/ exists c, sign c /\ sg = [c])).
  { destruct s as [|c s]; [inversion Esg; subst; auto|].
    destruct (is_sign c) eqn:Ec; inversion Esg; subst; split; auto.
    right; exists c; split; [now apply is_sign_iff|reflexivity]. }
  destruct Hsg as [-> Hsg].
  destruct (span (cc_numeric cc) r0) as [ds r1] eqn:Ed.
  destruct ds as [|d ds]; [discriminate|].
  pose proof (span_app _ _ _ _ Ed) as ->.
  pose proof (span_forall _ _ _ _ Ed) as Hds. pose proof (span_head _ _ _ _ Ed) as Hh.
  destruct (scan_fraction_cases r1) as [[E Hf]|(fs & r2 & E & -> & Hfs & Hfa & Hh2)];
    rewrite E; intros H; inversion H; subst; clear H.
  - rewrite !app_nil_r in *. split; [now rewrite <- app_assoc|]. split.
    + destruct sg; discriminate.
    + apply tok_integer; auto; [discriminate|now apply digit_at_iff].
  - split; [|split].
    + rewrite <- !app_assoc. simpl. rewrite <- !app_assoc. reflexivity.
    + destruct sg; discriminate.
    + apply (tok_decimal cc sg (d :: ds) fs r); auto. discriminate.
Qed.

Lemma scan_number_None s :
  scan_number cc s = None ->
  match s with
  | [] => True
  | c :: s' => cc_numeric cc c = false /\ (sign c -> not_at (digit cc) s')
  end.
Proof.
  unfold scan_number. destruct s as [|c s]; [easy|].
  destruct (is_sign c) eqn:Ec.
  - destruct (span (cc_numeric cc) s) as [[|d ds] r1] eqn:Ed.
    + intros _. split.
      * apply is_sign_iff in Ec. destruct (cc_numeric cc c) eqn:En; [|reflexivity].
        pose proof (alnum_facts c (num_alnum c En)). destruct Ec; subst; tauto.
      * intros _. destruct s as [|e s]; [exact I|]. simpl in Ed.
        unfold not_at, digit. destruct (cc_numeric cc e); [|congruence].
        destruct (span (cc_numeric cc) s); discriminate.
    + destruct (scan_fraction cc r1); discriminate.
  - destruct (span (cc_numeric cc) (c :: s)) as [[|d ds] r1] eqn:Ed.
    + intros _. split.
      * simpl in Ed. destruct (cc_numeric cc c); [|reflexivity].
        destruct (span (cc_numeric cc) s); discriminate.
      * intros H. apply is_sign_iff in H. congruence.
    + destruct (scan_fraction cc r1); discriminate.
Qed.

(** a step on a text not starting with NUL yields a token of the specification *)
Lemma tok_step_sound s t r :
  tok_step cc s = Some (t, r) -> hd SP s <> NUL ->
  s = t ++ r /\ t <> [] /\ token cc t r.
Proof.
  unfold tok_step. destruct s as [|c s]; [discriminate|]. simpl hd. intros H Hn.
  destruct (is_blank c) eqn:Eb.
  { assert (H1 : span is_blank (c :: s) = (t, r)) by congruence.
    pose proof (span_app _ _ _ _ H1) as Ha.
    destruct (span_nonempty _ _ _ _ _ Eb H1) as [t' ->].
    split; [exact Ha|]. split; [discriminate|]. apply tok_blanks; [discriminate| |].
    - apply (Forall_iff (fun x => is_blank x = true)); [apply is_blank_iff|].
      exact (span_forall _ _ _ _ H1).
    - apply blank_at_iff. exact (span_head _ _ _ _ H1). }
  destruct (if is_sign c || cc_numeric cc c then scan_number cc (c :: s) else None)
    as [[t0 r0]|] eqn:En.
  { inversion H; subst. destruct (is_sign c || cc_numeric cc c); [|discriminate].
    now apply scan_number_sound. }
  assert (Hnum : cc_numeric cc c = false /\ (sign c -> not_at (digit cc) s)).
  { destruct (is_sign c || cc_numeric cc c) eqn:Es.
    - apply (scan_number_None _ En).
    - apply orb_false_iff in Es as [E1 E2]. split; [exact E2|].
      intros Hs. apply is_sign_iff in Hs. congruence. }
  destruct Hnum as [Hnum Hsgn].
  destruct (cc_alnum cc c) eqn:Ea.
  { assert (H1 : span (cc_alnum cc) (c :: s) = (t, r)) by congruence.
    pose proof (span_app _ _ _ _ H1) as Happ.
    destruct (span_nonempty _ _ _ _ _ Ea H1) as [t' ->].
    split; [exact Happ|]. split; [discriminate|]. apply tok_word.
    - unfold digit; congruence.
    - exact (span_forall _ _ _ _ H1).
    - apply alnum_at_iff. exact (span_head _ _ _ _ H1). }
  destruct (N.eqb_spec c NUL) as [->|Hc]; [congruence|]. simpl in H. inversion H; subst.
  split; [reflexivity|]. split; [discriminate|]. apply tok_other; auto.
  - intros Hb. apply is_blank_iff in Hb. congruence.
  - unfold alnum; congruence.
Qed.

Lemma tok_step_nul s : tok_step cc (NUL :: s) = Some ([], NUL :: s).
Proof.
  unfold tok_step. change (is_blank NUL) with false. cbv iota.
  change (is_sign NUL) with false. cbn [orb].
  assert (Hn : cc_numeric cc NUL = false).
  { destruct (cc_numeric cc NUL) eqn:E; [|reflexivity].
    apply num_alnum in E. pose proof (tco_nul cc OK). congruence. }
  rewrite Hn, (tco_nul cc OK). reflexivity.
Qed.

(** the specification determines the step *)
Lemma Forall_digit_alnum l : Forall (digit cc) l -> Forall (alnum cc) l.
Proof. apply Forall_impl. intros c; apply num_alnum. Qed.

Lemma not_at_digit_alnum s : not_at (alnum cc) s -> not_at (digit cc) s.
Proof. destruct s as [|c s]; simpl; [easy|]. intros H1 H2; apply H1. now apply num_alnum. Qed.

Lemma digit_head ds : ds <> [] -> Forall (digit cc) ds ->
  exists d ds', ds = d :: ds' /\ digit cc d /\ is_blank d = false /\ is_sign d = false.
Proof.
  destruct ds as [|d ds]; [congruence|]. intros _ H. inversion H; subst.
  exists d, ds. repeat split; auto.
  - pose proof (alnum_facts d (num_alnum d H2)). unfold is_blank.
    destruct (N.eqb_spec d SP); [tauto|]. destruct (N.eqb_spec d TAB); [tauto|reflexivity].
  - pose proof (alnum_facts d (num_alnum d H2)). unfold is_sign.
    destruct (N.eqb_spec d PLUS); [tauto|]. destruct (N.eqb_spec d MINUS); [tauto|reflexivity].
Qed.

Lemma scan_fraction_none r : ~ fraction_at cc r -> scan_fraction cc r = ([], r).
Proof.
  intros H. destruct (scan_fraction_cases r) as [[E _]|(fs & r2 & E & -> & Hfs & Hfa & _)];
    [exact E|].
  exfalso; apply H. destruct fs as [|f fs]; [congruence|]. inversion Hfa; subst.
  exists f, (fs ++ r2). split; [reflexivity|assumption].
Qed.

Lemma scan_fraction_some fs r :
  fs <> [] -> Forall (digit cc) fs -> not_at (digit cc) r ->
  scan_fraction cc (DOT :: fs ++ r) = (DOT :: fs, r).
Proof.
  intros H1 H2 H3. destruct fs as [|f fs]; [congruence|]. inversion H2; subst.
  cbn [app scan_fraction]. rewrite N.eqb_refl. unfold digit in H4. rewrite H4. cbn [andb].
  change (f :: fs ++ r) with ((f :: fs) ++ r).
  rewrite (span_unique (cc_numeric cc) (f :: fs) r); [reflexivity|exact H2|].
  now apply digit_at_iff.
Qed.

Lemma scan_number_complete sg ds fr r r2 :
  (sg = [] \/ exists c, sign c /\ sg = [c]) -> ds <> [] -> Forall (digit cc) ds ->
  not_at (digit cc) r -> scan_fraction cc r = (fr, r2) ->
  scan_number cc (sg ++ ds ++ r) = Some (sg ++ ds ++ fr, r2).
Proof.
  intros Hsg Hds Hf Hr E. destruct (digit_head ds Hds Hf) as (d & ds' & -> & Hd & Hb & Hs).
  assert (Esp : span (cc_numeric cc) ((d :: ds') ++ r) = (d :: ds', r)).
  { apply span_unique; [exact Hf|now apply digit_at_iff]. }
  unfold scan_number. destruct Hsg as [->|(c & Hc & ->)].
  - cbn [app]. rewrite Hs. change (d :: ds' ++ r) with ((d :: ds') ++ r).
    rewrite Esp, E. reflexivity.
  - cbn [app]. apply is_sign_iff in Hc. rewrite Hc.
    change (d :: ds' ++ r) with ((d :: ds') ++ r). rewrite Esp, E. reflexivity.
Qed.

Lemma scan_number_step sg ds r res :
  (sg = [] \/ exists c, sign c /\ sg = [c]) -> ds <> [] -> Forall (digit cc) ds ->
  scan_number cc (sg ++ ds ++ r) = Some res ->
  tok_step cc (sg ++ ds ++ r) = Some res.
Proof.
  intros Hsg Hds Hf E. destruct (digit_head ds Hds Hf) as (d & ds' & -> & Hd & Hb & Hs).
  destruct Hsg as [->|(c & Hc & ->)].
  - cbn [app] in *. unfold tok_step. rewrite Hb. unfold digit in Hd. rewrite Hd, orb_true_r, E.
    reflexivity.
  - cbn [app] in *. unfold tok_step.
    assert (Hcb : is_blank c = false).
    { destruct Hc as [->|[= ->]]; reflexivity. }
    apply is_sign_iff in Hc. rewrite Hcb, Hc. cbn [orb]. rewrite E. reflexivity.
Qed.

Lemma token_step t r : token cc t r -> tok_step cc (t ++ r) = Some (t, r).
Proof.
  intros [t0 r0 H1 H2 H3 | sg ds r0 H1 H2 H3 H4 H5 | sg ds fs r0 H1 H2 H3 H4 H5 H6
         | c w r0 H1 H2 H3 | c r0 H1 H2 H3 H4].
  - destruct t0 as [|c t0]; [congruence|]. inversion H2; subst.
    cbn [app tok_step]. apply is_blank_iff in H4. rewrite H4.
    change (c :: t0 ++ r0) with ((c :: t0) ++ r0). rewrite span_unique; [reflexivity| |].
    + revert H2. apply Forall_impl. intros; now apply is_blank_iff.
    + now apply blank_at_iff.
  - rewrite <- app_assoc. apply scan_number_step; auto.
    rewrite (scan_number_complete sg ds [] r0 r0); auto.
    + now rewrite app_nil_r.
    + now apply scan_fraction_none.
  - rewrite <- !app_assoc. cbn [app]. apply scan_number_step; auto.
    apply scan_number_complete; auto.
    + simpl. intros Hd. pose proof (tco_dot cc OK). apply num_alnum in Hd. congruence.
    + now apply scan_fraction_some.
  - pose proof (proj1 (proj1 (Forall_cons_iff _ _ _) H2)) as H5. pose proof (alnum_facts c H5) as Hc. cbn [app tok_step].
    assert (Eb : is_blank c = false).
    { unfold is_blank. destruct (N.eqb_spec c SP); [tauto|]. destruct (N.eqb_spec c TAB); [tauto|reflexivity]. }
    assert (Es : is_sign c = false).
    { unfold is_sign. destruct (N.eqb_spec c PLUS); [tauto|]. destruct (N.eqb_spec c MINUS); [tauto|reflexivity]. }
    assert (En : cc_numeric cc c = false).
    { destruct (cc_numeric cc c) eqn:E; [|reflexivity]. exfalso; now apply H1. }
    rewrite Eb, Es, En. cbn [orb]. unfold alnum in H5. rewrite H5.
    change (c :: w ++ r0) with ((c :: w) ++ r0). rewrite span_unique; [reflexivity|exact H2|].
    now apply alnum_at_iff.
  - cbn [app tok_step].
    assert (Eb : is_blank c = false).
    { destruct (is_blank c) eqn:E; [|reflexivity]. apply is_blank_iff in E; tauto. }
    assert (Ea : cc_alnum cc c = false).
    { destruct (cc_alnum cc c) eqn:E; [|reflexivity]. exfalso; now apply H2. }
    assert (En : cc_numeric cc c = false).
    { destruct (cc_numeric cc c) eqn:E; [|reflexivity]. apply num_alnum in E; congruence. }
    rewrite Eb, En, orb_false_r.
    assert (Hsn : (if is_sign c then scan_number cc (c :: r0) else None) = None).
    { destruct (is_sign c) eqn:Es; [|reflexivity]. unfold scan_number. rewrite Es.
      specialize (H4 (proj1 (is_sign_iff c) Es)). destruct r0 as [|e r0]; [reflexivity|].
      simpl in H4. unfold digit in H4. simpl. destruct (cc_numeric cc e); [congruence|reflexivity]. }
    rewrite Hsn, Ea. destruct (N.eqb_spec c NUL); [congruence|reflexivity].
Qed.

Lemma token_nonempty t r : token cc t r -> t <> [].
Proof.
  intros [t0 r0 H1 H2 H3 | sg ds r0 H1 H2 H3 H4 H5 | sg ds fs r0 H1 H2 H3 H4 H5 H6
         | c w r0 H1 H2 H3 | c r0 H1 H2 H3 H4]; try discriminate.
  - exact H1.
  - intros E. apply app_eq_nil in E. tauto.
  - intros E. apply app_eq_nil in E as [_ E]. apply app_eq_nil in E. easy.
Qed.

(** no token contains NUL, and a token containing a newline is that newline *)
Lemma Forall_blank_NUL l : Forall blank l -> ~ In NUL l /\ ~ In NL l.
Proof.
  rewrite Forall_forall. intros H; split; intros Hi; specialize (H _ Hi);
    destruct H as [H|H]; discriminate.
Qed.
Lemma Forall_alnum_NUL l : Forall (alnum cc) l -> ~ In NUL l /\ ~ In NL l.
Proof.
  rewrite Forall_forall. intros H; split; intros Hi; specialize (H _ Hi);
    pose proof (alnum_facts _ H); tauto.
Qed.
Lemma sign_NUL sg : (sg = [] \/ exists c, sign c /\ sg = [c]) -> ~ In NUL sg /\ ~ In NL sg.
Proof.
  intros [->|(c & [->| ->] & ->)]; simpl; unfold NUL, NL, PLUS, MINUS; intuition discriminate.
Qed.

Lemma token_chars t r : token cc t r -> ~ In NUL t /\ (In NL t -> t = [NL]).
Proof.
  intros [t0 r0 H1 H2 H3 | sg ds r0 H1 H2 H3 H4 H5 | sg ds fs r0 H1 H2 H3 H4 H5 H6
         | c w r0 H1 H2 H3 | c r0 H1 H2 H3 H4].
  - destruct (Forall_blank_NUL _ H2). tauto.
  - destruct (Forall_alnum_NUL _ (Forall_digit_alnum _ H3)), (sign_NUL _ H1).
    rewrite !in_app_iff. tauto.
  - destruct (Forall_alnum_NUL _ (Forall_digit_alnum _ H3)), (sign_NUL _ H1),
      (Forall_alnum_NUL _ (Forall_digit_alnum _ H5)).
    rewrite !in_app_iff. simpl. unfold DOT, NUL, NL in *. intuition discriminate.
  - destruct (Forall_alnum_NUL _ H2). tauto.
  - simpl. split; [intuition congruence|]. intros [->|[]]; reflexivity.
Qed.

(** tokenization and the iteration *)
Lemma tokenization_no_nul s ts : tokenization cc s ts -> ~ In NUL s.
Proof.
  induction 1 as [|t r ts Ht _ IH]; [easy|]. rewrite in_app_iff.
  destruct (token_chars _ _ Ht). tauto.
Qed.

Lemma tokenization_concat s ts : tokenization cc s ts -> concat ts = s.
Proof. induction 1 as [|t r ts Ht _ IH]; simpl; [reflexivity|now rewrite IH]. Qed.

Lemma tok_all_complete s ts : tokenization cc s ts ->
  forall fuel, length s <= fuel -> tok_all cc fuel s = Some ts.
Proof.
  induction 1 as [|t r ts Ht _ IH]; intros fuel Hf; [destruct fuel; reflexivity|].
  pose proof (token_nonempty _ _ Ht) as Hn. pose proof (token_step _ _ Ht) as Hs.
  rewrite app_length in Hf.
  assert (0 < length t) by (destruct t; [congruence|simpl; lia]).
  destruct fuel as [|fuel]; [lia|]. cbn [tok_all]. rewrite Hs.
  rewrite IH by lia. reflexivity.
Qed.

Lemma tokenization_exists s : ~ In NUL s -> exists ts, tokenization cc s ts.
Proof.
  remember (length s) as n eqn:Hn. assert (Hle : length s <= n) by lia. clear Hn.
  revert s Hle; induction n as [|n IH]; intros s Hle Hnul.
  - destruct s; [|simpl in Hle; lia]. exists []. constructor.
  - destruct (tok_step cc s) as [[t r]|] eqn:Es.
    + destruct (tok_step_sound s t r Es) as (-> & Hne & Htok).
      { destruct s as [|c s]; simpl; [discriminate|]. intros ->. apply Hnul. now left. }
      destruct (IH r) as [ts Hts].
      * rewrite app_length in Hle. destruct t; [congruence|simpl in Hle; lia].
      * rewrite in_app_iff in Hnul. tauto.
      * exists (t :: ts). now constructor.
    + exists []. destruct s as [|c s]; [constructor|].
      exfalso. revert Es. unfold tok_step. destruct (is_blank c); [discriminate|].
      destruct (if is_sign c || cc_numeric cc c then scan_number cc (c :: s) else None); [discriminate|].
      destruct (cc_alnum cc c); [discriminate|]. destruct (negb (N.eqb c NUL)); discriminate.
Qed.

Lemma tokenize_iff s ts : tokenize cc s = Some ts <-> tokenization cc s ts.
Proof.
  split; [|intros H; apply (tok_all_complete _ _ H); lia].
  unfold tokenize. generalize (length s). intros fuel. revert s ts.
  induction fuel as [|fuel IH]; intros s ts H.
  - simpl in H. destruct (tok_step cc s) as [[t r]|] eqn:Es; [discriminate|].
    inversion H; subst. destruct s as [|c s]; [constructor|].
    exfalso. revert Es. unfold tok_step. destruct (is_blank c); [discriminate|].
    destruct (if is_sign c || cc_numeric cc c then scan_number cc (c :: s) else None); [discriminate|].
    destruct (cc_alnum cc c); [discriminate|]. destruct (negb (N.eqb c NUL)); discriminate.
  - cbn [tok_all] in H. destruct (tok_step cc s) as [[t r]|] eqn:Es.
    + destruct (tok_all cc fuel r) as [ts'|] eqn:Er; [|discriminate].
      simpl in H. inversion H; subst. specialize (IH _ _ Er).
      assert (Hh : hd SP s <> NUL).
      { destruct s as [|c s]; simpl; [discriminate|]. intros ->.
        rewrite tok_step_nul in Es. inversion Es; subst.
        apply tokenization_no_nul in IH. apply IH. now left. }
      destruct (tok_step_sound s t r Es Hh) as (-> & Hne & Htok). now constructor.
    + inversion H; subst. destruct s as [|c s]; [constructor|].
      exfalso. revert Es. unfold tok_step. destruct (is_blank c); [discriminate|].
      destruct (if is_sign c || cc_numeric cc c then scan_number cc (c :: s) else None); [discriminate|].
      destruct (cc_alnum cc c); [discriminate|]. destruct (negb (N.eqb c NUL)); discriminate.
Qed.

Lemma tokenize_total s : ~ In NUL s -> exists ts, tokenize cc s = Some ts.
Proof. intros H. destruct (tokenization_exists s H) as [ts Hts]. exists ts. now apply tokenize_iff. Qed.

Lemma tokenize_none_iff s : tokenize cc s = None <-> In NUL s.
Proof.
  split.
  - intros H. destruct (in_dec N.eq_dec NUL s) as [Hi|Hi]; [exact Hi|].
    destruct (tokenize_total s Hi) as [ts Hts]. congruence.
  - intros H. destruct (tokenize cc s) as [ts|] eqn:E; [|reflexivity].
    apply tokenize_iff, tokenization_no_nul in E. tauto.
Qed.

Lemma tokenization_det s ts1 ts2 : tokenization cc s ts1 -> tokenization cc s ts2 -> ts1 = ts2.
Proof. intros H1 H2. apply tokenize_iff in H1, H2. congruence. Qed.

(** real iteration: with NUL the iterator never ends, without it ends *)
Lemma tok_iter_end s ts : tokenization cc s ts ->
  forall n, length ts <= n -> tok_iter cc n s = (ts, []).
Proof.
  induction 1 as [|t r ts Ht _ IH]; intros n Hn.
  - destruct n; reflexivity.
  - destruct n as [|n]; [simpl in Hn; lia|]. cbn [tok_iter]. rewrite (token_step _ _ Ht).
    rewrite IH by (simpl in Hn; lia). reflexivity.
Qed.

Lemma tok_iter_nul n s : In NUL s -> In NUL (snd (tok_iter cc n s)) /\
  length (fst (tok_iter cc n s)) = n.
Proof.
  revert s; induction n as [|n IH]; intros s H; [split; [exact H|reflexivity]|].
  cbn [tok_iter]. destruct s as [|c s]; [easy|].
  destruct (N.eq_dec c NUL) as [->|Hc].
  - rewrite tok_step_nul. specialize (IH (NUL :: s) H).
    destruct (tok_iter cc n (NUL :: s)); simpl in *. destruct IH; split; [assumption|lia].
  - destruct (tok_step cc (c :: s)) as [[t r]|] eqn:Es.
    + destruct (tok_step_sound _ _ _ Es Hc) as (E & Hne & Htok).
      assert (Hr : In NUL r).
      { rewrite E, in_app_iff in H. destruct (token_chars _ _ Htok). tauto. }
      specialize (IH r Hr). destruct (tok_iter cc n r); simpl in *. destruct IH; split; [assumption|lia].
    + exfalso. revert Es. unfold tok_step. destruct (is_blank c); [discriminate|].
      destruct (if is_sign c || cc_numeric cc c then scan_number cc (c :: s) else None); [discriminate|].
      destruct (cc_alnum cc c); [discriminate|]. destruct (negb (N.eqb c NUL)); discriminate.
Qed.

(** newline compositionality *)
Lemma not_at_app P a b : not_at P a -> (a = [] -> not_at P b) -> not_at P (a ++ b).
Proof. destruct a; simpl; auto. Qed.

Lemma token_nl r : token cc [NL] r.
Proof.
  apply tok_other.
  - intros [H|H]; discriminate.
  - unfold alnum. rewrite (tco_nl cc OK). discriminate.
  - discriminate.
  - intros [H|H]; discriminate.
Qed.

Lemma not_at_nl_blank r : not_at blank (NL :: r).
Proof. intros [H|H]; discriminate. Qed.
Lemma not_at_nl_alnum r : not_at (alnum cc) (NL :: r).
Proof. simpl. unfold alnum. rewrite (tco_nl cc OK). discriminate. Qed.
Lemma not_at_nl_digit r : not_at (digit cc) (NL :: r).
Proof. apply not_at_digit_alnum, not_at_nl_alnum. Qed.

Lemma token_app_nl t r b : token cc t r -> token cc t (r ++ NL :: b).
Proof.
  intros [t0 r0 H1 H2 H3 | sg ds r0 H1 H2 H3 H4 H5 | sg ds fs r0 H1 H2 H3 H4 H5 H6
         | c w r0 H1 H2 H3 | c r0 H1 H2 H3 H4].
  - apply tok_blanks; auto. apply not_at_app; auto using not_at_nl_blank.
  - apply tok_integer; auto.
    + apply not_at_app; auto using not_at_nl_digit.
    + intros (d & q & E & Hd). apply H5. destruct r0 as [|p [|e r0]]; simpl in E.
      * inversion E.
      * inversion E; subst. exfalso. exact (not_at_nl_digit [] Hd).
      * inversion E; subst. now exists d, r0.
  - apply tok_decimal; auto. apply not_at_app; auto using not_at_nl_digit.
  - apply tok_word; auto. apply not_at_app; auto using not_at_nl_alnum.
  - apply tok_other; auto. intros Hs. apply not_at_app; auto using not_at_nl_digit.
Qed.

Lemma tokenization_app_nl a ta b tb :
  tokenization cc a ta -> tokenization cc b tb ->
  tokenization cc (a ++ NL :: b) (ta ++ [NL] :: tb).
Proof.
  induction 1 as [|t r ts Ht _ IH]; intros Hb.
  - simpl. change (NL :: b) with ([NL] ++ b). constructor; [apply token_nl|exact Hb].
  - rewrite <- app_assoc. simpl. constructor; [now apply token_app_nl|auto].
Qed.

Lemma tokenize_app_nl a b ta tb :
  tokenize cc a = Some ta -> tokenize cc b = Some tb ->
  tokenize cc (a ++ NL :: b) = Some (ta ++ [NL] :: tb).
Proof. rewrite !tokenize_iff. apply tokenization_app_nl. Qed.

Lemma tokenization_tokens s ts : tokenization cc s ts ->
  Forall (fun t => t <> [] /\ ~ In NUL t /\ (In NL t -> t = [NL])) ts.
Proof.
  induction 1 as [|t r ts Ht _ IH]; constructor; auto.
  split; [eapply token_nonempty; eauto|]. eapply token_chars; eauto.
Qed.

(** the buffered iterator delivers exactly the tokens *)
Fixpoint bi_drain (n : nat) (b : bufiter) : list str :=
  match n with
  | O => []
  | S n' => match bi_next cc b with None => [] | Some (t, b') => t :: bi_drain n' b' end
  end.

Lemma bi_drain_tokens s ts : tokenization cc s ts ->
  forall n, length ts <= n -> bi_drain n (bi_init cc s) = ts.
Proof.
  unfold bi_init. induction 1 as [|t r ts Ht _ IH]; intros n Hn.
  - destruct n; reflexivity.
  - destruct n as [|n]; [simpl in Hn; lia|]. unfold bi_advance. rewrite (token_step _ _ Ht).
    cbn [bi_drain bi_next bi_head bi_rest]. f_equal. apply IH. simpl in Hn; lia.
Qed.

Lemma tokenize_nil : tokenize cc [] = Some [].
Proof. reflexivity. Qed.

End Proofs.
