(** C72: an OK verdict vouches for everything that was compared. C73: where anchors lead. C74: the old value in ifloatln
    (booktest/testcaserun.py). *)
From Verif Require Import PyStrFacts TokenizerProps TokenizerSpec TokenizerProofs CaseRunModel CaseRunSpec ReaderProofs CaseRunProofs CaseRunFacts CaseRunLines CaseRunProps SectionProofs
  CheckedModel CheckedProofs.
From Coq Require Import Lia.

(** Every finished line was compared with one line of the snapshot, token by token; a line that is not marked has the tokens of
    that line wherever a compared text was written. *)
Theorem C72_lines_compared :
  forall cc, TokClassOK cc -> forall refloat f point ops s,
  placed true false ops = true -> run_body cc refloat (Some f) point ops = Some s ->
  exists tl recs, ops_feed cc [] ops tl /\ accounts recs s /\
    Forall2 (line_compared cc (snapshot_lines f)) recs (token_lines tl).
Proof.
  intros cc TOK refloat f point ops s HP H. destruct (run_body_feeds cc TOK refloat f point ops s HP H) as (a & tl & HR & HI & HF).
  exists tl, (a_recs a). split; [exact HF|]. split; [apply (R_acc _ _ _ _ HR)|]. rewrite <- rlines_snapshot. apply (I_recs _ _ _ _ HI).
Qed.
Print Assumptions C72_lines_compared.

(** If the verdict is OK, this holds of every finished line. *)
Lemma ok_compared cc (TOK : TokClassOK cc) refloat f point ops s :
  placed true false ops = true -> run_body cc refloat (Some f) point ops = Some s -> verdict true s = OK ->
  exists tl, ops_feed cc [] ops tl /\ forall l, In l (token_lines tl) ->
    exists k, forall j t, nth_error l j = Some (true, t) -> expected_token cc (snapshot_lines f) k j = Some t.
Proof.
  intros HP H HV. destruct (C72_lines_compared cc TOK refloat f point ops s HP H) as (tl & recs & HF & HA & HC). exists tl. split; [exact HF|].
  apply (verdict_rule _ _ true HA) in HV as (_ & HD & _). intros l Hl.
  assert (G : exists r, In r recs /\ line_compared cc (snapshot_lines f) r l).
  { clear - HC Hl. induction HC as [|r l' recs ll Hr HC IH]; [easy|]. destruct Hl as [<-|Hl]; [exists r; split; [now left|exact Hr]|].
    destruct (IH Hl) as (r' & I & C). exists r'. split; [now right|exact C]. }
  destruct G as (r & Hr & _ & k & _ & C). exists k. apply C. destruct (rec_differs r) eqn:E; [|reflexivity].
  assert (existsb rec_differs recs = true) by (apply existsb_exists; eauto). congruence.
Qed.

(** a line of the snapshot that has the given tokens has their text *)
Lemma tokens_line cc (TOK : TokClassOK cc) (ls : list str) k (q : list str) :
  Forall (fun x : str => ~ In NL x) ls -> Forall (fun t => t <> [NL]) q ->
  (forall j, j < length q -> expected_token cc ls k j = Some (nth j q [])) -> expected_token cc ls k (length q) = Some [NL] ->
  nth_error ls k = Some (concat q).
Proof.
  intros Hls Hq Hall Hend. unfold expected_token in Hend. destruct (nth_error ls k) as [l'|] eqn:El; [|discriminate]. f_equal.
  cbn [option_map] in Hend. inversion Hend as [Hend'].
  assert (Hl' : ~ In NL l') by (rewrite Forall_forall in Hls; apply Hls; eapply nth_error_In; eauto).
  destruct (in_dec N.eq_dec NUL l') as [Hnul|Hnul].
  { exfalso. unfold line_token in Hend'. destruct (tok_iter_nul cc TOK (S (length q)) l' Hnul) as [_ Hlen].
    pose proof (tok_iter_no_nl cc TOK (S (length q)) l' Hl') as Hno. rewrite Forall_forall in Hno. apply (Hno [NL]); [|reflexivity].
    rewrite <- Hend' at 1. apply nth_In. rewrite Hlen. lia. }
  destruct (tokenize_total cc TOK l' Hnul) as [ts' Hts']. pose proof (tokens_no_nl cc TOK l' ts' Hts' Hl') as Hno'.
  assert (Htok : forall j, line_token cc l' j = nth j ts' [NL]) by (intros; now apply line_token_nth).
  rewrite Htok in Hend'.
  assert (Hle : length ts' <= length q).
  { destruct (Nat.le_gt_cases (length ts') (length q)) as [|Hgt]; [assumption|exfalso].
    rewrite Forall_forall in Hno'. apply (Hno' [NL]); [|reflexivity]. rewrite <- Hend' at 1. now apply nth_In. }
  assert (Heq : ts' = q).
  { assert (Hj : forall j, j < length q -> nth j ts' [NL] = nth j q []).
    { intros j Hj. specialize (Hall j Hj). unfold expected_token in Hall. rewrite El in Hall. cbn [option_map] in Hall. rewrite Htok in Hall. congruence. }
    assert (Hlen : length ts' = length q).
    { destruct (Nat.lt_ge_cases (length ts') (length q)) as [Hlt|]; [exfalso|lia]. specialize (Hj _ Hlt). rewrite nth_overflow in Hj by lia.
      rewrite Forall_forall in Hq. apply (Hq [NL]); [|reflexivity]. rewrite Hj. now apply nth_In. }
    apply (nth_ext ts' q [NL] []); [exact Hlen|]. intros j Hjl. apply Hj. lia. }
  subst ts'. symmetry. exact (tokenize_concat cc TOK l' q Hts').
Qed.

(** a finished line all of whose tokens were compared is a line of the snapshot *)
Lemma checked_line cc (TOK : TokClassOK cc) f k (q : list str) : Forall (fun t => t <> [NL]) q ->
  (forall j t, nth_error (map (fun t : str => (true, t)) (q ++ [[NL]])) j = Some (true, t) -> expected_token cc (snapshot_lines f) k j = Some t) ->
  In (concat q) (snapshot_lines f).
Proof.
  intros Hq H. apply (nth_error_In _ k). apply (tokens_line cc TOK); auto using snapshot_lines_no_nl.
  - intros j Hj. apply H. rewrite map_app, nth_error_app1 by (rewrite map_length; lia). rewrite nth_error_map, (nth_error_nth' q []) by lia. reflexivity.
  - apply H. rewrite map_app, nth_error_app2 by (rewrite map_length; lia). rewrite map_length, Nat.sub_diag. reflexivity.
Qed.

(** The lines that a call writes from its start to their end, all of it compared. *)
Definition checked_lines (o : op) : list str :=
  match o with
  | OTln x | OAnchorln x => [x]
  | OHeader h => [h; []]
  | OH level title => [repeat HASH level ++ [SP] ++ title; []]
  | OKeyvalueln k v => [k ++ [SP] ++ v]
  | OTlist items pre => map (fun i => pre ++ i) items
  | OTdf cols _ => [bar ++ flat_map (fun col => repeat MINUS (col_width col) ++ bar) cols]
  | OTmsln true msg _ => [msg]
  | _ => []
  end.
Lemma in_token_lines a (q : list (bool * str)) c (b : list (bool * str)) : open_tokens a = [] -> Forall (fun x => snd x <> [NL]) q ->
  In (q ++ [(c, [NL])]) (token_lines (a ++ q ++ (c, [NL]) :: b)).
Proof.
  intros Ha Hq. unfold token_lines.
  assert (G : forall cur r, open_aux cur a = [] -> In (q ++ [(c, [NL])]) (token_lines_aux [] r) -> In (q ++ [(c, [NL])]) (token_lines_aux cur (a ++ r))).
  { clear Ha. induction a as [|[c' t] a IH]; intros cur r E Hr; cbn [app open_aux token_lines_aux] in *.
    - subst cur. exact Hr.
    - destruct (str_eqb t [NL]); [right|]; now apply IH. }
  apply G; [exact Ha|].
  assert (K : forall cur, In (cur ++ q ++ [(c, [NL])]) (token_lines_aux cur (q ++ (c, [NL]) :: b))).
  { clear G. induction Hq as [|[c' t] q Ht Hq IH]; intros cur; cbn [app token_lines_aux].
    - change (str_eqb [NL] [NL]) with true. cbv iota. now left.
    - cbn [snd] in Ht. destruct (str_eqb_spec t [NL]) as [->|_]; [now elim Ht|]. specialize (IH (cur ++ [(c', t)])). rewrite <- app_assoc in IH. exact IH. }
  apply (K []).
Qed.
Lemma ops_feed_mid cc pre : forall a o post b, ops_feed cc a (pre ++ o :: post) b ->
  exists m p ts r, ops_feed cc a pre m /\ op_feeds cc (begun m) o p /\ feed_tokens cc p = Some ts /\ b = m ++ ts ++ r.
Proof.
  induction pre as [|o' pre IH]; intros a o post b H; inversion H as [|? ? ? p ts ? HF HT HR]; subst.
  - assert (P : forall x ops y, ops_feed cc x ops y -> exists r, y = x ++ r).
    { clear. intros x ops y H. induction H as [|a o r p ts b F T H IH]; [exists []; now rewrite app_nil_r|]. destruct IH as [r' ->]. exists (ts ++ r'). now rewrite app_assoc. }
    destruct (P _ _ _ HR) as [r ->]. exists a, p, ts, r. split; [constructor|]. split; [exact HF|]. split; [exact HT|]. now rewrite app_assoc.
  - destruct (IH _ _ _ _ HR) as (m & p' & ts' & r & F & O & T & E). exists m, p', ts', r. split; [econstructor; eauto|auto].
Qed.
Lemma ops_feed_start cc (TOK : TokClassOK cc) pre : forall a b at_start, ops_feed cc a pre b -> (at_start = true -> open_tokens a = []) ->
  fold_left start_after pre at_start = true -> open_tokens b = [].
Proof.
  induction pre as [|o pre IH]; intros a b at_start H Hat HS; inversion H as [|? ? ? p ts ? HF HT HR]; subst; cbn [fold_left] in HS; [auto|].
  apply (IH _ _ (start_after at_start o) HR); [|exact HS]. apply (start_after_ok cc TOK _ o p ts a at_start HF HT Hat).
Qed.

Theorem C72_ok_vouches :
  forall cc, TokClassOK cc -> forall refloat f point pre o post s,
  placed true false (pre ++ o :: post) = true -> run_body cc refloat (Some f) point (pre ++ o :: post) = Some s -> verdict true s = OK ->
  fold_left start_after pre true = true -> Forall (fun l => ~ In NL l) (checked_lines o) ->
  incl (checked_lines o) (snapshot_lines f).
Proof.
  intros cc TOK refloat f point pre o post s HP H HV HS HL. destruct (ok_compared cc TOK refloat f point _ s HP H HV) as (tl & HF & HC).
  destruct (ops_feed_mid cc pre _ _ _ _ HF) as (m & p & ts & r & F1 & F2 & F3 & E). pose proof (ops_feed_start cc TOK pre [] m true F1 (fun _ => eq_refl) HS) as HO.
  subst tl.
  assert (ONE : forall p1 (xs : list str) p2, p = p1 ++ map (fun x => (true, x)) xs ++ (true, [NL]) :: p2 ->
            (forall us, feed_tokens cc p1 = Some us -> open_tokens (m ++ us) = []) -> ~ In NL (concat xs) -> In (concat xs) (snapshot_lines f)).
  { intros p1 xs p2 -> HU Hn. rewrite !feed_tokens_app in F3. destruct (feed_tokens cc p1) as [us|] eqn:E1; [|discriminate].
    destruct (feed_tokens cc (map (fun x => (true, x)) xs)) as [vs|] eqn:E2; [|discriminate]. cbn [feed_tokens] in F3. rewrite (tokenize_NL cc TOK) in F3.
    destruct (feed_tokens cc p2) as [ws|] eqn:E3; [|discriminate]. inversion F3 as [F4]. clear F3. specialize (HU us eq_refl).
    assert (V : exists q : list str, vs = map (fun t => (true, t)) q /\ Forall (fun t => t <> [NL]) q /\ concat q = concat xs).
    { clear - E2 Hn TOK. revert vs E2 Hn. induction xs as [|x xs IH]; intros vs E2 Hn; cbn [map feed_tokens concat] in *.
      - inversion E2. exists []. repeat split. constructor.
      - destruct (tokenize cc x) as [tx|] eqn:ET; [|discriminate]. destruct (feed_tokens cc _) as [vs'|]; [|discriminate]. inversion E2; subst.
        rewrite in_app_iff in Hn. destruct (IH vs' eq_refl) as (q & -> & Q & C); [tauto|]. exists (tx ++ q). rewrite map_app. split; [reflexivity|]. split.
        + apply Forall_app. split; [|exact Q]. apply (tokens_no_nl cc TOK x); [exact ET|tauto].
        + now rewrite concat_app, C, (tokenize_concat cc TOK x tx ET). }
    destruct V as (q & -> & Q & C). rewrite <- C.
    destruct (HC (map (fun t => (true, t)) q ++ [(true, [NL])])) as [k Hk].
    - rewrite <- F4. rewrite <- !app_assoc. cbn [map app]. rewrite (app_assoc m us). apply in_token_lines; [exact HU|]. rewrite Forall_map. exact Q.
    - apply (checked_line cc TOK f k q Q). intros j t Hj. apply Hk. rewrite map_app in Hj. exact Hj. }
  assert (HD : forall p1 h, p = p1 ++ line_feed true h ++ line_feed true [] -> (forall us, feed_tokens cc p1 = Some us -> open_tokens (m ++ us) = []) -> ~ In NL h -> incl [h; []] (snapshot_lines f)).
  { intros p1 h Ep HU Hn x [<-|[<-|[]]].
    - rewrite <- (app_nil_r h). apply (ONE p1 [h] (line_feed true [])); [exact Ep|exact HU|]. cbn [concat]. now rewrite app_nil_r.
    - apply (ONE (p1 ++ line_feed true h) [[]] []); [now rewrite <- app_assoc|intros us; apply (line_feed_end cc TOK)|easy]. }
  assert (NIL : forall us, feed_tokens cc [] = Some us -> open_tokens (m ++ us) = []) by (intros us Hu; inversion Hu; now rewrite app_nil_r).
  assert (HB : forall c us, feed_tokens cc (if begun m then [(c, [NL])] else []) = Some us -> open_tokens (m ++ us) = []).
  { intros c us Hu. destruct (begun m); [|now apply NIL]. cbn [feed_tokens] in Hu. rewrite (tokenize_NL cc TOK) in Hu. inversion Hu; subst. apply open_snoc_nl. }
  destruct o as [x|x|x|x| | |x|x|h|lv ti|k v|items pr|items pr|cols rows|v u|[|] msg v|c' m'|ti c' m'|n|ok bb e]; cbn [checked_lines op_feeds] in *; try solve [intros ? []].
  - intros y [<-|[]]. subst p. inversion HL; subst. rewrite <- (app_nil_r x). apply (ONE [] [x] []); auto. cbn [concat]. now rewrite app_nil_r.
  - intros y [<-|[]]. subst p. inversion HL; subst. rewrite <- (app_nil_r x). apply (ONE [] [x] []); auto. cbn [concat]. now rewrite app_nil_r.
  - destruct F2 as [c Ep]. inversion HL; subst. now apply (HD _ h eq_refl (HB c)).
  - destruct F2 as [c Ep]. inversion HL; subst. now apply (HD _ _ eq_refl (HB c)).
  - intros y [<-|[]]. subst p. pose proof (Forall_inv HL) as Hn. assert (C : concat [k; [SP] ++ v] = k ++ [SP] ++ v) by (cbn [concat]; now rewrite app_nil_r).
    rewrite <- C. apply (ONE [] [k; [SP] ++ v] []); [reflexivity|exact NIL|]. rewrite C. exact Hn.
  - intros y Hy. rewrite Forall_forall in HL. pose proof (HL y Hy) as Hn. apply in_map_iff in Hy as (i & <- & Hi). apply in_split in Hi as (i1 & i2 & ->).
    rewrite <- (app_nil_r (pr ++ i)). apply (ONE (flat_map (fun i => line_feed true (pr ++ i)) i1) [pr ++ i] (flat_map (fun i => line_feed true (pr ++ i)) i2)).
    + rewrite F2, flat_map_app. reflexivity.
    + intros us Hu. destruct i1 as [|i0 i1]; [now apply NIL|]. apply (lines_feed_end cc TOK (fun i => pr ++ i) true (i0 :: i1) us m); [discriminate|exact Hu].
    + cbn [concat]. now rewrite app_nil_r.
  - intros y [<-|[]]. inversion HL; subst. match goal with |- In ?x _ => rewrite <- (app_nil_r x) end.
    eapply (ONE (line_feed false _) [_] _); [reflexivity| |cbn [concat]; now rewrite app_nil_r].
    intros us Hu. apply (line_feed_end cc TOK [] false _ us m Hu).
  - intros y [<-|[]]. subst p. inversion HL; subst. rewrite <- (app_nil_r msg). apply (ONE [] [msg] []); auto. cbn [concat]. now rewrite app_nil_r.
Qed.
Print Assumptions C72_ok_vouches.
