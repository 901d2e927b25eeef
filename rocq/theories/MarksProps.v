(** C10: exactly when a mark reaches the verdict; C15 where there is no snapshot line (booktest/testcaserun.py:292-316, 428-463, 549-559, 764-798). *)
From Verif Require Import PyStrFacts TokenizerProps CaseRunProofs CaseRunFacts CaseRunLines ReaderProofs CaseRunProps TsetProps.
From Coq Require Import Lia.

Lemma lines_text_app a b : lines_text (a ++ b) = lines_text a ++ lines_text b.
Proof. unfold lines_text. apply flat_map_app. Qed.

(** no line was ended: nothing was counted *)
Lemma no_line_no_count cc (TOK : TokClassOK cc) refloat file point pre post s1 s2 :
  run_body cc refloat file point pre = Some s1 -> exec_all cc refloat post s1 = Some s2 -> out s2 = out s1 ->
  diffs s2 = diffs s1 /\ errors s2 = errors s1.
Proof.
  intros H1 H2 HO. destruct (run_body_reaches cc TOK _ _ _ _ _ H1) as (ps & [Hg HR] & _).
  set (T := option_map univ_newlines file) in *.
  destruct (exec_all_ok cc TOK _ refloat _ _ _ _ HR H2) as (qs & [_ HR2] & _).
  pose proof (R_acc _ _ _ _ HR) as A1. pose proof (R_acc _ _ _ _ HR2) as A2.
  destruct (asteps_recs cc T qs (asteps cc T ps a0)) as [q Eq]. fold T in A2. rewrite Eq in A2.
  assert (q = []) as ->.
  { pose proof (acc_out _ _ A1) as O1. pose proof (acc_out _ _ A2) as O2.
    rewrite map_app, lines_text_app, <- O1, HO in O2. apply (f_equal (@length char)) in O2. rewrite app_length in O2.
    destruct q as [|r q]; [reflexivity|exfalso]. cbn [map] in O2. unfold lines_text in O2. cbn [flat_map] in O2. rewrite !app_length in O2. cbn [length] in O2. lia. }
  rewrite app_nil_r in A2.
  split; [rewrite (acc_diffs _ _ A1), (acc_diffs _ _ A2)|rewrite (acc_errors _ _ A1), (acc_errors _ _ A2)]; reflexivity.
Qed.

Lemma verdict_counts ex s1 s2 : diffs s2 = diffs s1 -> errors s2 = errors s1 -> verdict ex s2 = verdict ex s1.
Proof. intros D E. unfold verdict. now rewrite D, E. Qed.

(** what was counted stays *)
Lemma verdict_stays cc (TOK : TokClassOK cc) refloat file point pre post s1 s2 ex :
  run_body cc refloat file point pre = Some s1 -> exec_all cc refloat post s1 = Some s2 ->
  (verdict ex s1 = FAIL -> verdict ex s2 = FAIL) /\ (verdict ex s1 <> OK -> verdict ex s2 <> OK).
Proof.
  intros H1 H2. destruct (C08_counts_never_decrease cc TOK refloat file point pre post s1 s2 H1 H2) as (D & E & _).
  unfold verdict. destruct (Nat.eqb_spec (errors s1) 0) as [Z1|Z1], (Nat.eqb_spec (errors s2) 0) as [Z2|Z2]; cbn [negb]; try (exfalso; lia); split; try congruence.
  - destruct (_ || _); discriminate.
  - destruct (Nat.eqb_spec (diffs s1) 0) as [Y1|Y1], (Nat.eqb_spec (diffs s2) 0) as [Y2|Y2]; cbn [negb orb]; try (exfalso; lia); try discriminate; destruct (negb ex); try discriminate; congruence.
Qed.

(** C10 exactly, for a mark of any origin (fail, diff, a differing token, tset, a failed assertion) on the unfinished line: it reaches the
    result if and only if a line is ended afterwards; otherwise the result is what it was before. *)
Theorem C10_open_marks_exact :
  forall cc, TokClassOK cc -> forall refloat file point pre post s1 s2 ex,
  run_body cc refloat file point pre = Some s1 -> exec_all cc refloat post s1 = Some s2 ->
  (line_error s1 <> None -> (verdict ex s2 = FAIL <-> out s2 <> out s1 \/ verdict ex s1 = FAIL)) /\
  (line_diff s1 <> None -> (verdict ex s2 <> OK <-> out s2 <> out s1 \/ verdict ex s1 <> OK)) /\
  (out s2 = out s1 -> verdict ex s2 = verdict ex s1).
Proof.
  intros cc TOK refloat file point pre post s1 s2 ex H1 H2.
  assert (N : out s2 = out s1 -> verdict ex s2 = verdict ex s1).
  { intros HO. destruct (no_line_no_count cc TOK _ _ _ _ _ _ _ H1 H2 HO) as [D E]. now apply verdict_counts. }
  destruct (verdict_stays cc TOK _ _ _ _ _ _ _ ex H1 H2) as [S1 S2].
  assert (K := C10_open_marks_kept_partial cc TOK refloat file point pre post s1 s2 ex H1 H2).
  assert (DEC : out s2 = out s1 \/ out s2 <> out s1) by (destruct (str_eqb_spec (out s2) (out s1)); auto).
  split; [|split; [|exact N]]; intros M; split.
  - intros V. destruct DEC as [Q|Q]; [right; now rewrite <- (N Q)|now left].
  - intros [Q|V]; [now apply K|now apply S1].
  - intros V. destruct DEC as [Q|Q]; [right; now rewrite <- (N Q)|now left].
  - intros [Q|V]; [now apply K|now apply S2].
Qed.
Print Assumptions C10_open_marks_exact.

(** C10 exactly, for calls of fail and diff: after the calls [pre] the test calls fail (diff) and then makes the calls [post]. *)
Theorem C10_marks_exact :
  forall cc, TokClassOK cc -> forall refloat file point pre post s0 s2 ex,
  run_body cc refloat file point pre = Some s0 ->
  (exec_all cc refloat (OFail :: post) s0 = Some s2 -> (verdict ex s2 = FAIL <-> out s2 <> out s0 \/ verdict ex s0 = FAIL)) /\
  (exec_all cc refloat (ODiff :: post) s0 = Some s2 -> (verdict ex s2 <> OK <-> out s2 <> out s0 \/ verdict ex s0 <> OK)).
Proof.
  intros cc TOK refloat file point pre post s0 s2 ex H0.
  assert (W : forall o s1, exec cc refloat o s0 = Some s1 -> run_body cc refloat file point (pre ++ [o]) = Some s1).
  { intros o s1 H. unfold run_body in *. rewrite exec_all_app, H0. unfold exec_all. cbn [map steps bind]. rewrite H. reflexivity. }
  split; intros H2; unfold exec_all in H2; cbn [map steps exec] in H2; cbn [bind] in H2; fold (exec_all cc refloat post) in H2.
  - pose proof (C10_open_marks_exact cc TOK refloat file point (pre ++ [OFail]) post (do_fail s0) s2 ex (W OFail _ eq_refl) H2) as [X _].
    assert (O : out (do_fail s0) = out s0 /\ verdict ex (do_fail s0) = verdict ex s0 /\ line_error (do_fail s0) <> None)
      by (unfold do_fail; destruct (line_error s0) eqn:E; cbn; rewrite ?E; repeat split; congruence).
    destruct O as (O & V & L). specialize (X L). now rewrite O, V in X.
  - pose proof (C10_open_marks_exact cc TOK refloat file point (pre ++ [ODiff]) post (do_diff s0) s2 ex (W ODiff _ eq_refl) H2) as [_ [X _]].
    assert (O : out (do_diff s0) = out s0 /\ verdict ex (do_diff s0) = verdict ex s0 /\ line_diff (do_diff s0) <> None)
      by (unfold do_diff; destruct (line_diff s0) eqn:E; cbn; rewrite ?E; repeat split; congruence).
    destruct O as (O & V & L). specialize (X L). now rewrite O, V in X.
Qed.
Print Assumptions C10_marks_exact.
(** fail on a line that is never ended, and on one that is ended by the next call *)
Example C10_exact_example :
  (exists s0 s2, demo (Some (lines_text [lit "a"; lit "b"])) [OTln (lit "a")] = Some s0 /\
     exec_all ascii_class no_float [OFail; OT (lit "b")] s0 = Some s2 /\ out s2 = out s0 /\ verdict true s2 = OK) /\
  (exists s0 s2, demo (Some (lines_text [lit "a"; lit "b"])) [OTln (lit "a")] = Some s0 /\
     exec_all ascii_class no_float [OFail; OTln (lit "b")] s0 = Some s2 /\ out s2 <> out s0 /\ verdict true s0 = OK /\ verdict true s2 = FAIL).
Proof.
  split; eexists; eexists; (split; [vm_compute; reflexivity|]); (split; [vm_compute; reflexivity|]); split;
    first [vm_compute; reflexivity|vm_compute; discriminate|split; vm_compute; reflexivity].
Qed.

(** ** C15 where the snapshot has no line (booktest/testcaserun.py:764-798) *)

Lemma unchecked_tokens ts : forall cc s, line_diff s = None -> line_error s = None ->
  let s' := fold_left (feed_token cc false) ts s in diffs s' = diffs s /\ errors s' = errors s /\ line_diff s' = None /\ line_error s' = None.
Proof.
  induction ts as [|t ts IH]; intros cc s D E; cbn [fold_left]; [auto|].
  assert (S1 : let s' := feed_token cc false s t in diffs s' = diffs s /\ errors s' = errors s /\ line_diff s' = None /\ line_error s' = None).
  { unfold feed_token. destruct (next_exp_token cc (rd s)) as [e r]. rewrite andb_false_r. destruct (str_eqb t [NL]); cbn; [|auto].
    unfold commit_line. cbn. rewrite D, E. cbn. auto. }
  cbv zeta in S1. destruct S1 as (A & B & C & F). destruct (IH cc _ C F) as (A' & B' & C' & F'). cbv zeta. rewrite A', B', A, B. auto.
Qed.
Lemma iln_unmarked cc text s s' : op_iln cc text s = Some s' -> line_diff s = None -> line_error s = None ->
  diffs s' = diffs s /\ errors s' = errors s /\ line_diff s' = None /\ line_error s' = None.
Proof.
  intros H D E. unfold op_iln in H. apply bind_Some in H as (s1 & H1 & H2). unfold feed in H1, H2.
  destruct (tokenize cc text) as [ts|]; [|discriminate]. destruct (tokenize cc [NL]) as [tn|]; [|discriminate].
  injection H1 as <-. injection H2 as <-. destruct (unchecked_tokens ts cc s D E) as (A & B & C & F). cbv zeta in *.
  destruct (unchecked_tokens tn cc _ C F) as (A' & B' & C' & F'). cbv zeta in *. rewrite A', B', A, B. auto.
Qed.

(** Without a snapshot, or after its last line, tset is iln of each item: it compares nothing and marks nothing. With [C15_tset_partial]
    (the cursor on a line of the snapshot) this says what tset does everywhere. *)
Theorem C15_no_line_exact :
  forall cc, TokClassOK cc -> forall refloat file point pre s0 items prefix,
  run_body cc refloat file point pre = Some s0 ->
  (forall f, file = Some f -> length (snapshot_lines f) <= cursor s0) ->
  exec cc refloat (OTset items prefix) s0 = exec_all cc refloat (map (fun i => OIln (prefix ++ i)) items) s0 /\
  forall s1, exec cc refloat (OTset items prefix) s0 = Some s1 -> line_diff s0 = None -> line_error s0 = None ->
    diffs s1 = diffs s0 /\ errors s1 = errors s0 /\ line_diff s1 = None /\ line_error s1 = None.
Proof.
  intros cc TOK refloat file point pre s0 items prefix H HC.
  destruct (run_body_reaches cc TOK _ _ _ _ _ H) as (ps & [_ HR] & _). set (T := option_map univ_newlines file) in *.
  assert (L : r_line (rd s0) = None).
  { rewrite (R_rd _ _ _ _ HR), r_line_rpos. destruct file as [f|]; [|reflexivity]. cbn [option_map] in T. subst T. cbn [line_at].
    apply nth_error_None. rewrite rlines_snapshot. specialize (HC f eq_refl).
    unfold cursor in HC. rewrite (R_rd _ _ _ _ HR), r_num_rpos in HC. lia. }
  assert (E : exec cc refloat (OTset items prefix) s0 = exec_all cc refloat (map (fun i => OIln (prefix ++ i)) items) s0).
  { cbn [exec]. unfold op_tset. rewrite L. clear. unfold exec_all. revert s0. induction items as [|i items IH]; intros s0; [reflexivity|].
    cbn [tset_items map steps exec]. destruct (op_iln cc (prefix ++ i) s0) as [s|]; [|reflexivity]. cbn [bind]. apply IH. }
  split; [exact E|]. intros s1 X D0 E0. rewrite E in X. clear -X D0 E0. revert s0 X D0 E0. unfold exec_all.
  induction items as [|i items IH]; intros s0 X D0 E0; cbn [map steps exec] in X; [injection X as <-; auto|].
  apply bind_Some in X as (s & X1 & X2). destruct (iln_unmarked _ _ _ _ X1 D0 E0) as (A & B & C & F).
  destruct (IH s X2 C F) as (A' & B' & C' & F'). rewrite A', B', A, B. auto.
Qed.
Print Assumptions C15_no_line_exact.
Example C15_no_line_example : exists s0 s1,
  demo (Some (lines_text [lit "x"])) [OTln (lit "x")] = Some s0 /\ length (snapshot_lines (lines_text [lit "x"])) <= cursor s0 /\
  line_diff s0 = None /\ line_error s0 = None /\
  exec ascii_class no_float (OTset [lit "b"; lit "a"] (lit " * ")) s0 = Some s1 /\ out s1 = lines_text [lit "x"; lit " * b"; lit " * a"] /\ verdict true s1 = OK.
Proof. eexists. eexists. split; [vm_compute; reflexivity|]. split; [vm_compute; lia|]. do 2 (split; [reflexivity|]). split; [vm_compute; reflexivity|]. split; reflexivity. Qed.
