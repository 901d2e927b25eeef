(** Properties of booktest/testcaserun.py: output, differences, verdict, report, seeking.
    A test body is a list of API calls [ops]; [run_body cc refloat file point ops] runs it
    against the snapshot [file] (None: no snapshot). *)
From Verif Require Import CaseRunLines TokenizerProps.

Definition no_float (t : str) : option str := None.
Definition demo (file : option str) (ops : list op) : option state :=
  run_body ascii_class no_float file true ops.

(** C04. The writing calls return exactly when the text has no NUL character. *)
Theorem C04_write_returns_iff_no_nul :
  forall cc, TokClassOK cc -> forall refloat x s,
  (exec cc refloat (OT x) s = None <-> In 0%N x) /\
  (exec cc refloat (OI x) s = None <-> In 0%N x) /\
  (exec cc refloat (OTln x) s = None <-> In 0%N x) /\
  (exec cc refloat (OIln x) s = None <-> In 0%N x).
Proof.
  intros cc TOK refloat x s. change 0%N with NUL. cbn [exec]. unfold op_t, op_i, op_tln, op_iln, feed.
  pose proof (tokenize_none_iff cc TOK x) as H. rewrite (tokenize_NL cc TOK).
  destruct (tokenize cc x) as [ts|]; cbn [bind].
  - assert (Hn : ~ In NUL x) by (intros Hn; apply H in Hn; discriminate).
    repeat split; intros; solve [discriminate|contradiction].
  - assert (Hn : In NUL x) by (apply H; reflexivity).
    repeat split; auto.
Qed.
Print Assumptions C04_write_returns_iff_no_nul.
Example C04_write_example : exists s, run_body ascii_class no_float (Some (lit "a")) false [] = Some s /\
  exec ascii_class no_float (OTln (lit "ab")) s <> None /\ exec ascii_class no_float (OIln (lit "a" ++ [NUL])) s = None.
Proof. eexists. split; [vm_compute; reflexivity|]. split; [vm_compute; discriminate|vm_compute; reflexivity]. Qed.

(** The whole API returns on NUL-free texts. *)
Theorem C04_api_total_partial :
  forall cc, TokClassOK cc -> forall refloat file point ops,
  Forall (fun o => Forall nul_free (op_texts o)) ops ->
  (forall x y, refloat x = Some y -> nul_free y) ->
  exists s, run_body cc refloat file point ops = Some s.
Proof. exact run_body_total. Qed.
Print Assumptions C04_api_total_partial.
Example C04_api_example : Forall (fun o => Forall nul_free (op_texts o)) [OH 1 (lit "t"); OTln (lit "x 1.5"); OIln (lit "y")] /\
  exists s, run_body ascii_class no_float (Some (lit "# t")) false [OH 1 (lit "t"); OTln (lit "x 1.5"); OIln (lit "y")] = Some s.
Proof. split; [repeat constructor; vm_compute; intuition discriminate|eexists; vm_compute; reflexivity]. Qed.

(** C05. Output file plus unfinished line = what the calls wrote. *)
Theorem C05_output_is_what_was_written :
  forall cc, TokClassOK cc -> forall refloat file point ops s,
  run_body cc refloat file point ops = Some s ->
  written cc [] ops (out s ++ out_line s) /\ ~ In NL (out_line s) /\
  (out s = [] \/ exists x, out s = x ++ [NL]).
Proof. exact run_body_written. Qed.
Print Assumptions C05_output_is_what_was_written.

Theorem C05_output_independent_of_snapshot :
  forall cc, TokClassOK cc -> forall refloat f1 f2 p1 p2 ops s1 s2,
  forallb snapshot_free ops = true ->
  run_body cc refloat f1 p1 ops = Some s1 -> run_body cc refloat f2 p2 ops = Some s2 ->
  out s1 = out s2 /\ out_line s1 = out_line s2.
Proof. exact run_body_snapshot_free. Qed.
Print Assumptions C05_output_independent_of_snapshot.

Example C05_example :
  let ops := [OH 1 (lit "a"); OTset [lit "y"; lit "x"] (lit "* "); OAnchor (lit "k"); OI (lit " z")] in
  forallb snapshot_free ops = true /\
  (exists s, demo (Some (lines_text [lit "k"; lit "# b"; lit "* x"])) ops = Some s /\
     out s = lines_text [lit "# a"; []; lit "* y"; lit "* x"] /\ out_line s = lit "k z") /\
  (exists s, demo None ops = Some s /\
     out s = lines_text [lit "# a"; []; lit "* y"; lit "* x"] /\ out_line s = lit "k z").
Proof. split; [reflexivity|]. split; eexists; (split; [vm_compute; reflexivity|split; reflexivity]). Qed.

(** C06. Which lines differ, and where. *)
Theorem C06_line_differs_iff :
  forall cc, TokClassOK cc -> forall refloat f point ops s,
  forallb simple ops = true -> run_body cc refloat (Some f) point ops = Some s ->
  exists tl recs, ops_tokens cc ops = Some tl /\ accounts recs s /\
    length recs = length (token_lines tl) /\
    forall n l, nth_error (token_lines tl) n = Some l ->
    exists r, nth_error recs n = Some r /\ lr_text r ++ [NL] = concat (map snd l) /\
      lr_exp r = nth_error (snapshot_lines f) n /\ lr_err r = None /\
      (forall p, lr_diff r = Some p <-> first_difference cc (snapshot_lines f) n l p) /\
      (rec_differs r = true <-> line_differs cc (snapshot_lines f) n l).
Proof. exact simple_line_run. Qed.
Print Assumptions C06_line_differs_iff.

Theorem C06_no_snapshot_no_difference :
  forall cc, TokClassOK cc -> forall refloat point ops s,
  forallb simple ops = true -> run_body cc refloat None point ops = Some s ->
  diffs s = 0 /\ errors s = 0.
Proof. exact simple_line_run_none. Qed.
Print Assumptions C06_no_snapshot_no_difference.

Example C06_example :
  let ops := [OTln (lit "same"); OT (lit "a b"); OIln (lit " 17"); OT (lit "a"); OIln []; OTln (lit "new")] in
  forallb simple ops = true /\
  exists s, demo (Some (lines_text [lit "same"; lit "a b 99"; lit "z"])) ops = Some s /\
    diffs s = 2 /\ verdict true s = DIFF.
Proof. split; [reflexivity|]. eexists. split; [vm_compute; reflexivity|split; reflexivity]. Qed.

(** C07. Unchecked content never marks anything. *)
Theorem C07_unchecked_ok :
  forall cc, TokClassOK cc -> forall refloat f point ops s,
  forallb unchecked_op ops = true -> run_body cc refloat (Some f) point ops = Some s ->
  diffs s = 0 /\ errors s = 0 /\ line_diff s = None /\ line_error s = None /\ verdict true s = OK.
Proof.
  intros cc TOK refloat f point ops s Hu H.
  destruct (unchecked_run cc TOK refloat (Some f) point ops s Hu H) as (H1 & H2 & H3 & H4).
  repeat (split; [assumption|]). unfold verdict. now rewrite H1, H2.
Qed.
Print Assumptions C07_unchecked_ok.

Example C07_example :
  let ops := [OIln (lit "x"); OSeek (fun l => str_eqb l (lit "zz")) 0 None; OIfloatln (lit "1.250") None;
              OAssertln true None; OI (lit "open")] in
  forallb unchecked_op ops = true /\
  exists s, demo (Some (lines_text [lit "k"; lit "zz"])) ops = Some s /\ verdict true s = OK.
Proof. split; [reflexivity|]. eexists. split; [vm_compute; reflexivity|reflexivity]. Qed.

(** C08. The verdict, from the finished lines; [ex] = the snapshot exists at the end. *)
Theorem C08_verdict_rule :
  forall cc, TokClassOK cc -> forall refloat file point ops s ex,
  run_body cc refloat file point ops = Some s ->
  exists recs, accounts recs s /\
  (verdict ex s = FAIL <-> existsb rec_fails recs = true) /\
  (verdict ex s = DIFF <-> existsb rec_fails recs = false /\
                           (existsb rec_differs recs = true \/ ex = false)) /\
  (verdict ex s = OK <-> existsb rec_fails recs = false /\
                         existsb rec_differs recs = false /\ ex = true).
Proof.
  intros cc TOK refloat file point ops s ex H.
  destruct (run_body_accounts cc TOK _ _ _ _ _ H) as [recs Ha].
  exists recs. split; [exact Ha|]. now apply verdict_rule.
Qed.
Print Assumptions C08_verdict_rule.

Theorem C08_counts_never_decrease :
  forall cc, TokClassOK cc -> forall refloat file point ops1 ops2 s1 s2,
  run_body cc refloat file point ops1 = Some s1 ->
  exec_all cc refloat ops2 s1 = Some s2 ->
  diffs s1 <= diffs s2 /\ errors s1 <= errors s2 /\ line_number s1 <= line_number s2 /\
  (exists x, out s2 = out s1 ++ x) /\ (exists x, rep s2 = rep s1 ++ x).
Proof. exact exec_all_monotone. Qed.
Print Assumptions C08_counts_never_decrease.

Example C08_example :
  exists s, demo (Some (lines_text [lit "a"])) [OTln (lit "b"); OFail; OTln (lit "c")] = Some s /\
    diffs s = 2 /\ errors s = 1 /\ verdict true s = FAIL.
Proof. eexists. split; [vm_compute; reflexivity|repeat split]. Qed.

(** C09. A failed assertion, tmsln over its limit, and an exception fail the test. *)
Theorem C09_failed_assertion_fails :
  forall cc, TokClassOK cc -> forall refloat file point ops o s ex,
  In o ops -> failing_op o = true -> run_body cc refloat file point ops = Some s ->
  verdict ex s = FAIL.
Proof. exact failing_run. Qed.
Print Assumptions C09_failed_assertion_fails.

(** a body that raises after the calls [ops]; the message and traceback must be free of NUL
    characters (else the run does not end, C04) *)
Theorem C09_exception_fails :
  forall cc, TokClassOK cc -> forall refloat file point ops s msg tb ex,
  run_body cc refloat file point ops = Some s -> nul_free msg -> nul_free tb ->
  exists s', exec_all cc refloat (exception_ops msg tb) s = Some s' /\ verdict ex s' = FAIL.
Proof.
  intros cc TOK refloat file point ops s msg tb ex H Hm Ht.
  destruct (tokenize_total cc TOK msg Hm) as [tm Em]. destruct (tokenize_total cc TOK tb Ht) as [tt Et].
  assert (E : exists s1, exec_all cc refloat [OIln []; OFail] s = Some s1).
  { unfold exec_all. cbn [map steps exec]. unfold op_iln, feed.
    rewrite (tokenize_nil cc), (tokenize_NL cc TOK). cbn [bind]. eauto. }
  destruct E as [s1 E1].
  assert (E2 : exists s2, exec_all cc refloat [OIln msg; OIln tb] s1 = Some s2).
  { unfold exec_all. cbn [map steps exec]. unfold op_iln, feed.
    rewrite Em, Et, (tokenize_NL cc TOK). cbn [bind]. eauto. }
  destruct E2 as [s2 E2]. exists s2.
  assert (E3 : exec_all cc refloat (exception_ops msg tb) s = Some s2).
  { change (exception_ops msg tb) with ([OIln []; OFail] ++ [OIln msg; OIln tb]).
    rewrite exec_all_app, E1. exact E2. }
  split; [exact E3|].
  assert (H1 : run_body cc refloat file point ((ops ++ [OIln []]) ++ [OFail]) = Some s1).
  { unfold run_body in *. rewrite <- app_assoc, exec_all_app, H. exact E1. }
  apply (marked_run cc TOK refloat file point (ops ++ [OIln []]) [OIln msg; OIln tb] OFail s1 s2 ex);
    auto.
  destruct (run_body_reaches cc TOK _ _ _ _ _ H1) as (ps & [_ HR] & _).
  destruct (exec_all_ok cc TOK _ refloat _ _ _ _ HR E2) as (qs & [Hg HR2] & Hr2).
  (* the last line of the new output is finished, so out grew *)
  intros Heq. apply (f_equal (@length char)) in Heq.
  pose proof (Rel_text cc _ _ _ HR2) as T2. rewrite asteps_text, <- (Rel_text cc _ _ _ HR) in T2.
  pose proof (acc_number _ _ (R_acc _ _ _ _ HR)) as N1.
  pose proof (acc_number _ _ (R_acc _ _ _ _ HR2)) as N2.
  pose proof (acc_no_nl _ _ (R_acc _ _ _ _ HR2)) as [_ Hnl].
  pose proof (runs_written cc _ _ _ _ Hr2) as Hw.
  assert (Hc : cur_ok (asteps cc (option_map univ_newlines file) ps a0)).
  { unfold cur_ok. rewrite <- (R_cur _ _ _ _ HR). apply (acc_no_nl _ _ (R_acc _ _ _ _ HR)). }
  specialize (Hw Hc Hg).
  inversion Hw as [|? ? ? w1 ? W1 R1]; subst. inversion R1 as [|? ? ? w2 ? W2 R2]; subst.
  inversion R2; subst. cbn [op_writes] in W1, W2. subst w1 w2.
  match goal with E : _ = _ ++ prims_text qs |- _ => rename E into Ew end.
  rewrite <- !app_assoc in Ew. apply app_inv_head in Ew. rewrite <- Ew in T2.
  destruct (split_unique (out s2) (out_line s2)
     ((out s1 ++ out_line s1) ++ msg ++ [NL] ++ tb ++ [NL]) []) as [Ho _].
  - apply (run_body_written cc TOK refloat file point (ops ++ exception_ops msg tb)).
    unfold run_body in *. rewrite exec_all_app, H. exact E3.
  - right. exists ((out s1 ++ out_line s1) ++ msg ++ [NL] ++ tb). now rewrite <- !app_assoc.
  - exact Hnl.
  - easy.
  - rewrite app_nil_r. exact T2.
  - rewrite Ho in Heq. rewrite !app_length in Heq. cbn [length] in Heq. lia.
Qed.
Print Assumptions C09_exception_fails.

Example C09_example :
  (exists s, demo (Some (lines_text [lit "a"])) [OTln (lit "a"); OMust (lit "be") false None; OTln (lit "b")]
    = Some s /\ verdict true s = FAIL) /\
  (exists s, demo None ([OT (lit "half a line")] ++ exception_ops (lit "boom") (lit "trace")) = Some s /\
    verdict true s = FAIL /\ out s = lines_text [lit "half a line"; lit "boom"; lit "trace"]).
Proof. split; eexists; (split; [vm_compute; reflexivity|repeat split]). Qed.

(** C10. The full claim is false: a mark on a last line that is never ended is dropped. *)
Theorem C10_marks_never_lost_refuted :
  exists ops file s,
    In OFail ops /\ demo (Some file) ops = Some s /\ verdict true s = OK.
Proof.
  exists [OTln (lit "a"); OT (lit "b"); OFail], (lines_text [lit "a"]). eexists.
  split; [right; right; now left|]. split; [vm_compute; reflexivity|reflexivity].
Qed.
Print Assumptions C10_marks_never_lost_refuted.

(** Proved: once a line is finished after the call, the mark is in the verdict. *)
Theorem C10_marks_kept_partial :
  forall cc, TokClassOK cc -> forall refloat file point pre post o s1 s2 ex,
  (o = OFail \/ o = ODiff) ->
  run_body cc refloat file point (pre ++ [o]) = Some s1 ->
  exec_all cc refloat post s1 = Some s2 -> out s2 <> out s1 ->
  (o = OFail -> verdict ex s2 = FAIL) /\ (o = ODiff -> verdict ex s2 <> OK).
Proof. exact marked_run. Qed.
Print Assumptions C10_marks_kept_partial.

Theorem C10_difference_kept_partial :
  forall cc, TokClassOK cc -> forall refloat f point pre post x t ts s0 s2 ex,
  run_body cc refloat (Some f) point pre = Some s0 ->
  tokenize cc x = Some (t :: ts) -> head_exp_token (rd s0) <> Some t ->
  exec_all cc refloat (OT x :: post) s0 = Some s2 -> out s2 <> out s0 ->
  verdict ex s2 <> OK.
Proof. exact differing_run. Qed.
Print Assumptions C10_difference_kept_partial.

Example C10_example :
  exists s1 s2, demo (Some (lines_text [lit "ab"])) ([OT (lit "ab")] ++ [OFail]) = Some s1 /\
    exec_all ascii_class no_float [OTln []] s1 = Some s2 /\ out s2 <> out s1.
Proof.
  eexists. eexists. split; [vm_compute; reflexivity|]. split; [vm_compute; reflexivity|discriminate].
Qed.

(** C11. The full claim is false: output that stops early is OK. *)
Theorem C11_ok_means_equal_refuted :
  exists ls file s, demo (Some file) (map OTln ls) = Some s /\ verdict true s = OK /\
    out s <> file /\ snapshot_lines file <> ls.
Proof.
  exists [lit "a"], (lines_text [lit "a"; lit "b"]). eexists.
  split; [vm_compute; reflexivity|]. repeat split; discriminate.
Qed.
Print Assumptions C11_ok_means_equal_refuted.

Theorem C11_ok_iff_prefix_partial :
  forall cc, TokClassOK cc -> forall refloat f point ls s,
  Forall (fun l => ~ In NL l /\ nul_free l) ls ->
  run_body cc refloat (Some f) point (map OTln ls) = Some s ->
  (verdict true s = OK <-> exists rest, snapshot_lines f = ls ++ rest).
Proof. exact tln_run. Qed.
Print Assumptions C11_ok_iff_prefix_partial.

(** with as many lines as the snapshot has, OK means equal *)
Theorem C11_ok_iff_equal_partial :
  forall cc, TokClassOK cc -> forall refloat f point ls s,
  Forall (fun l => ~ In NL l /\ nul_free l) ls ->
  run_body cc refloat (Some f) point (map OTln ls) = Some s ->
  length (snapshot_lines f) <= length ls ->
  (verdict true s = OK <-> snapshot_lines f = ls).
Proof.
  intros cc TOK refloat f point ls s Hls H Hlen. rewrite (tln_run cc TOK _ _ _ _ _ Hls H). split.
  - intros [rest E]. rewrite E. rewrite E, app_length in Hlen.
    destruct rest; [now rewrite app_nil_r|]. exfalso. cbn [length] in Hlen. unfold str in *. lia.
  - intros ->. exists []. now rewrite app_nil_r.
Qed.
Print Assumptions C11_ok_iff_equal_partial.

Example C11_example :
  Forall (fun l => ~ In NL l /\ nul_free l) [lit "a b"; []; lit "c"] /\
  exists s, demo (Some (lines_text [lit "a b"; []; lit "c"])) (map OTln [lit "a b"; []; lit "c"]) = Some s
    /\ verdict true s = OK.
Proof.
  split.
  - repeat constructor; vm_compute; intuition discriminate.
  - eexists. split; [vm_compute; reflexivity|reflexivity].
Qed.

(** C13. Seeking. [cursor s] is the snapshot line the next output line is compared with. *)
Theorem C13_seek :
  forall cc, TokClassOK cc -> forall refloat f point ops s ok,
  run_body cc refloat (Some f) point ops = Some s ->
  exists s', exec cc refloat (OSeek ok 0 None) s = Some s' /\
    s' = set_rd (rd s') s /\
    seek_spec ok (snapshot_lines f) (cursor s) (cursor s') /\
    r_line (rd s') = nth_error (snapshot_lines f) (cursor s') /\
    (cursor s' <> cursor s ->
     head_exp_token (rd s') = expected_token cc (snapshot_lines f) (cursor s') 0).
Proof. exact seek_run. Qed.
Print Assumptions C13_seek.

Theorem C13_seek_without_snapshot :
  forall cc, TokClassOK cc -> forall refloat point ops s ok b e,
  run_body cc refloat None point ops = Some s -> exec cc refloat (OSeek ok b e) s = Some s.
Proof. exact seek_run_none. Qed.
Print Assumptions C13_seek_without_snapshot.

Example C13_example :
  let f := lines_text [lit "a"; lit "b"; lit "c"; lit "b"] in
  let is x := fun l => str_eqb l (lit x) in
  exists s, demo (Some f) [OIln []; OIln []] = Some s /\ cursor s = 2 /\
  (exists s', exec ascii_class no_float (OSeek (is "b"%string) 0 None) s = Some s' /\ cursor s' = 3) /\
  (exists s', exec ascii_class no_float (OSeek (is "a"%string) 0 None) s = Some s' /\ cursor s' = 0) /\
  (exists s', exec ascii_class no_float (OSeek (is "z"%string) 0 None) s = Some s' /\ cursor s' = 2).
Proof.
  eexists. split; [vm_compute; reflexivity|]. split; [reflexivity|].
  repeat split; eexists; (split; [vm_compute; reflexivity|reflexivity]).
Qed.

(** C16. The report: one entry per finished line, flagged as counted. *)
Theorem C16_report_entries :
  forall cc, TokClassOK cc -> forall refloat file point ops s,
  run_body cc refloat file point ops = Some s ->
  exists recs,
    out s = lines_text (map lr_text recs) /\ Forall (fun r => ~ In NL (lr_text r)) recs /\
    rep s = flat_map (entry_text point) recs /\
    errors s = length (filter rec_fails recs) /\ diffs s = length (filter rec_differs recs).
Proof.
  intros cc TOK refloat file point ops s H.
  destruct (run_body_accounts cc TOK _ _ _ _ _ H) as [recs Ha]. exists recs.
  assert (Hp : point_pos s = point).
  { unfold run_body in H. rewrite (exec_all_point cc refloat _ _ _ H). reflexivity. }
  rewrite <- Hp. destruct Ha as [A1 A2 A3 A4 A5 [A6 A7]]. auto.
Qed.
Print Assumptions C16_report_entries.

Theorem C16_flags :
  forall point r,
  (rec_fails r = true <-> exists x, entry_text point r = lit "! " ++ x) /\
  (rec_fails r = false /\ rec_differs r = true <-> exists x, entry_text point r = lit "? " ++ x) /\
  (rec_fails r = false /\ rec_differs r = false <-> exists x, entry_text point r = lit "  " ++ x) /\
  exists a b, entry_text point r = a ++ lr_text r ++ b.
Proof.
  intros point r. split; [|split; [|split]].
  4: { unfold entry_text, ljust. destruct (rec_differs r || rec_fails r).
       - exists ((if rec_fails r then lit "!" else lit "?") ++ [SP]). eexists.
         rewrite <- !app_assoc. reflexivity.
       - exists (lit "  "). eexists. reflexivity. }
  all: unfold entry_text; destruct (rec_fails r), (rec_differs r); cbn [orb]; split;
    first [ intros [x Hx]; discriminate Hx | intros [? ?]; discriminate | discriminate
          | intros _; eexists; reflexivity | intros _; repeat split ].
Qed.
Print Assumptions C16_flags.

Example C16_example :
  exists s, run_body ascii_class no_float (Some (lines_text [lit "a"; lit "b"; lit "c"])) false
     [OTln (lit "a"); OTln (lit "x"); OFail; OTln (lit "c")] = Some s /\
  rep s = lit "  a" ++ [NL] ++ lit "? " ++ ljust 60 (lit "x") ++ lit " | b" ++ [NL] ++
          lit "! " ++ ljust 60 (lit "c") ++ lit " | c" ++ [NL].
Proof. eexists. split; [vm_compute; reflexivity|reflexivity]. Qed.
