(** C12, exactly, for tests that only call t, tln, i and iln: which of them pass when they are repeated. *)
From Verif Require Import PyStrFacts TokenizerSpec TokenizerProofs TokenizerProps CaseRunProofs CaseRunFacts CaseRunLines CaseRunProps ReaderProofs RepeatProps.
From Coq Require Import Lia.

Lemma simple_refloat cc r r' ops : forallb simple ops = true -> forall s, exec_all cc r ops s = exec_all cc r' ops s.
Proof.
  unfold exec_all. induction ops as [|o ops IH]; intros H s; [reflexivity|]. cbn [forallb] in H. apply andb_prop in H. destruct H as [H1 H2].
  cbn [map steps]. assert (E : exec cc r o = exec cc r' o) by (destruct o; try discriminate; reflexivity). rewrite E. destruct (exec cc r' o s); [|reflexivity]. now apply IH.
Qed.
Lemma simple_nul cc ops tl : TokClassOK cc -> forallb simple ops = true -> ops_tokens cc ops = Some tl -> Forall (fun o => Forall nul_free (op_texts o)) ops.
Proof.
  intros TOK. revert tl. induction ops as [|o ops IH]; intros tl H E; [constructor|]. cbn [forallb] in H. apply andb_prop in H. destruct H as [H1 H2].
  cbn [ops_tokens] in E. destruct (op_tokens cc o) as [a|] eqn:EA; [|discriminate]. destruct (ops_tokens cc ops) as [b|]; [|discriminate]. constructor; [|now apply (IH b)].
  assert (K : forall x, tokenize cc x <> None -> Forall nul_free [x]) by (intros x N; constructor; [intros I; apply N; now apply tokenize_none_iff|constructor]).
  destruct o; try discriminate; cbn [op_texts]; apply K; cbn [op_tokens] in EA; destruct (tokenize cc text); discriminate.
Qed.
Lemma simple_snapshot_free ops : forallb simple ops = true -> forallb snapshot_free ops = true.
Proof.
  induction ops as [|o ops IH]; [reflexivity|]. cbn [forallb]. intros H. apply andb_prop in H. destruct H as [H1 H2]. rewrite IH by exact H2.
  destruct o; try discriminate; reflexivity.
Qed.

(** A test that only calls t, tln, i and iln passes against its own output exactly if in every line every checked token is also the
    token that the tokenizer finds at that place of the line: calls must not write one word, number or blank together. *)
Theorem C12_simple_exact :
  forall cc, TokClassOK cc -> forall refloat old point point2 ops s1,
  forallb simple ops = true -> run_body cc refloat old point ops = Some s1 -> ~ In CR (out s1) ->
  exists tl s2, ops_tokens cc ops = Some tl /\ run_body cc refloat (Some (out s1)) point2 ops = Some s2 /\ out s2 = out s1 /\
    (verdict true s2 = OK <-> forall l line, In l (token_lines tl) -> concat (map snd l) = line ++ [NL] ->
                                forall j t, nth_error l j = Some (true, t) -> line_token cc line j = t).
Proof.
  intros cc TOK refloat old point point2 ops s1 HS H1 HCR.
  destruct (simple_run cc TOK refloat old point ops s1 HS H1) as (tl & HT & _).
  destruct (run_body_total cc TOK no_float (Some (out s1)) point2 ops (simple_nul cc ops tl TOK HS HT)) as [s2 H2]; [discriminate|].
  assert (H2' : run_body cc refloat (Some (out s1)) point2 ops = Some s2) by (unfold run_body in *; now rewrite (simple_refloat cc refloat no_float ops HS)).
  exists tl, s2. split; [exact HT|]. split; [exact H2'|].
  destruct (C05_output_independent_of_snapshot cc TOK refloat _ _ _ _ ops s2 s1 (simple_snapshot_free ops HS) H2' H1) as [EO _]. split; [exact EO|].
  destruct (C06_line_differs_iff cc TOK refloat (out s1) point2 ops s2 HS H2') as (tl' & recs & HT' & A & LEN & REC). rewrite HT in HT'. injection HT' as <-.
  assert (SL : snapshot_lines (out s1) = map lr_text recs).
  { rewrite <- rlines_snapshot, (univ_newlines_id _ HCR), <- EO, (acc_out _ _ A). apply rlines_text. apply Forall_map. apply (acc_no_nl _ _ A). }
  rewrite SL in REC.
  assert (V : verdict true s2 = OK <-> forall r, In r recs -> rec_differs r = false).
  { assert (ERR : errors s2 = 0).
    { rewrite (acc_errors _ _ A). assert (G : forall r, In r recs -> rec_fails r = false).
      { intros r I. apply In_nth_error in I as [n I]. assert (exists l, nth_error (token_lines tl) n = Some l) as [l EL].
        { assert (LT : n < length (token_lines tl)) by (rewrite <- LEN; apply nth_error_Some; congruence). destruct (nth_error (token_lines tl) n) eqn:EL; [eauto|]. apply nth_error_None in EL. lia. }
        destruct (REC n l EL) as (r' & I' & _ & _ & E & _). rewrite I in I'. injection I' as <-. unfold rec_fails. now rewrite E. }
      clear - G. induction recs as [|r recs IH]; [reflexivity|]. cbn [filter]. rewrite (G r) by now left. apply IH. intros x I. apply G. now right. }
    unfold verdict. rewrite ERR, (acc_diffs _ _ A). clear. induction recs as [|r recs IH].
    - cbn. split; [intros _ ? []|reflexivity].
    - cbn [filter]. destruct (rec_differs r) eqn:ER.
      + cbn [length]. split; [discriminate|]. intros H. rewrite (H r) in ER by now left. discriminate.
      + rewrite IH. split; [intros H x [<-|I]; auto|]. intros H x I. apply H. now right. }
  rewrite V. split.
  - intros ALL l line I EL j t EJ. apply In_nth_error in I as [n I]. destruct (REC n l I) as (r & EN & ET & _ & _ & _ & D).
    assert (lr_text r = line) as <- by (rewrite EL in ET; apply app_inj_tail in ET; apply ET).
    assert (ND : ~ line_differs cc (map lr_text recs) n l) by (intros LD; apply D in LD; rewrite (ALL r) in LD by (now apply nth_error_In with n); discriminate).
    destruct (str_eqb_spec (line_token cc (lr_text r) j) t) as [E|NE]; [exact E|]. exfalso. apply ND. exists j, t. split; [exact EJ|].
    unfold expected_token. rewrite nth_error_map, EN. cbn [option_map]. congruence.
  - intros ALL r I. apply In_nth_error in I as [n I]. destruct (rec_differs r) eqn:ER; [|reflexivity]. exfalso.
    assert (exists l, nth_error (token_lines tl) n = Some l) as [l EL].
    { assert (LT : n < length (token_lines tl)) by (rewrite <- LEN; apply nth_error_Some; congruence). destruct (nth_error (token_lines tl) n) eqn:EL; [eauto|]. apply nth_error_None in EL. lia. }
    destruct (REC n l EL) as (r' & I' & ET & _ & _ & _ & D). rewrite I in I'. injection I' as <-. apply D in ER. destruct ER as (j & t & EJ & NE). apply NE.
    unfold expected_token. rewrite nth_error_map, I. cbn [option_map]. f_equal. apply (ALL l); [now apply nth_error_In with n|now symmetry|exact EJ].
Qed.
Print Assumptions C12_simple_exact.

(** With t and tln alone: the tokens of the calls are the tokens of the lines. *)
Definition checked_call (o : op) : bool := match o with OT _ | OTln _ => true | _ => false end.
Lemma checked_tokens cc ops tl : forallb checked_call ops = true -> ops_tokens cc ops = Some tl -> Forall (fun x => fst x = true) tl.
Proof.
  revert tl. induction ops as [|o ops IH]; intros tl H E; cbn [ops_tokens] in E; [injection E as <-; constructor|]. cbn [forallb] in H. apply andb_prop in H. destruct H as [H1 H2].
  destruct (op_tokens cc o) as [a|] eqn:EA; [|discriminate]. destruct (ops_tokens cc ops) as [b|]; [|discriminate]. injection E as <-. apply Forall_app. split; [|now apply IH].
  assert (K : forall ts : list str, Forall (fun x => fst x = true) (map (fun t => (true, t)) ts)) by (intros ts; apply Forall_map, Forall_forall; reflexivity).
  destruct o; try discriminate; cbn [op_tokens] in EA; destruct (tokenize cc text) as [ts|]; try discriminate; injection EA as <-; [apply K|apply Forall_app; split; [apply K|repeat constructor]].
Qed.
Lemma lines_checked tl : Forall (fun x : bool * str => fst x = true) tl -> forall cur, Forall (fun x => fst x = true) cur -> Forall (fun x => snd x <> [NL]) cur ->
  forall l, In l (token_lines_aux cur tl) -> Forall (fun x => fst x = true) l /\ exists q : list (bool * str), l = q ++ [(true, [NL])] /\ Forall (fun x : bool * str => snd x <> [NL]) q.
Proof.
  induction 1 as [|[c t] tl HC _ IH]; intros cur FC FN l I; [destruct I|]. cbn [fst] in HC. subst c. cbn [token_lines_aux] in I.
  destruct (str_eqb_spec t [NL]) as [->|NE].
  - destruct I as [<-|I]; [|now apply (IH [])]. split; [apply Forall_app; split; [exact FC|repeat constructor]|]. exists cur. auto.
  - apply (IH (cur ++ [(true, t)])); auto; apply Forall_app; split; auto.
Qed.
Theorem C12_checked_exact :
  forall cc, TokClassOK cc -> forall refloat old point point2 ops s1,
  forallb checked_call ops = true -> run_body cc refloat old point ops = Some s1 -> ~ In CR (out s1) ->
  exists tl s2, ops_tokens cc ops = Some tl /\ run_body cc refloat (Some (out s1)) point2 ops = Some s2 /\ out s2 = out s1 /\
    (verdict true s2 = OK <-> forall l, In l (token_lines tl) -> tokenize cc (concat (map snd l)) = Some (map snd l)).
Proof.
  intros cc TOK refloat old point point2 ops s1 HC H1 HCR.
  assert (HS : forallb simple ops = true).
  { clear - HC. induction ops as [|o ops IH]; [reflexivity|]. cbn [forallb] in *. apply andb_prop in HC. destruct HC as [A B]. rewrite IH by exact B. destruct o; try discriminate; reflexivity. }
  destruct (C12_simple_exact cc TOK refloat old point point2 ops s1 HS H1 HCR) as (tl & s2 & HT & H2 & EO & V). exists tl, s2. split; [exact HT|]. split; [exact H2|]. split; [exact EO|]. rewrite V. clear V.
  assert (NUL0 : ~ In NUL (concat (map snd tl))).
  { clear - HT TOK. revert tl HT. induction ops as [|o ops IH]; intros tl HT; cbn [ops_tokens] in HT; [injection HT as <-; intros []|].
    destruct (op_tokens cc o) as [a|] eqn:EA; [|discriminate]. destruct (ops_tokens cc ops) as [b|]; [|discriminate]. injection HT as <-. rewrite map_app, concat_app. intros I. apply in_app_or in I as [I|I]; [|now apply (IH b)].
    assert (K : forall c x ts, tokenize cc x = Some ts -> ~ In NUL (concat (map snd (map (fun t : str => (c : bool, t)) ts)))).
    { intros c x ts E J. rewrite map_map in J. cbn [snd] in J. rewrite map_id, (tokenize_concat cc TOK x ts E) in J. apply (tokenize_none_iff cc TOK) in J. congruence. }
    destruct o; try discriminate; cbn [op_tokens] in EA; destruct (tokenize cc text) as [ts|] eqn:ET; try discriminate; injection EA as <-; rewrite ?map_app, ?concat_app in I;
      [now apply (K true text ts ET)| |now apply (K false text ts ET)|]; (apply in_app_or in I as [I|I]; [revert I; now apply (K _ text ts)|cbn in I; destruct I as [I|[]]; discriminate]). }
  assert (SUB : forall l, In l (token_lines tl) -> incl l tl).
  { clear. unfold token_lines. assert (G : forall tl cur l, In l (token_lines_aux cur tl) -> incl l (cur ++ tl)).
    { induction tl0 as [|[c t] tl0 IH]; intros cur l I; [destruct I|]. cbn [token_lines_aux] in I. destruct (str_eqb t [NL]).
      - destruct I as [<-|I]; intros x J; [apply in_app_or in J; apply in_or_app; destruct J as [J|[J|[]]]; [now left|right; now left]|]. apply (IH [] l I) in J. apply in_or_app. right. now right.
      - intros x J. apply (IH _ l I) in J. now rewrite <- app_assoc in J. }
    intros l I. apply (G tl [] l I). }
  assert (LC : forall l, In l (token_lines tl) -> Forall (fun x => fst x = true) l /\ exists q : list (bool * str), l = q ++ [(true, [NL])] /\ Forall (fun x : bool * str => snd x <> [NL]) q).
  { intros l I. apply (lines_checked tl (checked_tokens cc ops tl HC HT) []); auto. }
  (* one line *)
  assert (ONE : forall l, In l (token_lines tl) ->
    ((forall line, concat (map snd l) = line ++ [NL] -> forall j t, nth_error l j = Some (true, t) -> line_token cc line j = t) <-> tokenize cc (concat (map snd l)) = Some (map snd l))).
  { intros l I. destruct (LC l I) as (F & q & -> & FN). rewrite map_app, concat_app. cbn [map snd concat]. rewrite app_nil_r.
    change (concat (map snd q)) with (@concat N (map (@snd bool str) q)). set (line := @concat N (map (@snd bool str) q)).
    assert (NU : ~ In NUL line).
    { intros J. apply NUL0. apply in_concat in J as (x & Jx & J). apply in_map_iff in Jx as (y & <- & Jy). apply in_concat. exists (snd y). split; [|exact J]. apply in_map.
      apply (SUB _ I). apply in_or_app. now left. }
    destruct (tokenize_total cc TOK line NU) as [ts Hts]. pose proof (tokenize_app_nl cc TOK line [] ts [] Hts eq_refl) as EL. cbn [app] in EL. match goal with |- _ <-> ?X = _ => replace X with (Some (ts ++ [[NL]])) by (symmetry; exact EL) end.
    assert (NNL : ~ In NL line).
    { intros J. subst line. assert (G : forall x, In x tl -> In NL (snd x) -> snd x = [NL]).
      { intros x Jx. clear - HT TOK Jx. revert tl HT Jx. induction ops as [|o ops IH]; intros tl HT Jx; cbn [ops_tokens] in HT; [injection HT as <-; destruct Jx|].
        destruct (op_tokens cc o) as [a|] eqn:EA; [|discriminate]. destruct (ops_tokens cc ops) as [b|]; [|discriminate]. injection HT as <-. apply in_app_or in Jx as [Jx|Jx]; [|now apply (IH b)].
        assert (K : forall c y ts, tokenize cc y = Some ts -> In x (map (fun t : str => (c : bool, t)) ts) -> In NL (snd x) -> snd x = [NL]).
        { intros c y ts E J. apply in_map_iff in J as (t & <- & Jt). cbn [snd]. pose proof (tokenize_good cc TOK y ts E) as G. rewrite Forall_forall in G. now apply G. }
        destruct o; try discriminate; cbn [op_tokens] in EA; destruct (tokenize cc text) as [ts|] eqn:ET; try discriminate; injection EA as <-;
          [now apply (K true text ts ET)| |now apply (K false text ts ET)|]; (apply in_app_or in Jx as [Jx|Jx]; [revert Jx; now apply (K _ text ts)|destruct Jx as [<-|[]]; reflexivity]). }
      apply in_concat in J as (x & Jx & J). apply in_map_iff in Jx as (y & <- & Jy). rewrite Forall_forall in FN. apply (FN y Jy). apply G; [|exact J]. apply (SUB _ I). apply in_or_app. now left. }
    pose proof (tokens_no_nl cc TOK line ts Hts NNL) as FT.
    assert (TT : forall j, line_token cc line j = nth j ts [NL]) by (intros j; now apply line_token_nth).
    split.
    - intros H. specialize (H line eq_refl). f_equal.
      assert (HN : forall j t, nth_error (q ++ [(true, [NL])]) j = Some (true, t) -> nth j ts [NL] = t) by (intros j t E; rewrite <- TT; now apply H).
      assert (EQ : ts = map snd q).
      { apply Forall_app in F as [FQ _]. clear - HN FT FN FQ. revert ts HN FT. induction FQ as [|[c t] q HF FQ IH]; intros ts HN FT.
        - specialize (HN 0 [NL] eq_refl). destruct ts as [|x ts]; [reflexivity|]. cbn in HN. subst x. inversion FT; congruence.
        - cbn in HF. subst c. inversion FN as [|? ? N1 N2]; subst. cbn [snd] in N1. destruct ts as [|x ts]; [specialize (HN 0 t eq_refl); cbn in HN; congruence|].
          pose proof (HN 0 t eq_refl) as E0. cbn in E0. subst x. cbn [map snd]. f_equal. inversion FT; subst. apply IH; auto. intros j t' E. exact (HN (S j) t' E). }
      now rewrite EQ.
    - intros H line' EL' j t EJ. assert (line' = line) as -> by (apply app_inj_tail in EL'; symmetry; apply EL').
      assert (E : ts ++ [[NL]] = map snd q ++ [[NL]]) by (injection H; auto). rewrite TT.
      destruct (Nat.lt_ge_cases j (length ts)) as [LT|GE].
      + rewrite <- (app_nth1 ts [[NL]]) by exact LT. rewrite E. apply (f_equal (option_map snd)) in EJ. rewrite <- nth_error_map, map_app in EJ. cbn [map snd option_map] in EJ. now apply nth_error_nth.
      + rewrite nth_overflow by exact GE. apply (f_equal (option_map snd)) in EJ. rewrite <- nth_error_map, map_app in EJ. cbn [map snd option_map] in EJ. assert (EJ' : nth_error (ts ++ [[NL]]) j = Some t) by (rewrite E; exact EJ). clear EJ. rename EJ' into EJ.
        rewrite nth_error_app2 in EJ by exact GE. destruct (j - length ts) as [|[|k]]; cbn in EJ; congruence. }
  split.
  - intros H l I. apply ONE; [exact I|]. intros line E. now apply (H l line).
  - intros H l line I E. revert line E. apply ONE; [exact I|]. now apply H.
Qed.
Print Assumptions C12_checked_exact.

(** Non-vacuity: glued numbers fail when both are checked, and pass when they are only informative at the end of a line. *)
Definition again (ops : list op) : option result :=
  match run_body ascii_class no_float None false ops with
  | Some s1 => option_map (verdict true) (run_body ascii_class no_float (Some (out s1)) false ops)
  | None => None
  end.
Example C12_exact_example :
  again [OT (lit "12"); OTln (lit "34")] = Some DIFF /\
  again [OT (lit "12 "); OTln (lit "34")] = Some OK /\
  again [OI (lit "took 1"); OI (lit "2"); OTln []; OTln (lit "done")] = Some OK /\
  again [OI (lit "took 1"); OI (lit "2"); OTln (lit " ms")] = Some DIFF.
Proof. vm_compute. repeat split. Qed.
Example C12_exact_lines_example :
  ops_tokens ascii_class [OT (lit "12"); OTln (lit "34")] = Some [(true, lit "12"); (true, lit "34"); (true, [NL])] /\
  tokenize ascii_class (lit "1234" ++ [NL]) = Some [lit "1234"; [NL]].
Proof. vm_compute. repeat split. Qed.
