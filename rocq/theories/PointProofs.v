(** The report, and how it is written, have no influence on anything else. *)
From Verif Require Export CaseRunModel.

(** [s] with another report and another setting of point_error_pos *)
Definition put (p : bool) (r : str) (s : state) : state :=
  {| rd := rd s; point_pos := p; out := out s; out_line := out_line s; rep := r;
     line_diff := line_diff s; line_error := line_error s; line_number := line_number s;
     diffs := diffs s; errors := errors s; last_checked := last_checked s |}.

Section Point.
Variable cc : CharClass.
Variable refloat : str -> option str.

(** a step acts on all reports alike *)
Definition resp (f : state -> option state) : Prop :=
  forall s p r, exists r', f (put p r s) = option_map (put p r') (f s).

Lemma put_put p r p' r' s : put p r (put p' r' s) = put p r s.
Proof. reflexivity. Qed.

Lemma resp_bind f g : resp f -> resp g -> resp (fun s => bind (f s) g).
Proof.
  intros F G s p r. destruct (F s p r) as [r1 E1]. destruct (f s) as [s1|]; cbn [option_map bind] in *; rewrite E1.
  - destruct (G s1 p r1) as [r2 E2]. exists r2. exact E2.
  - now exists r.
Qed.
Lemma resp_some (f : state -> state) : (forall s p r, exists r', f (put p r s) = put p r' (f s)) -> resp (fun s => Some (f s)).
Proof. intros F s p r. destruct (F s p r) as [r' E]. exists r'. cbn. now rewrite E. Qed.

Lemma put_do_diff p r s : do_diff (put p r s) = put p r (do_diff s).
Proof. unfold do_diff. cbn. now destruct (line_diff s). Qed.
Lemma put_do_fail p r s : do_fail (put p r s) = put p r (do_fail s).
Proof. unfold do_fail. cbn. now destruct (line_error s). Qed.
Lemma put_commit p r s : exists r', commit_line cc (put p r s) = put p r' (commit_line cc s).
Proof.
  unfold commit_line. cbn [line_error line_diff put]. destruct (line_error s) as [e|], (line_diff s) as [d|]; cbn [point_pos put];
    try (eexists; reflexivity); destruct p, (point_pos s); eexists; reflexivity.
Qed.
Lemma put_token c s t p r : exists r', feed_token cc c (put p r s) t = put p r' (feed_token cc c s t).
Proof.
  unfold feed_token. cbn [rd put]. destruct (next_exp_token cc (rd s)) as [e r0]. set (s1 := set_last_checked c (set_rd r0 s)).
  change (set_last_checked c (set_rd r0 (put p r s))) with (put p r s1).
  assert (X : (if match r_text r0 with Some _ => true | None => false end && token_differs t e && c then do_diff (put p r s1) else put p r s1)
    = put p r (if match r_text r0 with Some _ => true | None => false end && token_differs t e && c then do_diff s1 else s1)).
  { destruct (_ && c); [apply put_do_diff|reflexivity]. }
  rewrite X. destruct (str_eqb t [NL]); [apply put_commit|]. exists r. reflexivity.
Qed.
Lemma resp_feed c x : resp (feed cc c x).
Proof.
  unfold feed. destruct (tokenize cc x) as [ts|]; [|intros s p r; now exists r]. apply resp_some.
  induction ts as [|t ts IH]; intros s p r; [exists r; reflexivity|]. cbn [fold_left]. destruct (put_token c s t p r) as [r1 E]. rewrite E. apply IH.
Qed.
Lemma resp_feedln c x : resp (fun s => bind (feed cc c x s) (feed cc c [NL])).
Proof. apply resp_bind; apply resp_feed. Qed.
Lemma resp_reader f : resp (with_reader f).
Proof. intros s p r. unfold with_reader. cbn. destruct (f _ _); exists r; reflexivity. Qed.
Lemma resp_steps fs : Forall resp fs -> resp (steps fs).
Proof.
  induction 1 as [|f fs F _ IH]; [apply resp_some; intros s p r; exists r; reflexivity|]. cbn [steps]. now apply resp_bind.
Qed.
Lemma resp_ext f g : (forall s, f s = g s) -> resp f -> resp g.
Proof. intros E F s p r. destruct (F s p r) as [r' X]. exists r'. now rewrite <- !E. Qed.
Lemma resp_pre (h : state -> state) f : (forall s p r, exists r', h (put p r s) = put p r' (h s)) -> resp f -> resp (fun s => f (h s)).
Proof. intros H F s p r. destruct (H s p r) as [r1 E]. rewrite E. apply F. Qed.
Lemma resp_diff f : resp f -> resp (fun s => f (do_diff s)).
Proof. apply resp_pre. intros s p r. exists r. apply put_do_diff. Qed.
Lemma resp_fail f : resp f -> resp (fun s => f (do_fail s)).
Proof. apply resp_pre. intros s p r. exists r. apply put_do_fail. Qed.
(** branching on anything but the report *)
Lemma resp_case {A} (q : state -> A) (f : A -> state -> option state) : (forall s p r, q (put p r s) = q s) -> (forall a, resp (f a)) -> resp (fun s => f (q s) s).
Proof. intros Q F s p r. rewrite Q. apply F. Qed.

Lemma resp_anchor a : resp (op_anchor cc a).
Proof. apply (resp_bind (op_seek_prefix cc a) (op_t cc a)); [apply resp_reader|apply resp_feed]. Qed.
Lemma resp_anchorln a : resp (op_anchorln cc a).
Proof. apply (resp_bind (op_seek_line cc a 0 None) (op_tln cc a)); [apply resp_reader|apply resp_feedln]. Qed.
Lemma resp_header h : resp (op_header cc h).
Proof.
  unfold op_header.
  apply (resp_pre (fun s => if Nat.ltb 0 (line_number s) then feed_token cc (last_checked s && match r_line (rd s) with Some _ => true | None => false end) s [NL] else s)
    (fun s1 => bind (op_anchorln cc h s1) (op_tln cc []))).
  - intros s p r. cbn [line_number last_checked rd put]. destruct (Nat.ltb 0 (line_number s)); [apply put_token|exists r; reflexivity].
  - apply resp_bind; [apply resp_anchorln|apply resp_feedln].
Qed.
Lemma resp_ifloatln v u : resp (op_ifloatln cc refloat v u).
Proof.
  unfold op_ifloatln.
  apply (resp_case (fun s => head_exp_token (rd s)) (fun old s => bind (op_i cc (v ++ match u with Some u0 => [SP] ++ u0 | None => [] end) s)
     match (match old with None => None | Some t => refloat t end) with
     | Some o => op_iln cc (lit " (was " ++ o ++ match u with Some u0 => [SP] ++ u0 | None => [] end ++ lit ")") | None => op_iln cc [] end)).
  - reflexivity.
  - intros old. apply resp_bind; [apply resp_feed|]. destruct (match old with Some t => refloat t | None => None end); apply resp_feedln.
Qed.
Lemma resp_assertln c m : resp (op_assertln cc c m).
Proof. unfold op_assertln. destruct c; [apply resp_feedln|]. apply (resp_fail (op_iln cc _)). apply resp_feedln. Qed.

Definition resp2 {A} (f : state -> option (A * state)) : Prop :=
  forall s p r, exists r', f (put p r s) = option_map (fun x => (fst x, put p r' (snd x))) (f s).
Lemma resp2_bind {A} f (g : state -> option (A * state)) : resp f -> resp2 g -> resp2 (fun s => bind (f s) g).
Proof.
  intros F G s p r. destruct (F s p r) as [r1 E1]. destruct (f s) as [s1|]; cbn [option_map bind] in *; rewrite E1.
  - destruct (G s1 p r1) as [r2 E2]. exists r2. exact E2.
  - now exists r.
Qed.
Lemma resp2_end {A} (f : state -> option (A * state)) g : resp2 f -> (forall a, resp (g a)) -> resp (fun s => bind (f s) (fun x => g (fst x) (snd x))).
Proof.
  intros F G s p r. destruct (F s p r) as [r1 E1]. destruct (f s) as [[a s1]|]; cbn [option_map bind fst snd] in *; rewrite E1; cbn [bind fst snd]; [|now exists r].
  apply G.
Qed.
Lemma resp2_items items prefix : forall cmp, resp2 (tset_items cc items prefix cmp).
Proof.
  induction items as [|i items IH]; intros cmp.
  - intros s p r. exists r. reflexivity.
  - cbn [tset_items]. destruct cmp as [[compare [b e]]|].
    + destruct (str_mem i compare).
      * apply (resp2_bind (fun s => bind (op_seek_line cc (prefix ++ i) b (Some e) s) (op_iln cc (prefix ++ i)))); [|apply IH].
        apply resp_bind; [apply resp_reader|apply resp_feedln].
      * apply (resp2_bind (fun s => op_iln cc (prefix ++ i) (do_diff s))); [|apply IH]. apply (resp_diff (op_iln cc (prefix ++ i))), resp_feedln.
    + apply (resp2_bind (op_iln cc (prefix ++ i))); [apply resp_feedln|apply IH].
Qed.
Lemma resp_tset items prefix : resp (op_tset cc items prefix).
Proof.
  unfold op_tset.
  apply (resp_case (fun s => (rd s, last_checked s)) (fun q s => match r_line (fst q) with
    | None => bind (tset_items cc items prefix None s) (fun x => Some (snd x))
    | Some _ => bind (tset_scan cc (reader_fuel (fst q)) prefix (snd q) (fst q) []) (fun cr => let (compare, r) := cr in
        bind (tset_items cc items prefix (Some (compare, (r_num (fst q), r_num r))) (set_rd r s)) (fun x => match fst x with None => Some (snd x)
          | Some (rest, _) => op_jump cc (r_num r) (match rest with [] => snd x | _ :: _ => do_diff (snd x) end) end)) end)).
  - reflexivity.
  - intros [q lc]. cbn [fst snd]. destruct (r_line q) as [l0|].
    + destruct (tset_scan _ _ _ _ _ _) as [[compare r0]|]; cbn [bind]; [|intros s p r; now exists r].
      apply (resp_pre (set_rd r0) (fun s => bind (tset_items cc items prefix (Some (compare, (r_num q, r_num r0))) s) (fun x => match fst x with None => Some (snd x)
          | Some (rest, _) => op_jump cc (r_num r0) (match rest with [] => snd x | _ :: _ => do_diff (snd x) end) end))).
      * intros s p r. exists r. reflexivity.
      * apply (resp2_end _ (fun a s => match a with None => Some s | Some (rest, _) => op_jump cc (r_num r0) (match rest with [] => s | _ :: _ => do_diff s end) end)); [apply resp2_items|].
        intros [[rest be]|]; [|apply resp_some; intros s p r; exists r; reflexivity]. destruct rest; [apply resp_reader|apply (resp_diff (op_jump cc (r_num r0))), resp_reader].
    + apply (resp2_end _ (fun _ s => Some s)); [apply resp2_items|]. intros _. apply resp_some. intros s p r. exists r. reflexivity.
Qed.

Lemma resp_exec o : resp (exec cc refloat o).
Proof.
  destruct o as [x|x|x|x| | |x|x|h|lv ti|k v|items p|items p|cols rows|v u|ov msg v|c m|ti c m|n|ok b e]; cbn [exec].
  1,3: apply resp_feed. 1,2: apply resp_feedln.
  - apply (resp_fail (fun s => Some s)). apply resp_some. intros s p r. exists r. reflexivity.
  - apply (resp_diff (fun s => Some s)). apply resp_some. intros s p r. exists r. reflexivity.
  - apply resp_anchor.
  - apply resp_anchorln.
  - apply resp_header.
  - apply resp_header.
  - apply (resp_bind (op_anchor cc k)); [apply resp_anchor|apply resp_feedln].
  - apply resp_steps. rewrite Forall_map, Forall_forall. intros i _. apply resp_feedln.
  - apply resp_tset.
  - unfold op_tdf. apply (resp_bind (fun s => bind (op_iln cc _ s) _)); [apply resp_bind; apply resp_feedln|]. apply resp_steps. rewrite Forall_map, Forall_forall. intros i _.
    apply resp_steps. apply Forall_app. split; [constructor; [apply resp_feed|constructor]|]. apply Forall_app. split; [|constructor; [apply resp_feedln|constructor]].
    rewrite Forall_forall. intros f Hf. apply in_flat_map in Hf as (col & _ & [<-|[<-|[<-|[]]]]); apply resp_feed.
  - apply resp_ifloatln.
  - unfold op_tmsln. destruct ov; [|apply resp_ifloatln]. apply (resp_fail (op_tln cc msg)), resp_feedln.
  - apply resp_assertln.
  - apply (resp_bind (op_i cc _)); [apply resp_feed|apply resp_assertln].
  - apply resp_reader.
  - apply resp_reader.
Qed.

Lemma run_point file p1 p2 ops : exists r, run_body cc refloat file p2 ops = option_map (put p2 r) (run_body cc refloat file p1 ops).
Proof.
  unfold run_body. assert (R : resp (exec_all cc refloat ops)).
  { apply resp_steps. rewrite Forall_map, Forall_forall. intros o _. apply resp_exec. }
  exact (R (start cc file p1) p2 []).
Qed.
End Point.
