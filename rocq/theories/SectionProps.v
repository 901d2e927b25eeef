(** C14: sections may come in any order (booktest/testcaserun.py:339-415, 561-597 seek, anchorln, header). *)
From Verif Require Import PyStrFacts TokenizerProps CaseRunProofs CaseRunFacts CaseRunLines CaseRunProps SectionModel SectionProofs.
From Coq Require Import Lia Permutation.

Lemma written_app cc o1 : forall a o2 b, written cc a (o1 ++ o2) b -> exists m, written cc a o1 m /\ written cc m o2 b.
Proof.
  induction o1 as [|o o1 IH]; intros a o2 b H.
  - exists a. split; [constructor|exact H].
  - inversion H as [|? ? ? w ? Hw H']; subst. destruct (IH _ _ _ H') as (m & M1 & M2). exists m. split; [|exact M2]. now apply written_cons with (w := w).
Qed.
Lemma written_tlns cc ls : forall a b, written cc a (map OTln ls) b -> b = a ++ lines_text ls.
Proof.
  induction ls as [|l ls IH]; intros a b H; inversion H; subst; cbn [lines_text flat_map].
  - now rewrite app_nil_r.
  - cbn [op_writes] in *. subst. rewrite (IH _ _ H5). unfold lines_text. now rewrite <- !app_assoc.
Qed.
Lemma written_ilns cc ls : forall a b, written cc a (map OIln ls) b -> b = a ++ lines_text ls.
Proof.
  induction ls as [|l ls IH]; intros a b H; inversion H; subst; cbn [lines_text flat_map].
  - now rewrite app_nil_r.
  - cbn [op_writes] in *. subst. rewrite (IH _ _ H5). unfold lines_text. now rewrite <- !app_assoc.
Qed.
Lemma has_nl_lines_text l ls : has_nl (lines_text (l :: ls)) = true.
Proof. unfold has_nl, lines_text. cbn [flat_map]. rewrite !existsb_app. cbn [existsb]. rewrite N.eqb_refl. cbn. now rewrite orb_true_r. Qed.
Lemma has_nl_app a b : has_nl (a ++ b) = has_nl a || has_nl b.
Proof. apply existsb_app. Qed.
Lemma lines_text_app a b : lines_text (a ++ b) = lines_text a ++ lines_text b.
Proof. apply flat_map_app. Qed.
Lemma written_sections cc xs : forall a b, written cc a (flat_map section_ops xs) b ->
  b = a ++ lines_text (if has_nl a then flat_map (fun y => [] :: section_lines y) xs else layout xs).
Proof.
  induction xs as [|x xs IH]; intros a b H.
  - inversion H; subst. cbn. destruct (has_nl b); cbn; now rewrite app_nil_r.
  - cbn [flat_map] in H. apply written_app in H as (m & H1 & H2). apply IH in H2. unfold section_ops in H1.
    inversion H1 as [|? ? ? w ? Hw H1']; subst. apply written_app in H1' as (m1 & H3 & H4).
    apply written_tlns in H3. apply written_ilns in H4. subst m1 m. cbn [op_writes] in Hw.
    assert (EH : ((a ++ w) ++ lines_text (sec_checked x)) ++ lines_text (sec_free x) =
      a ++ lines_text ((if has_nl a then [[]] else []) ++ section_lines x)).
    { subst w. unfold header_text, section_lines. destruct (has_nl a); rewrite <- !app_assoc; f_equal; cbn [app lines_text flat_map];
        fold (lines_text (sec_checked x ++ sec_free x)); rewrite lines_text_app; cbn [app]; rewrite <- !app_assoc; reflexivity. }
    rewrite EH. replace (has_nl (a ++ lines_text _)) with true.
    2: { rewrite has_nl_app. unfold section_lines. destruct (has_nl a); cbn [app]; now rewrite has_nl_lines_text, ?orb_true_r. }
    rewrite <- app_assoc, <- lines_text_app. f_equal. f_equal. destruct (has_nl a); reflexivity.
Qed.

Definition section_texts (x : section) : list str := sec_head x :: sec_checked x ++ sec_free x.

Lemma layout_plain xs : Forall (fun x => Forall plain_line (section_texts x)) xs -> Forall plain_line (layout xs).
Proof.
  assert (P0 : plain_line []) by (repeat split; easy).
  assert (PS : forall x, Forall plain_line (section_texts x) -> Forall plain_line (section_lines x)).
  { intros x Hx. inversion Hx; subst. constructor; [assumption|]. now constructor. }
  assert (PF : forall ys, Forall (fun x => Forall plain_line (section_texts x)) ys -> Forall plain_line (flat_map (fun y => [] :: section_lines y) ys)).
  { induction 1 as [|y ys Hy _ IH]; [constructor|]. cbn [flat_map]. apply Forall_app. split; [|exact IH]. constructor; [exact P0|now apply PS]. }
  intros H. destruct H as [|x xs Hx H]; [constructor|]. cbn [layout]. apply Forall_app. split; [now apply PS|now apply PF].
Qed.
Lemma lines_text_no_cr ls : Forall plain_line ls -> ~ In CR (lines_text ls).
Proof.
  induction 1 as [|l ls Hl _ IH]; [easy|]. cbn [lines_text flat_map]. rewrite !in_app_iff. intros [[I|[I|[]]]|I]; [now apply Hl|discriminate|now apply IH].
Qed.

(** What a test made of sections writes, whatever the snapshot was. *)
Theorem C14_snapshot_of_sections :
  forall cc, TokClassOK cc -> forall refloat old point xs s0,
  run_body cc refloat old point (flat_map section_ops xs) = Some s0 ->
  Forall (fun x => Forall plain_line (section_texts x)) xs ->
  out s0 = lines_text (layout xs) /\ snapshot_lines (out s0) = layout xs.
Proof.
  intros cc TOK refloat old point xs s0 H HP. apply run_body_written in H as (W & N & E); [|exact TOK].
  apply written_sections in W. cbn [has_nl existsb app] in W.
  assert (EO : out s0 = lines_text (layout xs)).
  { assert (EE : out s0 ++ out_line s0 = lines_text (layout xs) ++ []) by now rewrite W, app_nil_r.
    apply split_unique in EE; [apply EE|exact E| |exact N|easy].
    destruct (layout xs) as [|l ls]; [now left|]. right. destruct (exists_last (l := l :: ls) ltac:(discriminate)) as (ls' & l' & ->).
    rewrite lines_text_snoc. eexists. rewrite app_assoc. reflexivity. }
  split; [exact EO|]. rewrite EO. rewrite <- rlines_snapshot, univ_newlines_id by now apply lines_text_no_cr, layout_plain.
  apply rlines_text. eapply Forall_impl; [|apply layout_plain; exact HP]. unfold plain_line. tauto.
Qed.
Print Assumptions C14_snapshot_of_sections.

(** C14. The accepted output of a test made of sections, whose header lines occur once, is
    matched by any run of sections taken from it (in any order, leaving out or repeating any),
    with other unchecked lines: no difference, no error, verdict OK. *)
Theorem C14_sections_any_order :
  forall cc, TokClassOK cc -> forall refloat old p0 p xs s0 ys,
  run_body cc refloat old p0 (flat_map section_ops xs) = Some s0 ->
  Forall (fun x => Forall plain_line (section_texts x)) xs ->
  Forall (fun y => Forall plain_line (sec_free y)) ys ->
  (forall x i j, In x xs -> nth_error (snapshot_lines (out s0)) i = Some (sec_head x) ->
                            nth_error (snapshot_lines (out s0)) j = Some (sec_head x) -> i = j) ->
  (forall y, In y ys -> exists x, In x xs /\ sec_head y = sec_head x /\ sec_checked y = sec_checked x /\
                                  (sec_free x <> [] -> sec_free y <> [])) ->
  exists s, run_body cc refloat (Some (out s0)) p (flat_map section_ops ys) = Some s /\
    diffs s = 0 /\ errors s = 0 /\ line_diff s = None /\ line_error s = None /\ out_line s = [] /\
    verdict true s = OK.
Proof.
  intros cc TOK refloat old p0 p xs s0 ys H HP HF HU HY.
  destruct (C14_snapshot_of_sections cc TOK refloat old p0 xs s0 H HP) as [EO EL]. rewrite EL in HU.
  assert (LP := layout_plain xs HP). rewrite EO.
  assert (UN : univ_newlines (lines_text (layout xs)) = lines_text (layout xs)) by now apply univ_newlines_id, lines_text_no_cr.
  pose proof (start_Rel cc (Some (lines_text (layout xs))) p) as R0. cbn [option_map] in R0. rewrite UN in R0.
  destruct (sections_run cc TOK refloat (lines_text (layout xs)) xs) with (ys := ys) (a := a0) (s := start cc (Some (lines_text (layout xs))) p)
    as (a' & s' & E' & R' & J' & C' & D' & X' & F'); auto.
  - apply rlines_text. eapply Forall_impl; [|exact LP]. unfold plain_line. tauto.
  - apply Forall_forall. intros y Hy. destruct (HY y Hy) as (x & A & B & C & D). exists x. repeat split; auto. rewrite Forall_forall in HF. now apply HF.
  - repeat split; constructor.
  - now left.
  - exists s'. split; [exact E'|]. destruct (clean_counts _ F') as [N1 N2]. pose proof (R_acc _ _ _ _ R') as A.
    assert (D0 : diffs s' = 0) by now rewrite (acc_diffs _ _ A).
    assert (E0 : errors s' = 0) by now rewrite (acc_errors _ _ A).
    repeat split; auto.
    + now rewrite (R_d _ _ _ _ R').
    + now rewrite (R_e _ _ _ _ R').
    + now rewrite (R_cur _ _ _ _ R').
    + unfold verdict. now rewrite D0, E0.
Qed.
Print Assumptions C14_sections_any_order.

(** In particular the sections in another order. *)
Theorem C14_permutation :
  forall cc, TokClassOK cc -> forall refloat old p0 p xs s0 ys,
  run_body cc refloat old p0 (flat_map section_ops xs) = Some s0 ->
  Forall (fun x => Forall plain_line (section_texts x)) xs ->
  (forall x i j, In x xs -> nth_error (snapshot_lines (out s0)) i = Some (sec_head x) ->
                            nth_error (snapshot_lines (out s0)) j = Some (sec_head x) -> i = j) ->
  Permutation xs ys ->
  exists s, run_body cc refloat (Some (out s0)) p (flat_map section_ops ys) = Some s /\
    diffs s = 0 /\ errors s = 0 /\ verdict true s = OK.
Proof.
  intros cc TOK refloat old p0 p xs s0 ys H HP HU PE.
  destruct (C14_sections_any_order cc TOK refloat old p0 p xs s0 ys H HP) as (s & E & D & R & _ & _ & _ & V); auto.
  - apply Forall_forall. intros y Hy. rewrite Forall_forall in HP. specialize (HP y (Permutation_in y (Permutation_sym PE) Hy)).
    unfold section_texts in HP. inversion HP as [|? ? _ HP']; subst. now apply Forall_app in HP' as [_ HP'].
  - intros y Hy. exists y. split; [exact (Permutation_in y (Permutation_sym PE) Hy)|]. auto.
  - exists s. auto.
Qed.
Print Assumptions C14_permutation.

(** Two sections in the other order with other unchecked lines; and both conditions matter:
    without an unchecked line where the snapshot has some, or with a header line that occurs
    twice, a difference is reported. *)
Definition demo_a := {| sec_head := lit "# one"; sec_checked := [lit "x 1"; []]; sec_free := [lit "took 3 ms"] |}.
Definition demo_b := {| sec_head := lit "# two"; sec_checked := [lit "y 2"]; sec_free := [] |}.
Definition demo_a' := {| sec_head := lit "# one"; sec_checked := [lit "x 1"; []]; sec_free := [lit "took 5 ms"; lit "free"] |}.
Example C14_example :
  exists s0, demo None (flat_map section_ops [demo_a; demo_b]) = Some s0 /\
  out s0 = lines_text [lit "# one"; []; lit "x 1"; []; lit "took 3 ms"; []; lit "# two"; []; lit "y 2"] /\
  exists s, demo (Some (out s0)) (flat_map section_ops [demo_b; demo_a'; demo_b; demo_a]) = Some s /\ diffs s = 0 /\ verdict true s = OK.
Proof. eexists. split; [vm_compute; reflexivity|]. split; [reflexivity|]. eexists. split; [vm_compute; reflexivity|]. now split. Qed.
Example C14_needs_unchecked_line :
  exists s0, demo None (flat_map section_ops [demo_a; demo_b]) = Some s0 /\
  exists s, demo (Some (out s0)) (flat_map section_ops [{| sec_head := sec_head demo_a; sec_checked := sec_checked demo_a; sec_free := [] |}; demo_b]) = Some s /\
    verdict true s = DIFF.
Proof. eexists. split; [vm_compute; reflexivity|]. eexists. split; [vm_compute; reflexivity|]. reflexivity. Qed.
Definition demo_c := {| sec_head := lit "y 2"; sec_checked := [lit "z"]; sec_free := [] |}.
Example C14_needs_unique_headers :
  exists s0, demo None (flat_map section_ops [demo_a; demo_b; demo_c]) = Some s0 /\
  exists s, demo (Some (out s0)) (flat_map section_ops [demo_c]) = Some s /\ verdict true s = DIFF.
Proof. eexists. split; [vm_compute; reflexivity|]. eexists. split; [vm_compute; reflexivity|]. reflexivity. Qed.
