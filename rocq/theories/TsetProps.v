(** C15: tset ignores order (booktest/testcaserun.py:764-798). *)
From Verif Require Import PyStrFacts TokenizerProps CaseRunProofs CaseRunFacts CaseRunLines CaseRunProps SectionProofs TsetProofs.
From Coq Require Import Lia Permutation.

(** A mark of the unfinished line reaches the verdict as soon as a line is finished. *)
Theorem C10_open_marks_kept_partial :
  forall cc, TokClassOK cc -> forall refloat file point pre post s1 s2 ex,
  run_body cc refloat file point pre = Some s1 ->
  exec_all cc refloat post s1 = Some s2 -> out s2 <> out s1 ->
  (line_error s1 <> None -> verdict ex s2 = FAIL) /\ (line_diff s1 <> None -> 0 < diffs s2 /\ verdict ex s2 <> OK).
Proof.
  intros cc TOK refloat file point pre post s1 s2 ex H1 H2 Hout. destruct (run_body_reaches cc TOK _ _ _ _ _ H1) as (ps & [Hg HR] & Hruns).
  set (T := option_map univ_newlines file) in *.
  destruct (exec_all_ok cc TOK _ refloat _ _ _ _ HR H2) as (qs & [Hg2 HR2] & Hruns2).
  assert (Hnl : In NL (prims_text qs)).
  { apply has_nl_iff. destruct (has_nl (prims_text qs)) eqn:E; [reflexivity|exfalso].
    apply has_nl_false in E. apply Hout.
    pose proof (Rel_text cc _ _ _ HR) as T1. pose proof (Rel_text cc _ _ _ HR2) as T2.
    rewrite asteps_text, <- T1, <- app_assoc in T2. fold T in T2.
    assert (Hs : forall ops s, run_body cc refloat file point ops = Some s ->
                 (out s = [] \/ exists x, out s = x ++ [NL])).
    { intros ops s Hb. apply run_body_written in Hb; tauto. }
    refine (proj1 (split_unique (out s2) (out_line s2) (out s1) (out_line s1 ++ prims_text qs) _ _ _ _ T2)).
    - apply (Hs (pre ++ post)). unfold run_body in *. rewrite exec_all_app, H1. exact H2.
    - apply (Hs pre). exact H1.
    - apply (acc_no_nl _ _ (R_acc _ _ _ _ HR2)).
    - rewrite in_app_iff. intros [Hi|Hi]; [|auto]. apply (acc_no_nl _ _ (R_acc _ _ _ _ HR)). exact Hi. }
  pose proof (verdict_rule _ _ ex (R_acc _ _ _ _ HR2)) as (V1 & V2 & V3). split; intros M.
  - apply V1, existsb_exists. apply (mark_error_commits cc T qs _ Hg2); [|exact Hnl]. now rewrite <- (R_e _ _ _ _ HR).
  - destruct (mark_diff_commits cc T qs (asteps cc T ps a0) Hg2) as (r & R1 & R2); [now rewrite <- (R_d _ _ _ _ HR)|exact Hnl|].
    split.
    + rewrite (acc_diffs _ _ (R_acc _ _ _ _ HR2)).
      assert (I : In r (filter rec_differs (a_recs (asteps cc T qs (asteps cc T ps a0))))) by (apply filter_In; auto).
      destruct (filter rec_differs _); [easy|cbn [length]; lia].
    + intros E. apply V3 in E as (_ & E & _). assert (X : existsb rec_differs (a_recs (asteps cc T qs (asteps cc T ps a0))) = true) by (apply existsb_exists; eauto).
      congruence.
Qed.
Print Assumptions C10_open_marks_kept_partial.
Example C10_open_example : exists s1 s2, run_body ascii_class no_float (Some (lit "a" ++ [NL])) false [OT (lit "b")] = Some s1 /\ line_diff s1 <> None /\
  exec_all ascii_class no_float [OI (lit "c"); OTln []] s1 = Some s2 /\ out s2 <> out s1 /\ verdict false s2 = DIFF.
Proof. eexists. eexists. split; [vm_compute; reflexivity|]. split; [vm_compute; discriminate|]. split; [vm_compute; reflexivity|]. split; [vm_compute; discriminate|reflexivity]. Qed.

(** [listed] are the items listed at line [n] of the snapshot: the lines there are [prefix ++ item], and the next one has another start. *)
Definition lists_items (ls : list str) (n : nat) (prefix : str) (listed : list str) : Prop :=
  (forall i x, nth_error listed i = Some x -> nth_error ls (n + i) = Some (prefix ++ x)) /\
  (forall l, nth_error ls (n + length listed) = Some l -> ~ exists r, l = prefix ++ r).

(** The full claim is false: after the last line of the snapshot nothing is compared, so items that are not listed are not marked. *)
Theorem C15_after_the_end_refuted :
  exists f pre items prefix s0 s1 s2,
    demo (Some f) pre = Some s0 /\ lists_items (snapshot_lines f) (cursor s0) prefix [] /\ items <> [] /\
    exec ascii_class no_float (OTset items prefix) s0 = Some s1 /\
    diffs s1 = diffs s0 /\ line_diff s1 = None /\
    exec ascii_class no_float (OIln (lit "end")) s1 = Some s2 /\ verdict true s2 = OK.
Proof.
  exists (lines_text [lit "x"]), [OTln (lit "x")], [lit "a"], (lit " * "). eexists. eexists. eexists.
  split; [vm_compute; reflexivity|]. split; [split; [intros [|] ? E; discriminate E|intros l E; discriminate E]|]. split; [discriminate|].
  split; [vm_compute; reflexivity|]. split; [reflexivity|]. split; [reflexivity|]. split; [vm_compute; reflexivity|reflexivity].
Qed.
Print Assumptions C15_after_the_end_refuted.

(** Proved, when the cursor is on a line of the snapshot: the exact condition for no mark. The items are marked on their own
    lines; a missing item is marked on the line that follows. Afterwards the cursor is on the first line after the list. *)
Theorem C15_tset_partial :
  forall cc, TokClassOK cc -> forall refloat f point pre s0 items prefix listed,
  run_body cc refloat (Some f) point pre = Some s0 ->
  cursor s0 < length (snapshot_lines f) -> line_diff s0 = None -> line_error s0 = None ->
  lists_items (snapshot_lines f) (cursor s0) prefix listed ->
  ~ In NL prefix -> ~ In NUL prefix -> Forall (fun i => ~ In NL i /\ ~ In NUL i) items ->
  exists s1, exec cc refloat (OTset items prefix) s0 = Some s1 /\
    cursor s1 = cursor s0 + length listed /\
    (diffs s1 = diffs s0 <-> NoDup items /\ incl items listed) /\ diffs s0 <= diffs s1 /\
    (line_diff s1 = None <-> incl listed items) /\
    errors s1 = errors s0 /\ line_error s1 = None.
Proof.
  intros cc TOK refloat f point pre s0 items prefix listed H HC HD HE [HL HN] Hpn Hpu HF.
  destruct (run_body_reaches cc TOK _ _ _ _ _ H) as (ps & [Hg HR] & _). cbn [option_map] in HR. set (t := univ_newlines f) in *.
  set (a := asteps cc (Some t) ps a0) in *.
  assert (EC : cursor s0 = a_k a) by (unfold cursor; rewrite (R_rd _ _ _ _ HR), r_num_rpos; lia).
  rewrite <- rlines_snapshot in *. fold t in HC, HL, HN. rewrite EC in *.
  destruct (tset_exact cc TOK t prefix items listed a s0) as (a' & s' & E & R' & K & D & X & C1 & C2 & LN & _ & _); auto.
  { now rewrite <- (R_d _ _ _ _ HR). } { now rewrite <- (R_e _ _ _ _ HR). }
  { intros l Hl. destruct (starts_with prefix l) eqn:ES; [|reflexivity]. apply starts_with_iff in ES. elim (HN l Hl ES). }
  exists s'. split; [exact E|]. pose proof (R_acc _ _ _ _ HR) as A0. pose proof (R_acc _ _ _ _ R') as A1.
  assert (DD : diffs s' = diffs s0 + misses listed items) by (rewrite (acc_diffs _ _ A0), (acc_diffs _ _ A1); exact C1).
  split; [unfold cursor; rewrite (R_rd _ _ _ _ R'), r_num_rpos, Nat.sub_succ, Nat.sub_0_r; exact K|]. split; [|split; [lia|split; [|split]]].
  - rewrite <- misses_zero. rewrite DD. lia.
  - now rewrite (R_d _ _ _ _ R').
  - now rewrite (acc_errors _ _ A0), (acc_errors _ _ A1).
  - now rewrite (R_e _ _ _ _ R').
Qed.
Print Assumptions C15_tset_partial.

(** Any order of exactly the listed items is fine. *)
Theorem C15_any_order_partial :
  forall cc, TokClassOK cc -> forall refloat f point pre s0 items prefix listed,
  run_body cc refloat (Some f) point pre = Some s0 ->
  cursor s0 < length (snapshot_lines f) -> line_diff s0 = None -> line_error s0 = None ->
  lists_items (snapshot_lines f) (cursor s0) prefix listed ->
  ~ In NL prefix -> ~ In NUL prefix -> Forall (fun i => ~ In NL i /\ ~ In NUL i) items ->
  NoDup listed -> Permutation listed items ->
  exists s1, exec cc refloat (OTset items prefix) s0 = Some s1 /\
    cursor s1 = cursor s0 + length listed /\ diffs s1 = diffs s0 /\ errors s1 = errors s0 /\ line_diff s1 = None /\ line_error s1 = None.
Proof.
  intros cc TOK refloat f point pre s0 items prefix listed H HC HD HE HL Hpn Hpu HF ND PE.
  destruct (C15_tset_partial cc TOK refloat f point pre s0 items prefix listed H HC HD HE HL Hpn Hpu HF) as (s1 & E & K & D & _ & L & R & X).
  exists s1. repeat (split; [assumption|]). split; [|split; [exact R|split; [|exact X]]].
  - apply D. split; [exact (Permutation_NoDup PE ND)|]. intros x Hx. exact (Permutation_in x (Permutation_sym PE) Hx).
  - apply L. intros x Hx. exact (Permutation_in x PE Hx).
Qed.
Print Assumptions C15_any_order_partial.

(** An item that is not listed, listed items that are missing: the verdict is not OK once a further line is finished. *)
Theorem C15_other_set_partial :
  forall cc, TokClassOK cc -> forall refloat f point pre s0 items prefix listed post s2 ex,
  run_body cc refloat (Some f) point pre = Some s0 ->
  cursor s0 < length (snapshot_lines f) -> line_diff s0 = None -> line_error s0 = None ->
  lists_items (snapshot_lines f) (cursor s0) prefix listed ->
  ~ In NL prefix -> ~ In NUL prefix -> Forall (fun i => ~ In NL i /\ ~ In NUL i) items ->
  (exists x, In x items /\ ~ In x listed) \/ (exists x, In x listed /\ ~ In x items) ->
  exec_all cc refloat (OTset items prefix :: post) s0 = Some s2 ->
  (exists post', post = OIln post' :: tl post \/ post = OTln post' :: tl post) ->
  verdict ex s2 <> OK.
Proof.
  intros cc TOK refloat f point pre s0 items prefix listed post s2 ex H HC HD HE HL Hpn Hpu HF OTH RUN HP.
  destruct (C15_tset_partial cc TOK refloat f point pre s0 items prefix listed H HC HD HE HL Hpn Hpu HF) as (s1 & E & K & D & DL & L & R & X).
  assert (RUN1 : run_body cc refloat (Some f) point (pre ++ [OTset items prefix]) = Some s1).
  { unfold run_body in *. rewrite exec_all_app, H. cbn [bind]. unfold exec_all. cbn [map steps]. rewrite E. reflexivity. }
  assert (RUN2 : exec_all cc refloat post s1 = Some s2).
  { unfold exec_all in RUN. cbn [map steps] in RUN. rewrite E in RUN. exact RUN. }
  destruct OTH as [(x & I1 & I2)|(x & I1 & I2)].
  - assert (DN : 0 < diffs s1).
    { assert (diffs s1 <> diffs s0) by (intros Z; apply D in Z; destruct Z as [_ Z]; apply I2, Z, I1). lia. }
    pose proof (exec_all_monotone cc TOK refloat _ _ _ _ _ _ RUN1 RUN2) as (M & _). unfold verdict.
    destruct (Nat.eqb_spec (errors s2) 0); [|discriminate]. destruct (Nat.eqb_spec (diffs s2) 0); [lia|]. discriminate.
  - assert (LD : line_diff s1 <> None) by (intros Z; apply L in Z; apply I2, Z, I1).
    apply (C10_open_marks_kept_partial cc TOK refloat _ _ _ _ _ _ ex RUN1 RUN2); [|exact LD].
    destruct HP as (x' & HP). assert (EX : exists s' l, exec_all cc refloat post s1 = bind (Some s') (exec_all cc refloat (tl post)) /\ out s' = out s1 ++ l /\ l <> [] /\
      run_body cc refloat (Some f) point ((pre ++ [OTset items prefix]) ++ [hd OFail post]) = Some s').
    { assert (G : forall o, post = o :: tl post -> (o = OIln x' \/ o = OTln x') -> exists s' l, exec_all cc refloat post s1 = bind (Some s') (exec_all cc refloat (tl post)) /\ out s' = out s1 ++ l /\ l <> [] /\
        run_body cc refloat (Some f) point ((pre ++ [OTset items prefix]) ++ [hd OFail post]) = Some s').
      { intros o EP EO. rewrite EP in RUN2. unfold exec_all in RUN2. cbn [map steps] in RUN2. apply bind_Some in RUN2 as (s' & E' & _).
        assert (RB : run_body cc refloat (Some f) point ((pre ++ [OTset items prefix]) ++ [o]) = Some s').
        { unfold run_body in *. rewrite exec_all_app, RUN1. cbn [bind]. unfold exec_all. cbn [map steps]. rewrite E'. reflexivity. }
        pose proof (run_body_reaches cc TOK _ _ _ _ _ RUN1) as (p1 & [G1 R1] & _).
        destruct (exec_all_ok cc TOK (option_map univ_newlines (Some f)) refloat [o] _ s1 s' R1) as (p2 & [G2 R2] & RU).
        { unfold exec_all. cbn [map steps]. rewrite E'. reflexivity. }
        inversion RU as [|? ? ? q1 q2 HO HR2]; subst. inversion HR2; subst. rewrite app_nil_r in *.
        destruct HO as (HW & _). assert (WT : prims_text q1 = x' ++ [NL]) by (destruct EO as [-> | ->]; exact HW).
        pose proof (Rel_text cc _ _ _ R1) as T1. pose proof (Rel_text cc _ _ _ R2) as T2. rewrite asteps_text, <- T1, WT in T2.
        assert (OL : out s' = out s1 ++ out_line s1 ++ x' ++ [NL] /\ out_line s' = []).
        { pose proof (run_body_written cc TOK refloat _ _ _ _ RB) as (_ & N' & S').
          apply (split_unique (out s') (out_line s') (out s1 ++ out_line s1 ++ x' ++ [NL]) []); auto.
          - right. exists (out s1 ++ out_line s1 ++ x'). now rewrite <- !app_assoc.
          - rewrite app_nil_r, T2. now rewrite <- !app_assoc. }
        exists s', (out_line s1 ++ x' ++ [NL]). rewrite EP. cbn [hd tl]. split; [unfold exec_all; cbn [map steps]; rewrite E'; reflexivity|].
        split; [apply OL|]. split; [|exact RB]. intros Z. apply app_eq_nil in Z as [_ Z]. apply app_eq_nil in Z as [_ Z]. discriminate. }
      destruct HP as [HP|HP]; apply (G _ HP); auto. }
    destruct EX as (s' & l & ES & EO & Hl & RB). rewrite ES in RUN2. cbn [bind] in RUN2.
    pose proof (exec_all_monotone cc TOK refloat _ _ _ _ _ _ RB RUN2) as (_ & _ & _ & (z & EZ) & _). rewrite EZ, EO, <- app_assoc.
    intros Z. rewrite <- (app_nil_r (out s1)) in Z at 2. apply app_inv_head in Z. apply app_eq_nil in Z as [Z _]. now apply Hl.
Qed.
Print Assumptions C15_other_set_partial.

Definition demo_set := lines_text [lit "# set"; lit " * a"; lit " * b"; lit " * c"; lit "end"].
Example C15_example :
  exists s0, demo (Some demo_set) [OTln (lit "# set")] = Some s0 /\ cursor s0 = 1 /\ line_diff s0 = None /\
    lists_items (snapshot_lines demo_set) 1 (lit " * ") [lit "a"; lit "b"; lit "c"] /\
    (exists s1, exec ascii_class no_float (OTset [lit "c"; lit "a"; lit "b"] (lit " * ")) s0 = Some s1 /\ diffs s1 = 0 /\ line_diff s1 = None /\ cursor s1 = 4) /\
    (exists s1, exec ascii_class no_float (OTset [lit "c"; lit "d"; lit "b"; lit "a"] (lit " * ")) s0 = Some s1 /\ diffs s1 = 1 /\ line_diff s1 = None) /\
    (exists s1, exec ascii_class no_float (OTset [lit "c"; lit "b"; lit "b"] (lit " * ")) s0 = Some s1 /\ diffs s1 = 1 /\ line_diff s1 = Some 0 /\ cursor s1 = 4).
Proof.
  eexists. split; [vm_compute; reflexivity|]. split; [reflexivity|]. split; [reflexivity|]. split; [|repeat split; eexists; (split; [vm_compute; reflexivity|repeat split])].
  split.
  - intros [|[|[|[|i]]]] x E; vm_compute in E; try discriminate E; injection E as <-; reflexivity.
  - intros l E. vm_compute in E. injection E as <-. intros [r E]. discriminate E.
Qed.
