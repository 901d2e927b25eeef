(** C83: tables (testcaserun.py:705-742 tdf). *)
From Verif Require Import PyStrFacts TokenizerSpec TokenizerProofs TokenizerProps CaseRunSpec CaseRunProofs CaseRunFacts CaseRunProps.
From Coq Require Import Lia.

(** ** Reading a table *)
Definition BAR : char := 124%N.
(** the widths of the columns, from the line of dashes: the lengths of the parts between the bars *)
Definition rule_widths (l : str) : list nat := map (@length char) (removelast (tl (split_on BAR l))).
(** the cells of a line, given the widths; None if a bar is missing *)
Fixpoint cells (ws : list nat) (l : str) : option (list str) :=
  match l with
  | [] => None
  | b :: l' =>
      if N.eqb b BAR then
        match ws with
        | [] => match l' with [] => Some [] | _ => None end
        | w :: ws' => option_map (cons (firstn w l')) (cells ws' (skipn w l'))
        end
      else None
  end.

(** ** The lines of a table *)
Definition t_line (f : str * list str -> str) (cols : list (str * list str)) : str := bar ++ flat_map (fun col => f col ++ bar) cols.
Definition t_head := t_line (fun col => ljust (col_width col) (fst col)).
Definition t_rule := t_line (fun col => repeat MINUS (col_width col)).
Definition t_row cc (i : nat) := t_line (fun col => ljust (col_width col) (cell_shown cc (nth i (snd col) []))).
Lemma table_lines cc cols rows : table_text cc cols rows = lines_text (t_head cols :: t_rule cols :: map (fun i => t_row cc i cols) (seq 0 rows)).
Proof.
  assert (R : flat_map (table_row cc cols) (seq 0 rows) = lines_text (map (fun i => t_row cc i cols) (seq 0 rows))).
  { induction (seq 0 rows) as [|i l IH]; [reflexivity|]. cbn [flat_map map lines_text]. rewrite IH. f_equal. }
  unfold table_text. rewrite R. cbn [lines_text flat_map]. unfold t_head, t_rule, t_line at 1 2. rewrite <- !app_assoc. reflexivity.
Qed.
Lemma t_line_length f cols : (forall col, In col cols -> length (f col) = col_width col) ->
  length (t_line f cols) = S (list_sum (map (fun col => S (col_width col)) cols)).
Proof.
  intros H. unfold t_line. cbn [app length bar lit]. change (length (bar ++ flat_map (fun col => f col ++ bar) cols)) with (S (length (flat_map (fun col => f col ++ bar) cols))).
  f_equal. induction cols as [|col cols IH]; [reflexivity|]. cbn [flat_map map]. change (list_sum (?x :: ?l)) with (x + list_sum l).
  rewrite !app_length, H by now left. change (length bar) with 1. rewrite IH by (intros; apply H; now right). cbn [list_sum fold_right]. lia.
Qed.
Lemma t_line_cells f cols : (forall col, In col cols -> length (f col) = col_width col) ->
  cells (map col_width cols) (t_line f cols) = Some (map f cols).
Proof.
  induction cols as [|col cols IH]; intros H; [reflexivity|]. unfold t_line. cbn [flat_map map].
  change (bar ++ (f col ++ bar) ++ flat_map (fun col => f col ++ bar) cols) with (BAR :: (f col ++ bar) ++ flat_map (fun col => f col ++ bar) cols).
  rewrite <- app_assoc. change (bar ++ flat_map (fun col0 => f col0 ++ bar) cols) with (t_line f cols). cbn [cells]. rewrite N.eqb_refl.
  rewrite <- (H col) by now left. rewrite firstn_app, firstn_all, Nat.sub_diag, skipn_app, skipn_all, Nat.sub_diag. cbn [firstn skipn app]. rewrite app_nil_r.
  rewrite IH by (intros; apply H; now right). reflexivity.
Qed.
Lemma ljust_length w x : length x <= w -> length (ljust w x) = w.
Proof. intros H. unfold ljust. rewrite app_length, repeat_length. lia. Qed.
Lemma name_fits col : length (fst col) <= col_width col.
Proof. exact (Nat.le_max_l (length (fst col)) (list_max (map (@length char) (snd col)))). Qed.
Lemma lstrip_length sp x : length (lstrip sp x) <= length x.
Proof. unfold lstrip. destruct (span sp x) as [u v] eqn:E. apply span_app in E. subst x. cbn [snd]. rewrite app_length. lia. Qed.
Lemma cell_fits cc col i : length (cell_shown cc (nth i (snd col) [])) <= col_width col.
Proof.
  unfold cell_shown, strip, rstrip. rewrite rev_length. pose proof (lstrip_length (cc_space cc)) as L.
  set (m := map _ _). assert (Hm : length m = length (nth i (snd col) [])) by apply map_length.
  pose proof (L m). pose proof (L (rev (lstrip (cc_space cc) m))) as L2. rewrite rev_length in L2.
  assert (N : length (nth i (snd col) []) <= list_max (map (@length char) (snd col))).
  { generalize (snd col). clear. intros l. revert i. induction l as [|c l IH]; intros [|i]; cbn [nth]; try (cbn; lia).
    exact (Nat.le_trans _ _ _ (IH i) (Nat.le_max_r (length c) (list_max (map (@length char) l)))). }
  pose proof (Nat.le_max_r (length (fst col)) (list_max (map (@length char) (snd col)))) as M. change (Nat.max (length (fst col)) (list_max (map (@length char) (snd col)))) with (col_width col) in M.
  eapply Nat.le_trans; [exact L2|]. eapply Nat.le_trans; [exact H|]. rewrite Hm. exact (Nat.le_trans _ _ _ N M).
Qed.
Lemma t_rule_widths cols : rule_widths (t_rule cols) = map col_width cols.
Proof.
  unfold rule_widths, t_rule, t_line. change (bar ++ ?x) with ([] ++ BAR :: x). rewrite split_on_app by easy. cbn [tl].
  induction cols as [|col cols IH]; [reflexivity|]. cbn [flat_map map]. rewrite <- app_assoc. change (bar ++ ?x) with (BAR :: x). rewrite split_on_app.
  - destruct (split_on BAR (flat_map (fun col => repeat MINUS (col_width col) ++ bar) cols)) eqn:E; [now apply split_on_nonempty in E|].
    change (map (@length char) (repeat MINUS (col_width col) :: removelast (s :: l)) = col_width col :: map col_width cols). cbn [map]. now rewrite repeat_length, IH.
  - intros Hi. apply repeat_spec in Hi. discriminate.
Qed.
Lemma lstrip_In sp x c : In c (lstrip sp x) -> In c x.
Proof. unfold lstrip. destruct (span sp x) as [u v] eqn:E. apply span_app in E. subst x. intros H. apply in_or_app. now right. Qed.
Lemma shown_no_nl cc x : ~ In NL (cell_shown cc x).
Proof.
  unfold cell_shown, strip, rstrip. intros H. apply in_rev in H. apply lstrip_In in H. apply in_rev in H. apply lstrip_In in H. apply in_map_iff in H as (d & E & _).
  destruct (N.eqb_spec d NL) as [Ed|Hn]; cbn [orb] in E; [discriminate|]. destruct (N.eqb d CR); [discriminate|]. now apply Hn.
Qed.
Lemma ljust_no w x : ~ In NL x -> ~ In NL (ljust w x).
Proof. intros H Hi. unfold ljust in Hi. apply in_app_or in Hi as [Hi|Hi]; [now apply H|]. apply repeat_spec in Hi. discriminate. Qed.
Lemma t_line_no_nl f cols : (forall col, In col cols -> ~ In NL (f col)) -> ~ In NL (t_line f cols).
Proof.
  intros H Hi. assert (B : ~ In NL bar) by (intros [X|[]]; discriminate). unfold t_line in Hi. apply in_app_or in Hi as [Hi|Hi]; [now apply B|].
  apply in_flat_map in Hi as (col & Hc & Hi). apply in_app_or in Hi as [Hi|Hi]; [now apply (H col)|now apply B].
Qed.

(** stripping *)
Definition trimmed (sp : char -> bool) (x : str) : Prop := lstrip sp x = x /\ rstrip sp x = x.
Lemma lstrip_idem sp x : lstrip sp (lstrip sp x) = lstrip sp x.
Proof.
  unfold lstrip. induction x as [|c x IH]; [reflexivity|]. cbn [span]. destruct (sp c) eqn:E.
  - destruct (span sp x) as [u v]. cbn [snd] in *. exact IH.
  - cbn [snd span]. now rewrite E.
Qed.
Lemma rstrip_spaces sp x n : sp SP = true -> rstrip sp (x ++ repeat SP n) = rstrip sp x.
Proof.
  intros H. unfold rstrip. rewrite rev_app_distr. f_equal.
  assert (R : rev (repeat SP n) = repeat SP n).
  { induction n as [|n IH]; [reflexivity|]. cbn [repeat rev]. rewrite IH. symmetry. apply (repeat_cons n SP). }
  rewrite R. clear R. induction n as [|n IH]; [reflexivity|]. cbn [repeat app]. unfold lstrip in *. cbn [span]. rewrite H. destruct (span sp (repeat SP n ++ rev x)). exact IH.
Qed.
Lemma lstrip_app sp x y : lstrip sp x <> [] -> lstrip sp (x ++ y) = lstrip sp x ++ y.
Proof.
  unfold lstrip. induction x as [|c x IH]; [easy|]. cbn [span app]. destruct (sp c).
  - destruct (span sp x) as [u v], (span sp (x ++ y)) as [u' v']. exact IH.
  - reflexivity.
Qed.
Lemma lstrip_all sp x : Forall (fun c => sp c = true) x -> lstrip sp x = [].
Proof. apply lstrip_nil_iff. Qed.
Lemma strip_idem sp x : strip sp (strip sp x) = strip sp x.
Proof.
  unfold strip. set (y := lstrip sp x).
  assert (E : lstrip sp (rstrip sp y) = rstrip sp y).
  { assert (Ey : lstrip sp y = y) by apply lstrip_idem. destruct y as [|c y]; [reflexivity|].
    assert (Hc : sp c = false). { unfold lstrip in Ey. cbn [span] in Ey. destruct (sp c) eqn:E; [|reflexivity]. destruct (span sp y) as [u v] eqn:F. cbn [snd] in Ey.
      apply span_app in F. subst y. exfalso. apply (f_equal (@length char)) in Ey. cbn [length] in Ey. rewrite app_length in Ey. lia. }
    unfold rstrip. cbn [rev]. destruct (list_eq_dec N.eq_dec (lstrip sp (rev y)) []) as [En|En].
    - assert (X : lstrip sp (rev y ++ [c]) = [c]).
      { apply lstrip_nil_iff in En. clear - En Hc. induction (rev y) as [|d r IH]; cbn [app]; unfold lstrip in *; cbn [span].
        - now rewrite Hc.
        - inversion En; subst. rewrite H1. destruct (span sp (r ++ [c])). now apply IH. }
      rewrite X. cbn [rev app]. unfold lstrip. cbn [span]. now rewrite Hc.
    - rewrite lstrip_app by exact En. rewrite rev_app_distr. cbn [rev app]. unfold lstrip at 1. cbn [span]. now rewrite Hc. }
  rewrite E. unfold rstrip. rewrite rev_involutive, lstrip_idem. reflexivity.
Qed.
Lemma strip_ljust sp w x : sp SP = true -> strip sp (ljust w (strip sp x)) = strip sp x.
Proof.
  intros H. set (y := strip sp x). unfold ljust. set (n := w - length y).
  destruct (list_eq_dec N.eq_dec y []) as [E|E].
  - rewrite E. apply strip_nil_iff. apply Forall_forall. intros c Hc. apply repeat_spec in Hc. now subst c.
  - assert (I : strip sp y = y) by apply strip_idem. unfold strip. rewrite lstrip_app.
    + rewrite rstrip_spaces by exact H. exact I.
    + intros X. apply E. rewrite <- I. unfold strip. now rewrite X.
Qed.

Lemma nth_lt {A} (l : list A) i x : nth_error l i = Some x -> i < length l.
Proof. intros H. apply nth_error_Some. congruence. Qed.

(** A table written at the start of a line adds one line per row after a line of names and a line of dashes. All these lines have
    the same length, and the dashes say how to read the others back: the names up to trailing white space, the cells as shown. *)
Theorem C83_table :
  forall cc, TokClassOK cc -> cc_space cc SP = true -> forall refloat file point pre s0 cols rows s,
  run_body cc refloat file point pre = Some s0 -> out_line s0 = [] ->
  exec cc refloat (OTdf cols rows) s0 = Some s ->
  (forall col, In col cols -> ~ In NL (fst col)) ->
  exists head rule body,
    out s = out s0 ++ lines_text (head :: rule :: body) /\ out_line s = [] /\ length body = rows /\
    Forall (fun l => ~ In NL l /\ length l = length rule) (head :: rule :: body) /\
    (exists hs, cells (rule_widths rule) head = Some hs /\ map (rstrip (cc_space cc)) hs = map (fun col => rstrip (cc_space cc) (fst col)) cols) /\
    (forall i l, nth_error body i = Some l -> exists cs, cells (rule_widths rule) l = Some cs /\
       map (strip (cc_space cc)) cs = map (fun col => cell_shown cc (nth i (snd col) [])) cols).
Proof.
  intros cc TOK HS refloat file point pre s0 cols rows s H0 HL HE HN.
  exists (t_head cols), (t_rule cols), (map (fun i => t_row cc i cols) (seq 0 rows)).
  assert (N1 : ~ In NL (t_head cols)) by (apply t_line_no_nl; intros; now apply ljust_no, HN).
  assert (N2 : ~ In NL (t_rule cols)) by (apply t_line_no_nl; intros col _ Hi; apply repeat_spec in Hi; discriminate).
  assert (N3 : forall i, ~ In NL (t_row cc i cols)) by (intros i; apply t_line_no_nl; intros; apply ljust_no, shown_no_nl).
  assert (L1 : forall col, In col cols -> length (ljust (col_width col) (fst col)) = col_width col) by (intros; apply ljust_length, name_fits).
  assert (L2 : forall col, In col cols -> length (repeat MINUS (col_width col)) = col_width col) by (intros; apply repeat_length).
  assert (L3 : forall i col, In col cols -> length (ljust (col_width col) (cell_shown cc (nth i (snd col) []))) = col_width col) by (intros; apply ljust_length, cell_fits).
  assert (OUT : out s = out s0 ++ lines_text (t_head cols :: t_rule cols :: map (fun i => t_row cc i cols) (seq 0 rows)) /\ out_line s = []).
  { rewrite <- table_lines. destruct (run_body_reaches cc TOK _ _ _ _ _ H0) as (ps & [Hg HR] & _).
    destruct (writes_tdf cc TOK _ cols rows _ _ _ HR HE) as (qs & [Hg2 HR2] & HT).
    pose proof (Rel_text _ _ _ _ HR) as T1. pose proof (Rel_text _ _ _ _ HR2) as T2. rewrite (asteps_text _ _ qs), <- T1, HT, HL, app_nil_r in T2.
    assert (HB : run_body cc refloat file point (pre ++ [OTdf cols rows]) = Some s).
    { unfold run_body in *. rewrite exec_all_app, H0. cbn [bind]. unfold exec_all. cbn [map steps]. rewrite HE. reflexivity. }
    destruct (run_body_written cc TOK refloat _ _ _ _ HB) as (_ & M1 & M2).
    apply (split_unique (out s) (out_line s) (out s0 ++ table_text cc cols rows) []); [exact M2| |exact M1|easy|now rewrite app_nil_r].
    right. rewrite table_lines. set (ls := t_rule cols :: _). assert (LN : ls <> []) by discriminate. destruct (exists_last LN) as (l & x & ->).
    cbn [lines_text flat_map]. unfold lines_text. rewrite flat_map_app. cbn [flat_map]. rewrite app_nil_r. eexists. rewrite !app_assoc. reflexivity. }
  split; [apply OUT|]. split; [apply OUT|]. split; [now rewrite map_length, seq_length|].
  assert (LR : length (t_rule cols) = S (list_sum (map (fun col => S (col_width col)) cols))) by (apply t_line_length; exact L2).
  split; [|rewrite t_rule_widths; split].
  - constructor; [split; [exact N1|rewrite LR; apply t_line_length; exact L1]|]. constructor; [split; [exact N2|reflexivity]|].
    apply Forall_forall. intros l Hl. apply in_map_iff in Hl as (i & <- & _). split; [apply N3|]. rewrite LR. apply t_line_length. apply L3.
  - eexists. split; [apply t_line_cells; exact L1|]. rewrite map_map. apply map_ext_in. intros col _. unfold ljust. now apply rstrip_spaces.
  - intros i l Hl. assert (Hi : i < rows) by (apply nth_lt in Hl; now rewrite map_length, seq_length in Hl).
    rewrite nth_error_map, (nth_error_nth' _ 0), seq_nth in Hl by (rewrite ?seq_length; exact Hi). injection Hl as <-. cbn [plus].
    eexists. split; [apply t_line_cells; apply L3|]. rewrite map_map. apply map_ext. intros col. now apply strip_ljust.
Qed.
Print Assumptions C83_table.

(** A cell with a line end and a bar in it, a name wider than its cells. *)
Example C83_example :
  let cols := [(lit "a", [lit " x" ++ [NL] ++ lit "y|"; lit "z"]); (lit "name", [lit "1"; lit "22"])] in
  exists s0 s, run_body ascii_class (fun _ => None) None false [OTln (lit "t")] = Some s0 /\ out_line s0 = [] /\
    exec ascii_class (fun _ => None) (OTdf cols 2) s0 = Some s /\
    out s = lines_text [lit "t"; lit "|a    |name|"; lit "|-----|----|"; lit "|x y| |1   |"; lit "|z    |22  |"] /\
    cells (rule_widths (lit "|-----|----|")) (lit "|x y| |1   |") = Some [lit "x y| "; lit "1   "].
Proof. cbv zeta. eexists _, _. repeat split; vm_compute; reflexivity. Qed.
