(** Properties of booktest/reports.py. *)
From Verif Require Import ReportsProofs.
From Coq Require Import Lia.

(** an instance of printing and reading durations, for the examples: n as n ones *)
Definition ones (n : nat) : str := repeat 49%N n.
Definition read_ones (s : str) : option nat :=
  if forallb (N.eqb 49) s then Some (length s) else None.
Lemma ones_ok : durations_ok ones read_ones.
Proof.
  intros d. assert (H : forallb (N.eqb 49) (ones d) = true)
    by (apply forallb_forall; intros x Hx; apply repeat_spec in Hx; now subst).
  split.
  - unfold read_ones. rewrite H. f_equal. apply repeat_length.
  - repeat split; intros Hi; apply repeat_spec in Hi; discriminate.
Qed.
Lemma ascii_space_ok : space_ok (cc_space ascii_class).
Proof.
  intros c [H1 H2]. cbn. unfold in_range. unfold char in *.
  destruct (N.leb_spec 9 c), (N.leb_spec c 13), (N.leb_spec 28 c), (N.leb_spec c 32);
    cbn; try reflexivity; exfalso; lia.
Qed.

(** C21 *)
Theorem C21_report_roundtrip :
  forall D (show_dur : D -> str) (parse_dur : str -> option D) sp,
  durations_ok show_dur parse_dur -> space_ok sp ->
  forall cases, names_ok cases ->
  of_file parse_dur sp (Some (report_text show_dur cases)) = cases.
Proof. intros D show_dur parse_dur sp H1 H2. exact (of_file_roundtrip show_dur parse_dur sp H1 H2). Qed.
Print Assumptions C21_report_roundtrip.

(** C22. [p] is what was written before the crash. *)
Theorem C22_crash_never_forges :
  forall D (show_dur : D -> str) (parse_dur : str -> option D) sp,
  durations_ok show_dur parse_dur -> space_ok sp ->
  forall cases p q, names_ok cases -> report_text show_dur cases = p ++ q ->
  exists k tl, of_file parse_dur sp (Some p) = firstn k cases ++ tl /\
    (tl = [] \/ exists n r d d', nth_error cases k = Some (n, r, d) /\ tl = [(n, r, d')]).
Proof. intros D show_dur parse_dur sp H1 H2. exact (of_file_prefix show_dur parse_dur sp H1 H2). Qed.
Print Assumptions C22_crash_never_forges.

(** C99. Whatever is in the file: the records that are read are those of its lines, in order, that are a name, OK, DIFF or FAIL and a
    duration (and possibly more) between tabs. Every other line is skipped and has no effect on the others. *)
Definition line_record {D} (parse_dur : str -> option D) (line : str) (c : case_rec D) : Prop :=
  exists name word dur rest r d,
    line = name ++ [TAB] ++ word ++ [TAB] ++ dur ++ rest /\ (rest = [] \/ exists more, rest = TAB :: more) /\
    ~ In TAB name /\ ~ In TAB dur /\
    (word = lit "OK" /\ r = OK \/ word = lit "DIFF" /\ r = DIFF \/ word = lit "FAIL" /\ r = FAIL) /\
    parse_dur dur = Some d /\ c = (name, r, d).
Inductive records {D} (parse_dur : str -> option D) : list str -> list (case_rec D) -> Prop :=
| records_nil : records parse_dur [] []
| records_read line c lines cases : line_record parse_dur line c -> records parse_dur lines cases -> records parse_dur (line :: lines) (c :: cases)
| records_skip line lines cases : (forall c, ~ line_record parse_dur line c) -> records parse_dur lines cases -> records parse_dur (line :: lines) cases.

Lemma parse_case_record D (parse_dur : str -> option D) sp line c : space_ok sp -> parse_case parse_dur sp line = Some c <-> line_record parse_dur line c.
Proof.
  intros SP. unfold parse_case. split.
  - destruct (strip sp line); [discriminate|]. pose proof (split_on_parts TAB line) as P. pose proof (join_split TAB line) as J.
    destruct (split_on TAB line) as [|name [|word [|dur more]]]; try discriminate. inversion P as [|? ? P1 P2]; subst. inversion P2 as [|? ? P3 P4]; subst. inversion P4 as [|? ? P5 _]; subst.
    destruct (result_of_name word) as [r|] eqn:ER; [|discriminate]. destruct (parse_dur dur) as [d|] eqn:ED; [|discriminate]. intros [= <-].
    exists name, word, dur, (match more with [] => [] | _ => TAB :: join_with [TAB] more end), r, d. split.
    + destruct more as [|m more]; cbn [join_with]; [now rewrite app_nil_r|]. reflexivity.
    + split; [destruct more; eauto|]. split; [exact P1|]. split; [exact P5|]. split; [|now split]. unfold result_of_name in ER.
      destruct (str_eqb_spec word (lit "OK")) as [->|_]; [injection ER as <-; auto|].
      destruct (str_eqb_spec word (lit "DIFF")) as [->|_]; [injection ER as <-; auto|].
      destruct (str_eqb_spec word (lit "FAIL")) as [->|_]; [injection ER as <-; auto|discriminate].
  - intros (name & word & dur & rest & r & d & -> & HR & N1 & N2 & HW & HD & ->).
    assert (W : ~ In TAB word /\ result_of_name word = Some r /\ exists x w, word = x :: w /\ (33 <= x <= 126)%N).
    { destruct HW as [[-> ->]|[[-> ->]|[-> ->]]]; (split; [vm_compute; intuition discriminate|]); (split; [reflexivity|]); do 2 eexists; (split; [reflexivity|]); split; discriminate. }
    destruct W as (NW & RW & x & w & EW & BX).
    assert (ST : strip sp (name ++ [TAB] ++ word ++ [TAB] ++ dur ++ rest) <> []).
    { intros E. assert (A : forall s, strip sp s = [] -> forall y, In y s -> sp y = true).
      { intros s ES y IY. apply strip_nil_iff in ES. rewrite Forall_forall in ES. now apply ES. }
      specialize (A _ E x). rewrite SP in A by exact BX. assert (false = true); [|discriminate]. apply A. rewrite EW. apply in_or_app. right. right. left. reflexivity. }
    destruct (strip sp _) eqn:E; [congruence|]. cbn [app]. rewrite split_on_app by exact N1. rewrite split_on_app by exact NW.
    destruct HR as [->|(more & ->)].
    + rewrite app_nil_r, split_on_no_sep by exact N2. now rewrite RW, HD.
    + rewrite split_on_app by exact N2. now rewrite RW, HD.
Qed.
Theorem C99_any_report : forall D (parse_dur : str -> option D) sp, space_ok sp -> forall text,
  exists lines, Forall (fun l => ~ In NL l) lines /\
    (univ_newlines text = join_with [NL] lines \/ univ_newlines text = join_with [NL] lines ++ [NL]) /\
    records parse_dur lines (of_file parse_dur sp (Some text)).
Proof.
  intros D parse_dur sp SP text. exists (read_lines (Some text)). unfold of_file. split; [|split].
  - pose proof (split_on_parts NL (univ_newlines text)) as P. unfold read_lines. destruct (last _ _); [|exact P].
    destruct (exists_last (split_on_nonempty NL (univ_newlines text))) as (l & x & E). rewrite E in *. rewrite removelast_last. apply Forall_app in P. apply P.
  - pose proof (join_split NL (univ_newlines text)) as J. unfold read_lines. destruct (exists_last (split_on_nonempty NL (univ_newlines text))) as (l & x & E). rewrite E in *.
    rewrite last_last. destruct x as [|y x]; [|left; now rewrite J]. rewrite removelast_last. destruct l as [|m l]; [left; now rewrite <- J|right].
    rewrite <- J. clear. revert m. induction l as [|k l IH]; intros m; [reflexivity|]. cbn [app] in *. change (join_with [NL] (m :: k :: l ++ [[]])) with (m ++ [NL] ++ join_with [NL] (k :: l ++ [[]])).
    rewrite IH. change (join_with [NL] (m :: k :: l)) with (m ++ [NL] ++ join_with [NL] (k :: l)). now rewrite <- !app_assoc.
  - generalize (read_lines (Some text)). intros lines. induction lines as [|j lines IH]; cbn [flat_map]; [constructor|].
    destruct (parse_case parse_dur sp j) as [c|] eqn:E; cbn [app].
    + apply records_read; [|exact IH]. now apply parse_case_record in E.
    + apply records_skip; [|exact IH]. intros c H. apply (parse_case_record D parse_dur sp j c SP) in H. congruence.
Qed.
Print Assumptions C99_any_report.
Example C99_example :
  let text := lit "a" ++ [TAB] ++ lit "OK" ++ [TAB] ++ lit "11" ++ [NL] ++ lit "b" ++ [TAB] ++ lit "ok" ++ [TAB] ++ lit "1" ++ [NL; NL] ++ lit "c" ++ [TAB] ++ lit "FAIL" ++ [NL]
    ++ lit "d" ++ [TAB] ++ lit "FAIL" ++ [TAB] ++ lit "1" ++ [TAB] ++ lit "?" in
  of_file read_ones (cc_space ascii_class) (Some text) = [(lit "a", OK, 2); (lit "d", FAIL, 1)].
Proof. vm_compute. reflexivity. Qed.

(** C57 *)
Theorem C57_lines_roundtrip_refuted : read_lines (Some (write_lines [])) <> [].
Proof. discriminate. Qed.
Print Assumptions C57_lines_roundtrip_refuted.

Theorem C57_lines_roundtrip_partial :
  forall ls, ls <> [] -> Forall (fun l => ~ In NL l /\ ~ In CR l) ls ->
  read_lines (Some (write_lines ls)) = ls.
Proof. exact write_read_lines. Qed.
Print Assumptions C57_lines_roundtrip_partial.

Example C21_C22_example :
  let cases := [(lit "test/a", OK, 3); (lit "b c", DIFF, 0); (lit "d", FAIL, 12)] in
  names_ok cases /\
  of_file read_ones (cc_space ascii_class) (Some (report_text ones cases)) = cases /\
  of_file read_ones (cc_space ascii_class) (Some (firstn 20 (report_text ones cases))) = [(lit "test/a", OK, 3)] /\
  of_file read_ones (cc_space ascii_class) (Some (firstn 11 (report_text ones cases))) = [(lit "test/a", OK, 1)].
Proof.
  split; [repeat constructor; vm_compute; intuition discriminate|]. repeat split; vm_compute; reflexivity.
Qed.

Example C57_example :
  [lit "a"; []; lit "b"; []] <> [] /\
  Forall (fun l => ~ In NL l /\ ~ In CR l) [lit "a"; []; lit "b"; []].
Proof. split; [discriminate|]. repeat constructor; vm_compute; intuition discriminate. Qed.
