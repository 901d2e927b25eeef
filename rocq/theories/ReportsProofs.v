(** Proofs about reports.py. *)
From Verif Require Export ReportsSpec PyStrFacts.
From Coq Require Import Lia.

(** ** lines *)
Lemma split_nl_text (ls : list str) (x : str) :
  Forall (fun l => ~ In NL l) ls -> ~ In NL x ->
  split_on NL (flat_map (fun l => l ++ [NL]) ls ++ x) = ls ++ [x].
Proof.
  intros H Hx. induction H as [|l ls Hl _ IH]; [now apply split_on_no_sep|].
  cbn [flat_map]. rewrite <- !app_assoc. cbn [app].
  rewrite split_on_app by exact Hl. now rewrite IH.
Qed.

Lemma not_in_lines (c : char) (ls : list str) : c <> NL -> Forall (fun l => ~ In c l) ls ->
  ~ In c (flat_map (fun l => l ++ [NL]) ls).
Proof.
  intros Hc H. induction H as [|l ls Hl _ IH]; [easy|]. cbn [flat_map].
  rewrite !in_app_iff. intros [[H|[H|[]]]|H]; [now apply Hl|congruence|now apply IH].
Qed.

(** reading a text of complete lines followed by a part of a line *)
Lemma read_lines_text (ls : list str) (x : str) :
  Forall (fun l => ~ In NL l /\ ~ In CR l) ls -> ~ In NL x -> ~ In CR x ->
  read_lines (Some (flat_map (fun l => l ++ [NL]) ls ++ x)) =
  ls ++ match x with [] => [] | _ => [x] end.
Proof.
  intros H Hx Hc. unfold read_lines.
  rewrite univ_newlines_id.
  2: { rewrite in_app_iff. intros [Hi|Hi]; [|contradiction]. revert Hi.
       apply not_in_lines; [discriminate|]. eapply Forall_impl; [|exact H]. now intros l [_ ?]. }
  rewrite split_nl_text; [|eapply Forall_impl; [|exact H]; now intros l [? _]|exact Hx].
  rewrite last_last, removelast_last. destruct x; [now rewrite app_nil_r|reflexivity].
Qed.

Lemma join_lines (ls : list str) : ls <> [] ->
  join_with [NL] ls ++ [NL] = flat_map (fun l => l ++ [NL]) ls.
Proof.
  induction ls as [|l ls IH]; [easy|]. intros _. destruct ls as [|m ls].
  - cbn. now rewrite app_nil_r.
  - rewrite join_cons by discriminate. cbn [flat_map] in *. rewrite <- !app_assoc.
    rewrite IH by discriminate. now rewrite <- app_assoc.
Qed.

Lemma write_read_lines ls : ls <> [] -> Forall (fun l => ~ In NL l /\ ~ In CR l) ls ->
  read_lines (Some (write_lines ls)) = ls.
Proof.
  intros Hne H. unfold write_lines. rewrite join_lines by exact Hne.
  rewrite <- (app_nil_r (flat_map _ ls)), read_lines_text by (auto; easy). now rewrite app_nil_r.
Qed.

(** ** records *)
Section Reports.
Context {D : Type} (show_dur : D -> str) (parse_dur : str -> option D) (sp : char -> bool).
Hypothesis DUR : durations_ok show_dur parse_dur.
Hypothesis SPC : space_ok sp.

Definition body (c : case_rec D) : str :=
  rec_name c ++ [TAB] ++ result_name (rec_result c) ++ [TAB] ++ show_dur (rec_dur c).

Lemma case_line_body c : case_line show_dur c = body c ++ [NL].
Proof. unfold case_line, body. now rewrite <- !app_assoc. Qed.

Lemma report_text_lines cases :
  report_text show_dur cases = flat_map (fun l => l ++ [NL]) (map body cases).
Proof.
  unfold report_text. induction cases as [|c cases IH]; [reflexivity|].
  cbn [flat_map map]. now rewrite case_line_body, IH.
Qed.

Lemma result_name_field r : field_ok (result_name r).
Proof. destruct r; vm_compute; intuition discriminate. Qed.

Lemma result_of_name_name r : result_of_name (result_name r) = Some r.
Proof. now destruct r. Qed.

Lemma not_strip (x : str) (c : char) : In c x -> sp c = false -> strip sp x <> [].
Proof.
  intros Hi Hs H. apply strip_nil_iff in H. rewrite Forall_forall in H. rewrite (H _ Hi) in Hs. discriminate.
Qed.

Lemma body_field c : field_ok (rec_name c) -> ~ In NL (body c) /\ ~ In CR (body c).
Proof.
  intros (_ & Hn & Hc). destruct (DUR (rec_dur c)) as [_ (_ & Hdn & Hdc)].
  destruct (result_name_field (rec_result c)) as (_ & Hrn & Hrc).
  unfold body. split; rewrite !in_app_iff; intros H;
    repeat match goal with H : _ \/ _ |- _ => destruct H | H : In _ [TAB] |- _ => destruct H as [H|[]]; discriminate end;
    auto.
Qed.

Lemma result_char r : exists c, In c (result_name r) /\ (33 <= c <= 126)%N.
Proof.
  destruct r; [exists 79%N|exists 70%N|exists 68%N]; (split; [vm_compute; auto|lia]).
Qed.

Lemma split_body n r x : ~ In TAB n ->
  split_on TAB (n ++ [TAB] ++ result_name r ++ [TAB] ++ x) = n :: result_name r :: split_on TAB x.
Proof.
  intros Hn. cbn [app]. rewrite split_on_app by exact Hn. f_equal.
  destruct (result_name_field r) as (Hr & _). now rewrite split_on_app.
Qed.

(** a line that starts with a whole name and result *)
Lemma parse_case_full n r x : ~ In TAB n -> ~ In TAB x ->
  parse_case parse_dur sp (n ++ [TAB] ++ result_name r ++ [TAB] ++ x) =
  match parse_dur x with Some d => Some (n, r, d) | None => None end.
Proof.
  intros Hn Hx. unfold parse_case. destruct (result_char r) as (c & Hc & Hr).
  destruct (strip sp _) eqn:Es.
  { exfalso. revert Es. apply (not_strip _ c); [|now apply SPC]. rewrite !in_app_iff. tauto. }
  rewrite split_body by exact Hn. rewrite split_on_no_sep by exact Hx.
  rewrite result_of_name_name. reflexivity.
Qed.

Lemma parse_body c : field_ok (rec_name c) -> parse_case parse_dur sp (body c) = Some c.
Proof.
  intros (Ht & _). unfold body. destruct (DUR (rec_dur c)) as [Hp (Hd & _)].
  rewrite parse_case_full by assumption. rewrite Hp. now destruct c as [[n r] d].
Qed.

Lemma of_file_roundtrip cases : names_ok cases ->
  of_file parse_dur sp (Some (report_text show_dur cases)) = cases.
Proof.
  intros H. unfold of_file. rewrite report_text_lines.
  rewrite <- (app_nil_r (flat_map (fun l => l ++ [NL]) (map body cases))).
  rewrite read_lines_text; [|rewrite Forall_map; eapply Forall_impl; [|exact H]; intros c Hc; now apply body_field|easy|easy].
  rewrite app_nil_r. unfold names_ok in H. clear -H DUR SPC. induction H as [|c cases Hc _ IH]; [reflexivity|].
  cbn [map flat_map]. rewrite parse_body by exact Hc. now rewrite IH.
Qed.

(** a proper part of a line yields nothing, or the right name and result *)
Lemma parse_part c p q : field_ok (rec_name c) -> body c = p ++ q ->
  parse_case parse_dur sp p = None \/ exists d, parse_case parse_dur sp p = Some (rec_name c, rec_result c, d).
Proof.
  intros (Ht & _) E. unfold body in E. destruct (DUR (rec_dur c)) as [_ (Hd & _)].
  destruct (result_name_field (rec_result c)) as (Hr & _).
  apply app_eq_app in E as (x & [[E1 E2]|[E1 E2]]).
  - (* p within the name *) left. unfold parse_case. destruct (strip sp p); [reflexivity|].
    rewrite split_on_no_sep; [reflexivity|]. intros H. apply Ht. rewrite E1, in_app_iff. auto.
  - destruct x as [|t x].
    { left. rewrite app_nil_r in E1. subst p. unfold parse_case. destruct (strip sp _); [reflexivity|].
      now rewrite split_on_no_sep. }
    cbn [app] in E2. injection E2 as <- E2. apply app_eq_app in E2 as (y & [[E3 E4]|[E3 E4]]).
    + left. unfold parse_case. destruct (strip sp p); [reflexivity|]. subst p.
      rewrite split_on_app by exact Ht. rewrite split_on_no_sep; [reflexivity|].
      intros H. apply Hr. rewrite E3, in_app_iff. auto.
    + destruct y as [|t y].
      { left. unfold parse_case. destruct (strip sp p); [reflexivity|]. subst p x.
        rewrite app_nil_r, split_on_app by exact Ht. now rewrite split_on_no_sep. }
      cbn [app] in E4. injection E4 as <- E4. subst p x.
      change (rec_name c ++ TAB :: result_name (rec_result c) ++ TAB :: y)
        with (rec_name c ++ [TAB] ++ result_name (rec_result c) ++ [TAB] ++ y).
      rewrite parse_case_full; [|exact Ht|intros H; apply Hd; rewrite E4, in_app_iff; auto].
      destruct (parse_dur y) as [d|]; [right; eauto|now left].
Qed.

(** a prefix of a text of lines is some whole lines and a part of the next *)
Lemma lines_prefix (ls : list str) : forall p q : str,
  flat_map (fun l => l ++ [NL]) ls = p ++ q ->
  exists k x y, p = flat_map (fun l => l ++ [NL]) (firstn k ls) ++ x /\
    (x = [] \/ nth_error ls k = Some (x ++ y)).
Proof.
  induction ls as [|l ls IH]; intros p q E.
  - symmetry in E. apply app_eq_nil in E as [-> ->]. exists 0, [], []. auto.
  - cbn [flat_map] in E. apply app_eq_app in E as (z & [[E1 E2]|[E1 E2]]).
    + destruct z as [|c z] using rev_ind.
      * rewrite app_nil_r in E1. subst p. exists 1, [], []. cbn. now rewrite !app_nil_r; auto.
      * clear IHz. rewrite app_assoc in E1. apply app_inj_tail in E1 as [-> _].
        exists 0, p, z. cbn. auto.
    + destruct (IH _ _ E2) as (k & x & y & -> & H). exists (S k), x, y. split; [|exact H].
      cbn [firstn flat_map]. now rewrite E1, <- !app_assoc.
Qed.

Lemma flat_map_parse cases : names_ok cases ->
  flat_map (fun j => match parse_case parse_dur sp j with Some c => [c] | None => [] end) (map body cases) = cases.
Proof.
  intros H. induction H as [|c cases Hc _ IH]; [reflexivity|].
  cbn [map flat_map]. rewrite parse_body by exact Hc. now rewrite IH.
Qed.

Lemma of_file_prefix cases p q : names_ok cases -> report_text show_dur cases = p ++ q ->
  exists k tl, of_file parse_dur sp (Some p) = firstn k cases ++ tl /\
    (tl = [] \/ exists n r d d', nth_error cases k = Some (n, r, d) /\ tl = [(n, r, d')]).
Proof.
  intros H E. rewrite report_text_lines in E. destruct (lines_prefix _ _ _ E) as (k & x & y & -> & Hx).
  assert (Hk : names_ok (firstn k cases)).
  { unfold names_ok in *. rewrite Forall_forall in *. intros c Hc. apply H.
    rewrite <- (firstn_skipn k cases), in_app_iff. now left. }
  exists k. rewrite firstn_map. unfold of_file. rewrite read_lines_text.
  2: { rewrite Forall_map. eapply Forall_impl; [|exact Hk]. intros c Hc. now apply body_field. }
  - rewrite flat_map_app, flat_map_parse by exact Hk.
    destruct Hx as [->|Hx]; [exists []; split; [reflexivity|now left]|].
    destruct x as [|c0 x]; [exists []; split; [reflexivity|now left]|].
    rewrite nth_error_map in Hx. destruct (nth_error cases k) as [c|] eqn:Ec; [|discriminate].
    cbn [option_map] in Hx. injection Hx as Hx.
    assert (Hc : field_ok (rec_name c)).
    { unfold names_ok in H. rewrite Forall_forall in H. apply H. eapply nth_error_In; eauto. }
    cbn [flat_map]. rewrite app_nil_r.
    destruct (parse_part c (c0 :: x) y Hc Hx) as [->|[d ->]].
    + exists []. rewrite app_nil_r. auto.
    + eexists. split; [reflexivity|]. right. destruct c as [[n r] d0]. exists n, r, d0, d. auto.
  - destruct Hx as [->|Hx]; [easy|]. rewrite nth_error_map in Hx.
    destruct (nth_error cases k) as [c|] eqn:Ec; [|discriminate]. injection Hx as Hx.
    destruct (body_field c) as [Hb _].
    { unfold names_ok in H. rewrite Forall_forall in H. apply H. eapply nth_error_In; eauto. }
    intros Hi. apply Hb. rewrite Hx, in_app_iff. auto.
  - destruct Hx as [->|Hx]; [easy|]. rewrite nth_error_map in Hx.
    destruct (nth_error cases k) as [c|] eqn:Ec; [|discriminate]. injection Hx as Hx.
    destruct (body_field c) as [_ Hb].
    { unfold names_ok in H. rewrite Forall_forall in H. apply H. eapply nth_error_In; eauto. }
    intros Hi. apply Hb. rewrite Hx, in_app_iff. auto.
Qed.

End Reports.
