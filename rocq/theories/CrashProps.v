(** C100: the process dies while an output is accepted (booktest/review.py:85-98). *)
From Verif Require Import CrashModel ReviewProofs ReviewSpec FsFacts.
From Coq Require Import Lia.

(** False: killed between the two renames, the snapshot has the new text but neither the old nor the new files, and accepting
    again raises. *)
Theorem C100_accept_again_refuted : exists f f' g,
  freeze_case (lit "books") (lit "books/.out") (lit "t") f = Ret tt f' /\ lookup (lit "books/t/.requests.json") f' <> None /\
  freeze_killed (lit "books") (lit "books/.out") (lit "t") f g /\
  lookup (lit "books/t.md") g = lookup (lit "books/t.md") f' /\ lookup (lit "books/t/.requests.json") f <> None /\
  lookup (lit "books/t/.requests.json") g = None /\ freeze_case (lit "books") (lit "books/.out") (lit "t") g = Raise g.
Proof.
  exists [(lit "books/t.md", lit "old"); (lit "books/t/.requests.json", lit "{}"); (lit "books/.out/t.md", lit "new");
          (lit "books/.out/t/.requests.json", lit "{1}")].
  eexists. eexists. split; [vm_compute; reflexivity|]. split; [vm_compute; discriminate|]. split.
  - eapply killed_moving; vm_compute; reflexivity.
  - vm_compute. repeat split; discriminate.
Qed.
Print Assumptions C100_accept_again_refuted.

(** True whenever it dies: the text of the snapshot is the old one or the new one; every file of the output is where it was or is
    in the snapshot; no file of the snapshot has another text than before or in the output, and with the new text there are no old
    files; no other file is touched; and if the .md file of the output has not been moved, accepting again does what accepting would
    have done. The hypotheses are those of C19. *)
Theorem C100_crash_partial exp o n f c g :
  plain_dir exp -> plain o -> plain n -> ~ path_prefix o n -> ~ path_prefix n o ->
  let out := exp ++ SLASH :: o in
  lookup (out ++ SLASH :: n ++ lit ".md") f = Some c ->
  lookup (exp ++ SLASH :: n) f = None -> lookup (out ++ SLASH :: n) f = None ->
  is_dir (exp ++ SLASH :: n ++ lit ".md") f = false ->
  freeze_killed exp out n f g ->
  let new_text := lookup (exp ++ SLASH :: n ++ lit ".md") g = Some c /\ lookup (out ++ SLASH :: n ++ lit ".md") g = None in
  let old_text := lookup (exp ++ SLASH :: n ++ lit ".md") g = lookup (exp ++ SLASH :: n ++ lit ".md") f /\
                  lookup (out ++ SLASH :: n ++ lit ".md") g = Some c in
  (old_text \/ new_text) /\
  (forall r t, lookup (out ++ SLASH :: n ++ SLASH :: r) f = Some t ->
     lookup (out ++ SLASH :: n ++ SLASH :: r) g = Some t \/ lookup (exp ++ SLASH :: n ++ SLASH :: r) g = Some t) /\
  (forall r t, lookup (exp ++ SLASH :: n ++ SLASH :: r) g = Some t ->
     old_text /\ lookup (exp ++ SLASH :: n ++ SLASH :: r) f = Some t \/ new_text /\ lookup (out ++ SLASH :: n ++ SLASH :: r) f = Some t) /\
  (forall p, ~ case_file exp n p -> ~ case_file out n p -> lookup p g = lookup p f) /\
  (old_text -> exists f', freeze_case exp out n g = Ret tt f' /\ accepted exp out n f f').
Proof.
  intros P1 P2 P3 P4 P5 out H1 H2 H3 H4 K new_text old_text.
  destruct (plain_join exp n P1 P3) as [J1 J2]. destruct (plain_join out n (plain_O exp o n P1 P2 P4 P5) P3) as [J3 J4].
  assert (L1 : forall r, exp ++ SLASH :: n ++ SLASH :: r = (exp ++ SLASH :: n) ++ SLASH :: r) by (intros r; now rewrite <- app_assoc).
  assert (B1 : below (exp ++ SLASH :: n) (exp ++ SLASH :: n ++ lit ".md") = false) by apply md_not_below_dir.
  assert (B2 : forall y, below (exp ++ SLASH :: n) (out ++ SLASH :: n ++ y) = false) by (intros y; exact (O_not_below_E exp o n P4 P5 y)).
  assert (B3 : forall r, below (exp ++ SLASH :: n) (exp ++ SLASH :: n ++ SLASH :: r) = true) by (intros r; rewrite L1; apply below_slash).
  assert (OLD : old_text -> new_text -> False).
  { intros [_ O1] [_ O2]. congruence. }
  (* while files are removed *)
  assert (RM : (forall p, lookup p g = lookup p f \/ below (exp ++ SLASH :: n) p = true /\ lookup p g = None) -> old_text /\
    (forall r t, lookup (out ++ SLASH :: n ++ SLASH :: r) f = Some t ->
       lookup (out ++ SLASH :: n ++ SLASH :: r) g = Some t \/ lookup (exp ++ SLASH :: n ++ SLASH :: r) g = Some t) /\
    (forall r t, lookup (exp ++ SLASH :: n ++ SLASH :: r) g = Some t -> lookup (exp ++ SLASH :: n ++ SLASH :: r) f = Some t) /\
    (forall p, ~ case_file exp n p -> ~ case_file out n p -> lookup p g = lookup p f) /\
    (exists f', freeze_case exp out n g = Ret tt f' /\ accepted exp out n f f')).
  { intros G.
    assert (GE : forall p, below (exp ++ SLASH :: n) p = false -> lookup p g = lookup p f).
    { intros p B. destruct (G p) as [?|[? _]]; congruence. }
    assert (GO : forall y, lookup (out ++ SLASH :: n ++ y) g = lookup (out ++ SLASH :: n ++ y) f) by (intros y; apply GE, B2).
    assert (REST : forall p, ~ case_file exp n p -> lookup p g = lookup p f).
    { intros p NP. destruct (G p) as [?|[B _]]; [assumption|]. exfalso. apply NP. right. apply below_iff in B as [r ->]. exists r.
      now rewrite L1. }
    split; [|split; [|split; [|split]]].
    - split; [now apply GE|]. now rewrite (GO (lit ".md")).
    - intros r t T. left. now rewrite (GO (SLASH :: r)).
    - intros r t T. destruct (G (exp ++ SLASH :: n ++ SLASH :: r)) as [E|[_ E]]; congruence.
    - intros p NP _. now apply REST.
    - destruct (freeze_accepts exp o n P1 P2 P3 P4 P5 g) with (c := c) as (f' & F & A).
      + destruct (G (exp ++ SLASH :: n)) as [E|[_ E]]; congruence.
      + unfold E_md. destruct (is_dir (exp ++ SLASH :: n ++ lit ".md") g) eqn:D; [|reflexivity].
        apply is_dir_iff in D as (p & t & T & B). rewrite <- H4. symmetry. apply is_dir_iff. exists p, t. split; [|assumption].
        destruct (G p) as [E|[_ E]]; congruence.
      + fold out. rewrite <- (app_nil_r n). rewrite GO, app_nil_r. exact H3.
      + unfold O_md. fold out. now rewrite GO.
      + exists f'. split; [exact F|]. fold out in A. destruct A as [A1 A2 A3 A4]. constructor.
        * rewrite A1. apply GO.
        * intros r. rewrite A2. apply GO.
        * exact A3.
        * intros p N1 N2. rewrite A4 by assumption. now apply REST. }
  (* when the .md file has been moved *)
  assert (MV : forall h, (if path_exists (exp ++ SLASH :: n) f then rmtree (exp ++ SLASH :: n) f else Ret tt f) = Ret tt h ->
    forall p, lookup p h = if below (exp ++ SLASH :: n) p then None else lookup p f).
  { intros h. unfold path_exists, is_file. rewrite H2. cbn [orb]. unfold rmtree.
    destruct (is_dir (exp ++ SLASH :: n) f) eqn:D; intros E p; injection E as <-.
    - rewrite (lookup_filter p (fun x => negb (below (exp ++ SLASH :: n) x))). now destruct (below _ p).
    - destruct (below _ p) eqn:B; [now apply (is_dir_false _ _ _ D)|reflexivity]. }
  destruct K as [|keep D|h g R1 R2|g F].
  - destruct RM as (O1 & O2 & O3 & O4 & O5); [intros p; now left|]. repeat split; auto.
  - rewrite J1 in *. destruct RM as (O1 & O2 & O3 & O4 & O5).
    { intros p. rewrite (lookup_filter p (fun x => negb (below (exp ++ SLASH :: n) x) || keep x)).
      destruct (below (exp ++ SLASH :: n) p); cbn [negb orb]; [|now left]. destruct (keep p); [now left|now right]. }
    repeat split; auto.
  - rewrite J1 in R1. rewrite J2, J4 in R2. specialize (MV _ R1). clear RM R1. unfold rename_file in R2.
    rewrite MV, B2, H1 in R2. destruct (is_dir _ h); [discriminate|]. injection R2 as <-.
    set (Emd := exp ++ SLASH :: n ++ lit ".md") in *. set (Omd := out ++ SLASH :: n ++ lit ".md") in *.
    assert (L : forall p, lookup p (write_file Emd c (remove_file Omd h)) =
      if str_eqb Emd p then Some c else if str_eqb Omd p then None else if below (exp ++ SLASH :: n) p then None else lookup p f).
    { intros p. now rewrite lookup_write, lookup_remove, MV. }
    assert (EO : str_eqb Emd Omd = false) by (apply str_eqb_neq; now apply E_O_md).
    assert (NEW : new_text).
    { unfold new_text. rewrite !L, !str_eqb_refl, EO. split; reflexivity. }
    assert (DE : forall r, str_eqb Emd (exp ++ SLASH :: n ++ SLASH :: r) = false).
    { intros r. apply str_eqb_neq. unfold Emd. intros E. apply app_inv_head in E. injection E as E. apply app_inv_head in E. discriminate. }
    split; [now right|]. split; [|split; [|split]].
    + intros r t T. left. rewrite L. destruct (str_eqb_spec Emd (out ++ SLASH :: n ++ SLASH :: r)) as [E|_]; [now apply E_O_md in E|].
      destruct (str_eqb_spec Omd (out ++ SLASH :: n ++ SLASH :: r)) as [E|_].
      { unfold Omd in E. apply app_inv_head in E. injection E as E. apply app_inv_head in E. discriminate. }
      now rewrite B2.
    + intros r t T. exfalso. rewrite L, DE, B3 in T. now destruct (str_eqb Omd _).
    + intros p N1 N2. rewrite L. destruct (str_eqb_spec Emd p) as [<-|_]; [exfalso; apply N1; now left|].
      destruct (str_eqb_spec Omd p) as [<-|_]; [exfalso; apply N2; now left|].
      destruct (below (exp ++ SLASH :: n) p) eqn:B; [|reflexivity]. exfalso. apply N1. right. apply below_iff in B as [r ->]. exists r. now rewrite L1.
    + intros O1. destruct (OLD O1 NEW).
  - destruct (freeze_accepts exp o n P1 P2 P3 P4 P5 f H2 H4 H3 c H1) as (f' & F' & [A1 A2 A3 A4]). fold out in F', A1, A2, A3, A4. rewrite F in F'. injection F' as <-.
    assert (NEW : new_text).
    { unfold new_text. rewrite A1, H1. split; [reflexivity|]. apply A3. now left. }
    split; [now right|]. split; [|split; [|split]].
    + intros r t T. right. now rewrite A2.
    + intros r t T. right. split; [assumption|]. now rewrite <- A2.
    + exact A4.
    + intros O1. destruct (OLD O1 NEW).
Qed.
Print Assumptions C100_crash_partial.

(** a crash while the old files are being removed *)
Example C100_ex :
  let f := [(lit "books/.out/t/a.md", lit "new"); (lit "books/.out/t/a/pic", lit "p2"); (lit "books/t/a.md", lit "old");
            (lit "books/t/a/stale", lit "s"); (lit "books/t/a/pic", lit "p1"); (lit "books/t/ab.md", lit "other")] in
  let g := filter (fun e => negb (str_eqb (fst e) (lit "books/t/a/stale"))) f in
  plain_dir (lit "books") /\ plain (lit ".out") /\ plain (lit "t/a") /\
  lookup (lit "books/.out/t/a.md") f = Some (lit "new") /\ is_dir (lit "books/t/a.md") f = false /\
  freeze_killed (lit "books") (lit "books/.out") (lit "t/a") f g /\ lookup (lit "books/t/a/pic") g = Some (lit "p1") /\
  exists f', freeze_case (lit "books") (lit "books/.out") (lit "t/a") g = Ret tt f' /\ lookup (lit "books/t/a/pic") f' = Some (lit "p2").
Proof.
  intros f g. repeat (split; [repeat split; (discriminate || reflexivity)|]). split; [|split; [reflexivity|eexists; vm_compute; split; reflexivity]].
  assert (E : g = filter (fun e => negb (below (path_join (lit "books") (lit "t/a")) (fst e)) ||
                                   (fun p => negb (str_eqb p (lit "books/t/a/stale"))) (fst e)) f) by reflexivity.
  rewrite E. exact (killed_removing (lit "books") (lit "books/.out") (lit "t/a") f (fun p => negb (str_eqb p (lit "books/t/a/stale"))) eq_refl).
Qed.
