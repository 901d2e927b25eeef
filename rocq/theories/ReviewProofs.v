(** Proofs about review.py. *)
From Verif Require Export ReviewSpec FsFacts.
From Coq Require Import Lia.

(** ** paths *)
Lemma plain_join d n : plain_dir d -> plain n ->
  path_join d n = d ++ SLASH :: n /\ path_join d (n ++ lit ".md") = d ++ SLASH :: n ++ lit ".md".
Proof.
  intros (Hd & He) (Hn & Hs & _). split; apply path_join_plain; auto.
  destruct n; [easy|]. exact Hs.
Qed.

Lemma app_slash_inv (a b x y : str) : a ++ SLASH :: x = b ++ SLASH :: y ->
  path_prefix a b \/ path_prefix b a.
Proof.
  revert b; induction a as [|c a IH]; intros [|d b] E.
  - left. now left.
  - left. right. simpl in E. injection E as E1 E2. exists b. simpl. now rewrite E1.
  - right. right. simpl in E. injection E as E1 E2. exists a. simpl. now rewrite <- E1.
  - simpl in E. injection E as -> E. destruct (IH _ E) as [[H|[r H]]|[H|[r H]]]; subst.
    + left. now left.
    + left. right. now exists r.
    + right. now left.
    + right. right. now exists r.
Qed.

Lemma md_no_slash : ~ In SLASH (lit ".md").
Proof. vm_compute. intuition discriminate. Qed.

(** [a/x = b.md] only if [a] is a directory above [b] *)
Lemma md_slash_inv (a b x : str) : b ++ lit ".md" = a ++ SLASH :: x -> exists r, b = a ++ SLASH :: r.
Proof.
  revert b; induction a as [|c a IH]; intros [|d b] E.
  - discriminate E.
  - cbn [app] in E. injection E as -> _. now exists b.
  - exfalso. apply md_no_slash. cbn [app] in E. rewrite E. right. apply in_or_app. right. now left.
  - cbn [app] in E. injection E as -> E. destruct (IH _ E) as [r ->]. now exists r.
Qed.

Lemma below_slash a r : below a (a ++ SLASH :: r) = true.
Proof. apply below_iff. eauto. Qed.

Lemma md_inj (a b : str) : a ++ lit ".md" = b ++ lit ".md" -> a = b.
Proof. apply app_inv_tail. Qed.

(** ** what freezing does *)
Section Freeze.
Variables (E o n : str).
Hypothesis HE : plain_dir E.
Hypothesis Ho : plain o.
Hypothesis Hn : plain n.
Hypothesis Hon : ~ path_prefix o n.
Hypothesis Hno : ~ path_prefix n o.
Let O := E ++ SLASH :: o.

Lemma plain_O : plain_dir O.
Proof.
  destruct Ho as (H1 & H2 & H3). split; [unfold O; destruct E; discriminate|].
  unfold O. destruct (ends_with [SLASH] (E ++ SLASH :: o)) eqn:H; [|reflexivity].
  apply ends_with_iff in H as [r H]. destruct (exists_last H1) as (o' & c & ->).
  assert (c = SLASH) as ->.
  { replace (E ++ SLASH :: o' ++ [c]) with ((E ++ SLASH :: o') ++ [c]) in H
      by (now rewrite <- app_assoc). apply app_inj_tail in H. tauto. }
  assert (ends_with [SLASH] (o' ++ [SLASH]) = true) by (apply ends_with_iff; eauto). congruence.
Qed.

(** the four kinds of paths do not meet *)
Lemma E_O_disjoint x y : E ++ SLASH :: n ++ SLASH :: x <> O ++ SLASH :: n ++ y.
Proof.
  unfold O. rewrite <- !app_assoc. intros H. apply app_inv_head in H. injection H as H.
  destruct (app_slash_inv _ _ _ _ H); contradiction.
Qed.

Lemma E_O_md x : E ++ SLASH :: n ++ lit ".md" <> O ++ SLASH :: n ++ x.
Proof.
  unfold O. rewrite <- !app_assoc. intros H. apply app_inv_head in H. injection H as H.
  cbn [app] in H. apply md_slash_inv in H as [r H]. apply Hon. right. eauto.
Qed.

Lemma md_not_below_dir root : below (root ++ SLASH :: n) (root ++ SLASH :: n ++ lit ".md") = false.
Proof.
  destruct (below _ _) eqn:H; [|reflexivity]. apply below_iff in H as [r H].
  rewrite <- app_assoc in H. apply app_inv_head in H. injection H as H.
  apply app_inv_head in H. discriminate H.
Qed.

Lemma E_md_not_below_O : below (O ++ SLASH :: n) (E ++ SLASH :: n ++ lit ".md") = false.
Proof.
  destruct (below _ _) eqn:H; [|reflexivity]. apply below_iff in H as [r H].
  replace ((O ++ SLASH :: n) ++ SLASH :: r) with (O ++ SLASH :: n ++ SLASH :: r) in H
    by (now rewrite <- !app_assoc). now apply E_O_md in H.
Qed.

Lemma O_not_below_E y : below (E ++ SLASH :: n) (O ++ SLASH :: n ++ y) = false.
Proof.
  destruct (below _ _) eqn:H; [|reflexivity]. apply below_iff in H as [r H].
  replace ((E ++ SLASH :: n) ++ SLASH :: r) with (E ++ SLASH :: n ++ SLASH :: r) in H
    by (now rewrite <- !app_assoc). symmetry in H. now apply E_O_disjoint in H.
Qed.

Lemma E_not_below_O x : below (O ++ SLASH :: n) (E ++ SLASH :: n ++ SLASH :: x) = false.
Proof.
  destruct (below _ _) eqn:H; [|reflexivity]. apply below_iff in H as [r H].
  replace ((O ++ SLASH :: n) ++ SLASH :: r) with (O ++ SLASH :: n ++ SLASH :: r) in H
    by (now rewrite <- !app_assoc). now apply E_O_disjoint in H.
Qed.

Variable f : fs.

(** the file system after removing the old snapshot directory *)
Let f1 := filter (fun e => negb (below (E ++ SLASH :: n) (fst e))) f.
Lemma f1_lookup p : lookup p f1 = if below (E ++ SLASH :: n) p then None else lookup p f.
Proof.
  unfold f1. rewrite (lookup_filter p (fun x => negb (below (E ++ SLASH :: n) x))).
  now destruct (below _ p).
Qed.

Definition E_md := E ++ SLASH :: n ++ lit ".md".
Definition O_md := O ++ SLASH :: n ++ lit ".md".

(** everything in the way of accepting: no output, or a file/directory of the wrong kind *)
Hypothesis Hfile : lookup (E ++ SLASH :: n) f = None.
Hypothesis Hdir : is_dir E_md f = false.
Hypothesis Hofile : lookup (O ++ SLASH :: n) f = None.
Variable c : str.
Hypothesis Hout : lookup O_md f = Some c.

Lemma rm_step : (if path_exists (E ++ SLASH :: n) f then rmtree (E ++ SLASH :: n) f else Ret tt f) = Ret tt f1
  \/ ((if path_exists (E ++ SLASH :: n) f then rmtree (E ++ SLASH :: n) f else Ret tt f) = Ret tt f
      /\ forall p, lookup p f1 = lookup p f).
Proof.
  unfold path_exists, is_file. rewrite Hfile. cbn [orb]. unfold rmtree.
  destruct (is_dir (E ++ SLASH :: n) f) eqn:Hd; [left; reflexivity|right].
  split; [reflexivity|]. intros p. rewrite f1_lookup.
  destruct (below _ p) eqn:Hb; [|reflexivity]. symmetry. now apply (is_dir_false _ _ _ Hd).
Qed.

Lemma freeze_accepts : exists f', freeze_case E O n f = Ret tt f' /\ accepted E O n f f'.
Proof.
  destruct (plain_join E n HE Hn) as [J1 J2]. destruct (plain_join O n plain_O Hn) as [J3 J4].
  unfold freeze_case. rewrite J1, J2, J3, J4. fold E_md O_md.
  assert (Hstep : exists g, (if path_exists (E ++ SLASH :: n) f then rmtree (E ++ SLASH :: n) f else Ret tt f)
            = Ret tt g /\ forall p, lookup p g = if below (E ++ SLASH :: n) p then None else lookup p f).
  { destruct rm_step as [H|[H Hl]].
    - exists f1. split; [exact H|apply f1_lookup].
    - exists f. split; [exact H|]. intros p. rewrite <- f1_lookup. symmetry. apply Hl. }
  destruct Hstep as (g & -> & Hg). cbn [io_bind].
  assert (HgO : lookup O_md g = Some c).
  { rewrite Hg. unfold O_md. now rewrite O_not_below_E. }
  assert (HgD : is_dir E_md g = false).
  { destruct (is_dir E_md g) eqn:Hd; [|reflexivity]. apply is_dir_iff in Hd as (p & d & Hp & Hb).
    rewrite Hg in Hp. destruct (below (E ++ SLASH :: n) p); [discriminate|].
    rewrite (is_dir_false _ _ _ Hdir Hb) in Hp. discriminate. }
  unfold rename_file. rewrite HgO, HgD. cbn [io_bind].
  set (h := write_file E_md c (remove_file O_md g)).
  assert (Hmd : str_eqb E_md O_md = false).
  { apply str_eqb_neq. apply E_O_md. }
  assert (Hh : forall p, lookup p h = if str_eqb E_md p then Some c
                                      else if str_eqb O_md p then None else lookup p g).
  { intros p. unfold h. now rewrite lookup_write, lookup_remove. }
  assert (HhOn : lookup (O ++ SLASH :: n) h = None).
  { rewrite Hh.
    assert (str_eqb E_md (O ++ SLASH :: n) = false) as ->.
    { apply str_eqb_neq. intros H. apply (E_O_md []). rewrite app_nil_r. exact H. }
    destruct (str_eqb O_md (O ++ SLASH :: n)); [reflexivity|]. rewrite Hg.
    replace (O ++ SLASH :: n) with (O ++ SLASH :: n ++ []) by (now rewrite app_nil_r).
    rewrite O_not_below_E, app_nil_r. exact Hofile. }
  assert (HhE : is_dir (E ++ SLASH :: n) h = false).
  { destruct (is_dir (E ++ SLASH :: n) h) eqn:Hd; [|reflexivity].
    apply is_dir_iff in Hd as (p & d & Hp & Hb). rewrite Hh in Hp.
    destruct (str_eqb_spec E_md p) as [<-|_].
    { unfold E_md in Hb. rewrite md_not_below_dir in Hb. discriminate. }
    destruct (str_eqb O_md p); [discriminate|]. rewrite Hg, Hb in Hp. discriminate. }
  assert (HhEf : lookup (E ++ SLASH :: n) h = None).
  { rewrite Hh. assert (str_eqb E_md (E ++ SLASH :: n) = false) as ->.
    { apply str_eqb_neq. unfold E_md. intros H. apply app_inv_head in H. injection H as H.
      rewrite <- (app_nil_r n) in H at 2. apply app_inv_head in H. discriminate. }
    destruct (str_eqb O_md _); [reflexivity|]. rewrite Hg. now destruct (below _ _). }
  assert (HEO : below (O ++ SLASH :: n) (E ++ SLASH :: n) = false).
  { destruct (below _ _) eqn:H; [|reflexivity]. apply below_iff in H as [r H].
    apply (f_equal (@length char)) in H. unfold O in H. repeat (rewrite app_length in H; cbn [length] in H).
    lia. }
  unfold path_exists, is_file. rewrite HhOn. cbn [orb].
  assert (Hfin : exists f', (if is_dir (O ++ SLASH :: n) h
                 then rename_path (O ++ SLASH :: n) (E ++ SLASH :: n) h else Ret tt h) = Ret tt f' /\
     forall p, lookup p f' = if below (E ++ SLASH :: n) p
                             then lookup (rebase (E ++ SLASH :: n) (O ++ SLASH :: n) p) h
                             else if below (O ++ SLASH :: n) p then None else lookup p h).
  { destruct (is_dir (O ++ SLASH :: n) h) eqn:Hd.
    - unfold rename_path, path_exists, is_file. rewrite HhOn, HhEf, HhE, HEO. cbn [orb].
      eexists. split; [reflexivity|]. now apply lookup_rename.
    - exists h. split; [reflexivity|]. intros p. destruct (below (E ++ SLASH :: n) p) eqn:Hb1.
      + apply below_iff in Hb1 as [r ->]. rewrite rebase_below.
        rewrite (is_dir_false _ _ _ HhE (below_slash _ _)). symmetry.
        exact (is_dir_false _ _ _ Hd (below_slash _ _)).
      + destruct (below (O ++ SLASH :: n) p) eqn:Hb; [|reflexivity].
        exact (is_dir_false _ _ _ Hd Hb). }
  destruct Hfin as (f' & -> & Hf'). exists f'. split; [reflexivity|].
  assert (L1 : forall r, E ++ SLASH :: n ++ SLASH :: r = (E ++ SLASH :: n) ++ SLASH :: r)
    by (intros r; now rewrite <- app_assoc).
  assert (L2 : forall r, O ++ SLASH :: n ++ SLASH :: r = (O ++ SLASH :: n) ++ SLASH :: r)
    by (intros r; now rewrite <- app_assoc).
  assert (Hplain : forall r, lookup (O ++ SLASH :: n ++ SLASH :: r) h = lookup (O ++ SLASH :: n ++ SLASH :: r) f).
  { intros r. rewrite Hh.
    destruct (str_eqb_spec E_md (O ++ SLASH :: n ++ SLASH :: r)) as [H|_];
      [now apply E_O_md in H|].
    destruct (str_eqb_spec O_md (O ++ SLASH :: n ++ SLASH :: r)) as [H|_].
    { apply app_inv_head in H. injection H as H. apply app_inv_head in H. discriminate. }
    rewrite Hg, O_not_below_E. reflexivity. }
  split.
  - fold E_md O_md. rewrite Hf', Hout.
    assert (below (E ++ SLASH :: n) E_md = false) as -> by apply md_not_below_dir.
    assert (below (O ++ SLASH :: n) E_md = false) as -> by apply E_md_not_below_O.
    now rewrite Hh, str_eqb_refl.
  - intros r. rewrite Hf', L1, below_slash, rebase_below, <- L2. apply Hplain.
  - intros p [->|[r ->]]; rewrite Hf'.
    + rewrite O_not_below_E. assert (below (O ++ SLASH :: n) (O ++ SLASH :: n ++ lit ".md") = false) as ->
        by apply md_not_below_dir. fold O_md.
      rewrite Hh, Hmd, str_eqb_refl. reflexivity.
    + rewrite O_not_below_E, L2, below_slash. reflexivity.
  - intros p HpE HpO. rewrite Hf'.
    destruct (below (E ++ SLASH :: n) p) eqn:Hb1.
    { apply below_iff in Hb1 as [r ->]. exfalso. apply HpE. right. exists r. now rewrite L1. }
    destruct (below (O ++ SLASH :: n) p) eqn:Hb2.
    { apply below_iff in Hb2 as [r ->]. exfalso. apply HpO. right. exists r. now rewrite L2. }
    rewrite Hh. destruct (str_eqb_spec E_md p) as [<-|_]; [exfalso; apply HpE; now left|].
    destruct (str_eqb_spec O_md p) as [<-|_]; [exfalso; apply HpO; now left|].
    now rewrite Hg, Hb1.
Qed.

End Freeze.

(** ** interaction *)
Lemma is_fail_iff r : is_fail r = true <-> r = FAIL.
Proof. destruct r; simpl; split; congruence. Qed.
Lemma is_ok_iff r : is_ok r = true <-> r = OK.
Proof. destruct r; simpl; split; congruence. Qed.

Lemma interact_iff res : forall answers r rest,
  interact res answers = Some (r, rest) <-> decision res answers r rest.
Proof.
  induction answers as [|a answers IH]; intros r rest.
  - split; [discriminate|]. intros ([|? ?] & ? & H & _); discriminate.
  - cbn [interact].
    assert (Hdec : forall r', (decides res a r' <->
      (if str_eqb a (lit "a") && negb (is_fail res) then Some FREEZE
       else if str_eqb a (lit "c") then Some NONE
       else if str_eqb a (lit "q") then Some ABORT else None) = Some r')).
    { intros r'. unfold decides.
      destruct (str_eqb_spec a (lit "a")) as [->|Ha].
      - destruct (is_fail res) eqn:Ef; cbn [andb negb].
        + apply is_fail_iff in Ef. cbn. split; [|discriminate].
          intros [(_ & H & _)|[(H & _)|(H & _)]]; try discriminate. contradiction.
        + assert (res <> FAIL) by (intros ->; discriminate). split.
          * intros [(_ & _ & ->)|[(H' & _)|(H' & _)]]; [reflexivity|discriminate|discriminate].
          * intros [= <-]. now left.
      - cbn [andb]. destruct (str_eqb_spec a (lit "c")) as [->|Hc].
        + split; [|intros [= <-]; now right; left].
          intros [(H' & _)|[(_ & ->)|(H' & _)]]; [discriminate|reflexivity|discriminate].
        + destruct (str_eqb_spec a (lit "q")) as [->|Hq].
          * split; [|intros [= <-]; now right; right].
            intros [(H' & _)|[(H' & _)|(_ & ->)]]; [discriminate|discriminate|reflexivity].
          * split; [|discriminate]. intros [(H' & _)|[(H' & _)|(H' & _)]]; contradiction. }
    assert (Hhit : forall r', decides res a r' ->
       (decision res (a :: answers) r rest <-> r = r' /\ rest = answers)).
    { intros r' Hr'. split.
      - intros (before & b & Eq & Hb & Hn). destruct before as [|x before].
        + cbn [app] in Eq. injection Eq as -> ->. split; [|reflexivity].
          apply Hdec in Hb, Hr'. congruence.
        + cbn [app] in Eq. injection Eq as -> Eq. exfalso. apply (Hn x r'); [now left|exact Hr'].
      - intros [-> ->]. exists [], a. repeat split; auto. }
    destruct (str_eqb a (lit "a") && negb (is_fail res)) eqn:E1.
    { specialize (proj2 (Hdec _) eq_refl) as Hd. rewrite (Hhit _ Hd). split;
      [intros [= <- <-]; auto|intros [-> ->]; reflexivity]. }
    destruct (str_eqb a (lit "c")) eqn:E2.
    { specialize (proj2 (Hdec _) eq_refl) as Hd. rewrite (Hhit _ Hd). split;
      [intros [= <- <-]; auto|intros [-> ->]; reflexivity]. }
    destruct (str_eqb a (lit "q")) eqn:E3.
    { specialize (proj2 (Hdec _) eq_refl) as Hd. rewrite (Hhit _ Hd). split;
      [intros [= <- <-]; auto|intros [-> ->]; reflexivity]. }
    assert (Hno : forall r', ~ decides res a r').
    { intros r' H. apply Hdec in H. discriminate. }
    rewrite IH. split.
    + intros (before & b & -> & Hb & Hn). exists (a :: before), b. repeat split; auto.
      intros b' r' [<-|Hin]; [apply Hno|now apply Hn].
    + intros (before & b & Eq & Hb & Hn). destruct before as [|x before].
      * cbn [app] in Eq. injection Eq as -> ->. exfalso. exact (Hno _ Hb).
      * cbn [app] in Eq. injection Eq as -> ->. exists before, b. repeat split; auto.
        intros b' r' Hin. apply Hn. now right.
Qed.

(** ** case_review *)
Lemma asked_iff c res :
  always_interactive c || (negb (is_ok res) && interactive c) = true <-> asked c res.
Proof.
  unfold asked. rewrite orb_true_iff, andb_true_iff, negb_true_iff.
  assert (is_ok res = false <-> res <> OK) by (rewrite <- is_ok_iff; destruct (is_ok res); split; congruence).
  tauto.
Qed.

Lemma automatic_iff c res :
  (is_ok res && update c) || (match res with DIFF => true | _ => false end && accept c) = true
  <-> automatic c res.
Proof. unfold automatic. destruct res, (update c), (accept c); cbn; intuition congruence. Qed.

Lemma case_review_cases E O n res c answers f :
  (exists r rest, reviewed c res answers r rest /\
     ((r = FREEZE \/ automatic c res) /\
        case_review E O n res c answers f =
          io_bind (freeze_case E O n f) (fun _ f' => Ret (OK, r, rest) f')
      \/ r <> FREEZE /\ ~ automatic c res /\
        case_review E O n res c answers f = Ret (res, r, rest) f)) \/
  (asked c res /\ (forall r rest, ~ decision res answers r rest) /\
     case_review E O n res c answers f = Raise f).
Proof.
  unfold case_review. destruct (always_interactive c || _) eqn:Ea.
  - apply asked_iff in Ea. destruct (interact res answers) as [[r rest]|] eqn:Ei.
    + left. exists r, rest. apply interact_iff in Ei. split; [left; auto|].
      rewrite <- orb_assoc. destruct r; cbn [orb].
      2: { destruct (is_ok res && update c || _) eqn:Eu; [left|right].
           - apply automatic_iff in Eu. auto.
           - repeat split; [discriminate|]. intros H. apply automatic_iff in H. congruence. }
      2: { left. auto. }
      destruct (is_ok res && update c || _) eqn:Eu; [left|right].
      * apply automatic_iff in Eu. auto.
      * repeat split; [discriminate|]. intros H. apply automatic_iff in H. congruence.
    + right. split; [exact Ea|]. split; [|reflexivity]. intros r rest H. apply interact_iff in H. congruence.
  - assert (Hna : ~ asked c res) by (intros H; apply asked_iff in H; congruence).
    left. exists NONE, answers. split; [right; auto|]. rewrite <- orb_assoc. cbn [orb].
    destruct (is_ok res && update c || _) eqn:Eu; [left|right].
    + apply automatic_iff in Eu. auto.
    + repeat split; [discriminate|]. intros H. apply automatic_iff in H. congruence.
Qed.

Lemma decision_freeze res answers rest : decision res answers FREEZE rest -> res <> FAIL.
Proof.
  intros (? & a & _ & [(_ & H & _)|[(_ & H)|(_ & H)]] & _); [exact H|discriminate|discriminate].
Qed.

Lemma fail_untouched E O n c answers f :
  case_review E O n FAIL c answers f = Raise f \/
  exists r rest, case_review E O n FAIL c answers f = Ret (FAIL, r, rest) f /\ r <> FREEZE.
Proof.
  destruct (case_review_cases E O n FAIL c answers f) as [(r & rest & Hr & [[Hc _]|(H1 & H2 & H3)])|(_ & _ & H)].
  - exfalso. destruct Hc as [->|[[H _]|[H _]]]; [|discriminate|discriminate].
    destruct Hr as [[_ H]|(_ & H & _)]; [now apply decision_freeze in H|discriminate].
  - right. exists r, rest. auto.
  - now left.
Qed.
