(** Proofs about the --review loop. *)
From Verif Require Export ReviewProofs.
From Coq Require Import Lia.

Definition io_fs {A} (x : io A) : fs := match x with Ret _ f => f | Raise f => f end.

(** accepting changes nothing outside the areas of the case *)
Lemma rmtree_frame d f p : below d p = false -> lookup p (io_fs (rmtree d f)) = lookup p f.
Proof.
  intros H. unfold rmtree. destruct (is_dir d f); [|reflexivity]. cbn [io_fs].
  rewrite (lookup_filter p (fun x => negb (below d x))). now rewrite H.
Qed.

Lemma rename_file_frame a b f p : p <> a -> p <> b -> lookup p (io_fs (rename_file a b f)) = lookup p f.
Proof.
  intros Ha Hb. unfold rename_file. destruct (lookup a f); [|reflexivity].
  destruct (is_dir b f); [reflexivity|]. cbn [io_fs]. rewrite lookup_write, lookup_remove.
  assert (str_eqb b p = false) as -> by (apply str_eqb_neq; congruence).
  assert (str_eqb a p = false) as -> by (apply str_eqb_neq; congruence). reflexivity.
Qed.

Lemma rename_path_frame a b f p : p <> a -> p <> b -> below a p = false -> below b p = false ->
  lookup p (io_fs (rename_path a b f)) = lookup p f.
Proof.
  intros H1 H2 H3 H4. unfold rename_path. destruct (is_file a f); [now apply rename_file_frame|].
  destruct (path_exists b f) eqn:Hp; [reflexivity|]. destruct (below a b) eqn:Hab; [reflexivity|].
  cbn [io_fs orb]. apply orb_false_iff in Hp as [_ Hp]. rewrite lookup_rename by assumption.
  now rewrite H4, H3.
Qed.

Lemma freeze_frame E O n f p : ~ case_area E n p -> ~ case_area O n p ->
  lookup p (io_fs (freeze_case E O n f)) = lookup p f.
Proof.
  intros HE HO. unfold case_area in HE, HO.
  assert (B : forall d, ~ (below d p = true) -> below d p = false)
    by (intros d; destruct (below d p); [now intros []|reflexivity]).
  assert (F1 : lookup p (io_fs (if path_exists (path_join E n) f then rmtree (path_join E n) f else Ret tt f)) = lookup p f).
  { destruct (path_exists _ f); [|reflexivity]. apply rmtree_frame. apply B. tauto. }
  unfold freeze_case. destruct (if path_exists (path_join E n) f then _ else _) as [[] f1|f1];
    cbn [io_bind io_fs] in *; [|exact F1].
  pose proof (rename_file_frame (path_join O (n ++ lit ".md")) (path_join E (n ++ lit ".md")) f1 p) as F2.
  destruct (rename_file _ _ f1) as [[] f2|f2]; cbn [io_bind io_fs] in *;
    (assert (F3 : lookup p f2 = lookup p f1) by (apply F2; intros ->; tauto)); [|congruence].
  destruct (path_exists _ f2); [|cbn [io_fs]; congruence].
  rewrite rename_path_frame; [congruence|intros ->; tauto|intros ->; tauto|apply B; tauto|apply B; tauto].
Qed.

Lemma case_review_ret E O n res c answers f res' r rest f' :
  case_review E O n res c answers f = Ret (res', r, rest) f' ->
  reviewed c res answers r rest /\
  ((r = FREEZE \/ automatic c res) /\ res' = OK /\ res <> FAIL /\
     freeze_case E O n f = Ret tt f' \/
   r <> FREEZE /\ ~ automatic c res /\ res' = res /\ f' = f).
Proof.
  intros H. destruct (case_review_cases E O n res c answers f)
    as [(r1 & rest1 & Hr & [[Hc He]|(H1 & H2 & H3)])|(_ & _ & He)].
  - rewrite He in H. destruct (freeze_case E O n f) as [[] f1|f1]; [|discriminate].
    cbn [io_bind] in H. injection H as <- <- <- <-. split; [exact Hr|]. left.
    split; [exact Hc|]. split; [reflexivity|]. split; [|reflexivity].
    intros ->. destruct Hc as [->|[[? _]|[? _]]]; try discriminate.
    destruct Hr as [[_ Hd]|(_ & ? & _)]; [now apply decision_freeze in Hd|discriminate].
  - rewrite H3 in H. injection H as <- <- <- <-. split; [exact Hr|]. right. auto.
  - rewrite He in H. discriminate.
Qed.

Lemma case_review_frame E O n res c answers f p : ~ case_area E n p -> ~ case_area O n p ->
  lookup p (io_fs (case_review E O n res c answers f)) = lookup p f.
Proof.
  intros HE HO. destruct (case_review_cases E O n res c answers f)
    as [(r1 & rest1 & Hr & [[Hc ->]|(H1 & H2 & ->)])|(_ & _ & ->)]; try reflexivity.
  pose proof (freeze_frame E O n f p HE HO) as F.
  destruct (freeze_case E O n f) as [[] f1|f1]; exact F.
Qed.

Section Loop.
Context {D : Type}.

Definition chosen_by (c : config) (passed : list str) (cases : option (list str)) (n : str) : bool :=
  match cases with None => true | Some cs => str_mem n cs end && (negb (cont c) || negb (str_mem n passed)).

Lemma review_loop_ret E O c passed cases : forall (records : list (case_rec D)) abort answers f ok news f',
  review_loop E O c passed cases records abort answers f = Ret (ok, news) f' ->
  exists os, review_trace c (chosen_by c passed cases) abort records news os /\
    ok = forallb (fun r => is_ok (rec_result r)) news /\
    forall p, (forall old o, In (old, Some o) (combine records os) ->
               o = FREEZE \/ automatic c (rec_result old) ->
               ~ case_area E (rec_name old) p /\ ~ case_area O (rec_name old) p) ->
      lookup p f' = lookup p f.
Proof.
  induction records as [|[[name res] dur] records IH]; intros abort answers f ok news f' H.
  - cbn in H. injection H as <- <- <-. exists []. split; [constructor|]. auto.
  - cbn [review_loop] in H. fold (chosen_by c passed cases name) in H.
    destruct (negb abort && chosen_by c passed cases name) eqn:Ech.
    + apply andb_true_iff in Ech as [Ea Ech]. apply negb_true_iff in Ea. subst abort.
      destruct (case_review E O name res c answers f) as [[[res' req] answers'] f1|f1] eqn:Er; [|discriminate].
      cbn [io_bind] in H.
      set (abort' := is_abort req || (fail_fast c && negb (is_ok res'))) in H.
      destruct (review_loop E O c passed cases records abort' answers' f1) as [[ok2 news2] f2|f2] eqn:El;
        [|discriminate].
      cbn [io_bind fst snd] in H. injection H as <- <- <-.
      destruct (IH _ _ _ _ _ _ El) as (os & Ht & -> & Hf).
      pose proof (case_review_ret _ _ _ _ _ _ _ _ _ _ _ Er) as [Hr Hcase].
      exists (Some req :: os). split; [|split; [reflexivity|]].
      * apply rt_reviewed with (st := abort'); [| |exact Ht].
        -- split; [reflexivity|]. split; [reflexivity|]. cbn [rec_result rec_name fst snd].
           split; [exact Ech|]. destruct Hcase as [(Hc & -> & Hnf & _)|(Hc1 & Hc2 & -> & _)]; tauto.
        -- unfold stops_review. cbn [rec_result fst snd]. unfold abort'.
           rewrite orb_true_iff, andb_true_iff, negb_true_iff.
           assert (is_ok res' = false <-> res' <> OK)
             by (rewrite <- is_ok_iff; destruct (is_ok res'); split; congruence).
           assert (is_abort req = true <-> req = ABORT) by (destruct req; cbn; split; congruence). tauto.
      * intros p Hp. rewrite Hf.
        -- destruct Hcase as [(Hc & _ & _ & Hfr)|(_ & _ & _ & ->)]; [|reflexivity].
           destruct (Hp (name, res, dur) req) as [H1 H2]; [now left|exact Hc|].
           pose proof (freeze_frame E O name f p H1 H2) as F. rewrite Hfr in F. exact F.
        -- intros old o Hin. apply Hp. now right.
    + destruct (review_loop E O c passed cases records abort answers f) as [[ok2 news2] f2|f2] eqn:El;
        [|discriminate].
      cbn [io_bind fst snd] in H. injection H as <- <- <-.
      destruct (IH _ _ _ _ _ _ El) as (os & Ht & -> & Hf).
      exists (None :: os). split; [|split; [reflexivity|]].
      * destruct abort; [now constructor|]. cbn [negb andb] in Ech. now apply rt_passed.
      * intros p Hp. apply Hf. intros old o Hin. apply Hp. now right.
Qed.

(** consequences of a trace *)
Lemma trace_same_cases c chosen st (olds news : list (case_rec D)) os :
  review_trace c chosen st olds news os ->
  Forall2 (fun o n => rec_name n = rec_name o /\ rec_dur n = rec_dur o) olds news.
Proof. induction 1; constructor; auto. destruct H as (H & H' & _). auto. Qed.

Lemma trace_results c chosen st (olds news : list (case_rec D)) os :
  review_trace c chosen st olds news os ->
  Forall2 (fun o n => rec_result n = rec_result o \/ (rec_result o = DIFF /\ rec_result n = OK)) olds news.
Proof.
  induction 1; constructor; auto. destruct H as (_ & _ & _ & [(H2 & _ & H3)|(H2 & _)]); [|auto].
  destruct (rec_result old) eqn:E; [now left|congruence|now right].
Qed.

Lemma trace_stopped c chosen (olds news : list (case_rec D)) os :
  review_trace c chosen true olds news os -> news = olds.
Proof.
  remember true as st eqn:Hst. induction 1; try discriminate; [reflexivity|]. f_equal; auto.
Qed.

Lemma trace_not_chosen c chosen st (olds news : list (case_rec D)) os :
  review_trace c chosen st olds news os ->
  Forall2 (fun o n => chosen (rec_name o) = false -> n = o) olds news.
Proof.
  induction 1; constructor; auto. destruct H as (_ & _ & H & _). congruence.
Qed.

End Loop.
