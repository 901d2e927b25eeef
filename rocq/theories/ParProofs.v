(** Workers touch only the files of their own case. *)
From Verif Require Import PyStrFacts RunCaseProps ReportsProofs RunnerProofs ReportsSpec.
From Verif Require SchedValues.
From Verif Require Export RunCaseProofs ParSpec InterleaveProofs.
From Coq Require Import Permutation.

(** ** Operations and what they read and write *)
Section Ops.
Variables R W : str -> Prop.
(** [d] and everything below it *)
Definition covers (P : str -> Prop) (d : str) : Prop := forall p, path_prefix d p -> P p.

Lemma covers_self (P : str -> Prop) d : covers P d -> P d.
Proof. intros H. apply H. now left. Qed.
Lemma covers_below (P : str -> Prop) d p : covers P d -> below d p = true -> P p.
Proof. intros H B. apply H. now apply prefix_below. Qed.
Lemma is_dir_agree d f g : covers R d -> agree R f g -> is_dir d f = is_dir d g.
Proof. intros H A. apply is_dir_ext. intros p B. apply A. now apply (covers_below _ d). Qed.
Lemma exists_agree d f g : covers R d -> agree R f g -> path_exists d f = path_exists d g.
Proof. intros H A. unfold path_exists, is_file. now rewrite (is_dir_agree d f g H A), (A d (covers_self _ _ H)). Qed.
Lemma agree_write f g p t : agree R f g -> agree R (write_file p t f) (write_file p t g).
Proof. intros A q HQ. rewrite !lookup_write. destruct (str_eqb p q); auto. Qed.
Lemma agree_remove f g p : agree R f g -> agree R (remove_file p f) (remove_file p g).
Proof. intros A q HQ. rewrite !lookup_remove. destruct (str_eqb p q); auto. Qed.

Lemma lo_reading {A} (r : fs -> A) : (forall f g, agree R f g -> r f = r g) -> local R W (reading r).
Proof. intros H. apply local_prim. split; [reflexivity|]. intros f g A0. split; auto. Qed.
Lemma lo_exists d : covers R d -> local R W (reading (path_exists d)).
Proof. intros H. apply lo_reading. intros f g A. now apply exists_agree. Qed.
Lemma lo_writing p t : W p -> local R W (writing p t).
Proof.
  intros H. apply local_prim. split.
  - intros f q N. cbn [fs_end]. rewrite lookup_write. destruct (str_eqb_spec p q) as [<-|_]; [contradiction|reflexivity].
  - intros f g A. split; [reflexivity|now apply agree_write].
Qed.
Lemma lo_below d files : covers W d -> local R W (writing_below d files).
Proof.
  intros H. induction files as [|[r t] files IH]; cbn [writing_below]; [constructor|]. apply local_bind; [|auto]. apply lo_writing. apply H. right. now exists r.
Qed.
Lemma lo_when b p : local R W p -> local R W (when b p).
Proof. intros H. destruct b; [exact H|constructor]. Qed.

Lemma lop_rmtree d : covers R d -> covers W d -> local_op R W (rmtree d).
Proof.
  intros H1 H2. split.
  - intros f p N. unfold rmtree. destruct (is_dir d f); [|reflexivity]. cbn [fs_end]. rewrite lookup_purged. destruct (below d p) eqn:B; [|reflexivity].
    exfalso. apply N. now apply (covers_below _ d).
  - intros f g A. unfold rmtree. rewrite (is_dir_agree d f g H1 A). destruct (is_dir d g); cbn [same_end]; [|exact A]. split; [reflexivity|].
    intros q HQ. rewrite !lookup_purged. destruct (below d q); auto.
Qed.
Lemma lop_purge d : covers R d -> covers W d -> local_op R W (purge d).
Proof.
  intros H1 H2. destruct (lop_rmtree d H1 H2) as [K1 K2]. split.
  - intros f p N. unfold purge. destruct (path_exists d f); [now apply K1|reflexivity].
  - intros f g A. unfold purge. rewrite (exists_agree d f g H1 A). destruct (path_exists d g); [now apply K2|]. split; auto.
Qed.
Lemma lop_open p : covers R p -> W p -> local_op R W (open_w p).
Proof.
  intros H1 H2. split.
  - intros f q N. unfold open_w. destruct (is_dir p f); [reflexivity|]. cbn [fs_end]. rewrite lookup_write. destruct (str_eqb_spec p q) as [<-|_]; [contradiction|reflexivity].
  - intros f g A. unfold open_w. rewrite (is_dir_agree p f g H1 A). destruct (is_dir p g); cbn [same_end]; [exact A|]. split; [reflexivity|now apply agree_write].
Qed.
Lemma lop_rename_file a b : R a -> covers R b -> W a -> W b -> local_op R W (rename_file a b).
Proof.
  intros H1 H2 H3 H4. split.
  - intros f q N. unfold rename_file. destruct (lookup a f); [|reflexivity]. destruct (is_dir b f); [reflexivity|]. cbn [fs_end]. rewrite lookup_write, lookup_remove.
    destruct (str_eqb_spec b q) as [<-|_]; [contradiction|]. destruct (str_eqb_spec a q) as [<-|_]; [contradiction|reflexivity].
  - intros f g A. unfold rename_file. rewrite (A a H1). destruct (lookup a g); [|exact A]. rewrite (is_dir_agree b f g H2 A).
    destruct (is_dir b g); [exact A|]. split; [reflexivity|]. now apply agree_write, agree_remove.
Qed.
Lemma lop_rename_path a b : covers R a -> covers R b -> covers W a -> covers W b -> local_op R W (rename_path a b).
Proof.
  intros H1 H2 H3 H4. destruct (lop_rename_file a b (covers_self _ _ H1) H2 (covers_self _ _ H3) (covers_self _ _ H4)) as [K1 K2]. split.
  - intros f q N. unfold rename_path. destruct (is_file a f); [now apply K1|]. destruct (path_exists b f || below a b) eqn:X; [reflexivity|].
    apply orb_false_iff in X as [X1 X2]. unfold path_exists in X1. apply orb_false_iff in X1 as [_ X1]. cbn [fs_end]. rewrite lookup_rename by assumption.
    destruct (below b q) eqn:B1; [exfalso; apply N; now apply (covers_below _ b)|]. destruct (below a q) eqn:B2; [exfalso; apply N; now apply (covers_below _ a)|reflexivity].
  - intros f g A. unfold rename_path. assert (is_file a f = is_file a g) as -> by (unfold is_file; now rewrite (A a (covers_self _ _ H1))).
    destruct (is_file a g); [now apply K2|]. rewrite (exists_agree b f g H2 A). destruct (path_exists b g || below a b) eqn:X; [exact A|].
    apply orb_false_iff in X as [X1 X2]. pose proof (exists_agree b f g H2 A) as X3. rewrite X1 in X3. unfold path_exists in X1, X3. apply orb_false_iff in X1 as [_ X1], X3 as [_ X3].
    split; [reflexivity|]. intros q HQ. rewrite !lookup_rename by assumption. destruct (below b q) eqn:B1.
    + apply A. apply below_iff in B1 as [r ->]. rewrite rebase_below. apply H1. right. now exists r.
    + destruct (below a q); auto.
Qed.
End Ops.

(** ** A process alone does what RunCaseModel says *)
Definition solo_io {A} (x : io A) : fs * outcome A := match x with Ret a g => (g, Value a) | Raise g => (g, Crashed) end.
Lemma solo_prim {A} (op : fs -> io A) f : solo (prim op) f = solo_io (op f).
Proof. unfold prim. cbn [solo]. destruct (op f); reflexivity. Qed.
Lemma solo_reading {A} (r : fs -> A) f : solo (reading r) f = (f, Value (r f)).
Proof. reflexivity. Qed.
Lemma solo_writing p t f : solo (writing p t) f = (write_file p t f, Value tt).
Proof. reflexivity. Qed.
Lemma solo_below d files : forall f, solo (writing_below d files) f = (write_below d files f, Value tt).
Proof. induction files as [|[r t] files IH]; intros f; [reflexivity|]. cbn [writing_below]. rewrite solo_bind, solo_writing, IH. reflexivity. Qed.

Section Solo.
Variable cc : CharClass.
Variable refloat : str -> option str.
Variables E O : str.
Variable c : config.
Variable body : str -> fs -> body_run.

Lemma solo_start n f : solo (start_proc E O n) f = solo_io (case_start E O n f).
Proof.
  unfold start_proc, case_start. cbv zeta. rewrite solo_bind, solo_reading.
  do 2 (rewrite solo_bind, solo_prim; match goal with |- context [solo_io (?op ?d ?g)] => destruct (op d g) as [[] ?f1|?f1]; cbn [solo_io io_bind]; [|reflexivity] end).
  do 3 (rewrite solo_bind, solo_prim; match goal with |- context [solo_io (?op ?d ?g)] => destruct (op d g) as [[] ?f1|?f1]; cbn [solo_io io_bind]; [|reflexivity] end).
  destruct (path_exists _ f); [|reflexivity]. rewrite solo_prim. reflexivity.
Qed.
Lemma solo_files n b s f : solo (files_proc O n b s) f = (case_files O n b s f, Value tt).
Proof. unfold files_proc. rewrite solo_bind, solo_below, solo_bind, solo_below, solo_bind, solo_writing, solo_bind, solo_writing, solo_writing. reflexivity. Qed.
Lemma solo_freeze e d n f : solo (freeze_proc e d n) f = solo_io (freeze_case e d n f).
Proof.
  unfold freeze_proc, freeze_case. cbv zeta. rewrite solo_bind, solo_reading, solo_bind. destruct (path_exists (path_join e n) f); cbn [when].
  - rewrite solo_prim. destruct (rmtree _ f) as [[] f1|f1]; cbn [solo_io io_bind]; [|reflexivity]. rewrite solo_bind, solo_prim.
    destruct (rename_file _ _ f1) as [[] f2|f2]; cbn [solo_io io_bind]; [|reflexivity]. rewrite solo_bind, solo_reading. destruct (path_exists _ f2); cbn [when]; [apply solo_prim|reflexivity].
  - cbn [solo io_bind]. rewrite solo_bind, solo_prim.
    destruct (rename_file _ _ f) as [[] f2|f2]; cbn [solo_io io_bind]; [|reflexivity]. rewrite solo_bind, solo_reading. destruct (path_exists _ f2); cbn [when]; [apply solo_prim|reflexivity].
Qed.
Lemma solo_review e d n res answers f : batch c ->
  solo (review_proc c e d n res) f = match case_review e d n res c answers f with Ret (r, _, _) g => (g, Value r) | Raise g => (g, Crashed) end.
Proof.
  intros HB. rewrite batch_review by exact HB. unfold review_proc.
  assert ((is_ok res && update c) || (match res with DIFF => true | _ => false end && accept c) = auto c res) as ->
    by (destruct res; cbn; now rewrite ?orb_false_r, ?andb_false_l, ?andb_true_l).
  destruct (auto c res); [|reflexivity]. rewrite solo_bind, solo_freeze. destruct (freeze_case e d n f) as [[] g|g]; reflexivity.
Qed.
Lemma solo_save n v f : solo (save_proc O n v) f = solo_io (save_value O n v f).
Proof.
  unfold save_proc, save_value. destruct v as [x|]; [apply solo_prim|]. rewrite solo_bind, solo_reading. destruct (path_exists _ f); cbn [when]; [apply solo_prim|reflexivity].
Qed.
Lemma solo_case n answers f res req rest h : batch c -> run_case cc refloat E O c body n answers f = Some (Ret (res, req, rest) h) ->
  solo (case_proc cc refloat E O c body n) f = (h, Value res).
Proof.
  intros HB. unfold run_case, case_proc. rewrite solo_bind, solo_start. destruct (case_start E O n f) as [snapshot f1|f1]; cbn [solo_io run_bind]; [|discriminate].
  rewrite solo_bind, solo_reading. destruct (run_body _ _ _ _ _) as [s|]; [|discriminate]. rewrite solo_bind, solo_files, solo_bind, solo_reading, solo_bind.
  rewrite (solo_review _ _ _ _ answers) by exact HB. destruct (case_review _ _ _ _ _ _ _) as [[[r q] a] f3|f3]; cbn [run_bind]; [|discriminate].
  rewrite solo_bind. destruct r; cbn [is_fail negb when solo]; try (rewrite solo_save; destruct (save_value _ _ _ f3) as [[] f4|f4]; cbn [io_bind solo_io]; [|discriminate]);
    intros H; injection H as <- _ _ <-; reflexivity.
Qed.

Lemma lo_case (R W : str -> Prop) n : plain_dir E -> plain_dir O -> proper n ->
  (forall f g, agree R f g -> body n f = body n g) ->
  (forall x, In x [[]; lit ".md"] -> covers R (E ++ SLASH :: n ++ x) /\ covers W (E ++ SLASH :: n ++ x)) ->
  (forall x, In x [[]; lit ".md"; lit ".txt"; lit ".log"; lit ".bin"; lit ".tmp"] -> covers R (O ++ SLASH :: n ++ x) /\ covers W (O ++ SLASH :: n ++ x)) ->
  local R W (case_proc cc refloat E O c body n).
Proof.
  intros HE HO P HBD HR1 HR2.
  assert (CW : forall d, covers W d -> W d) by (intros d; apply covers_self).
  assert (E1 : forall x, In x [[]; lit ".md"] -> covers R (case_path E n x) /\ covers W (case_path E n x)) by (intros x Hx; rewrite case_path_eq by assumption; auto).
  assert (O1 : forall x, In x [[]; lit ".md"; lit ".txt"; lit ".log"; lit ".bin"; lit ".tmp"] -> covers R (case_path O n x) /\ covers W (case_path O n x))
    by (intros x Hx; rewrite case_path_eq by assumption; auto).
  assert (J : forall root x, plain_dir root -> path_join (base_dir root n) (snd (path_split n) ++ x) = case_path root n x) by (intros; reflexivity).
  assert (J0 : forall root, plain_dir root -> path_join (base_dir root n) (snd (path_split n)) = case_path root n []) by (intros; unfold case_path; now rewrite app_nil_r).
  assert (BJ : path_join O (n ++ lit ".bin") = O ++ SLASH :: n ++ lit ".bin").
  { apply path_join_name; [exact HO|]. pose proof (proper_start n P). pose proof (proper_nonempty n P). destruct n; [easy|assumption]. }
  unfold case_proc. apply local_bind.
  { unfold start_proc. cbv zeta. apply local_bind; [apply lo_exists; apply E1; cbn; tauto|]. intros ex.
    apply local_bind; [apply local_prim, lop_purge; apply O1; cbn; tauto|]. intros _.
    apply local_bind; [apply local_prim, lop_purge; apply O1; cbn; tauto|]. intros _.
    apply local_bind; [apply local_prim, lop_open; [|apply CW]; apply O1; cbn; tauto|]. intros _.
    apply local_bind; [apply local_prim, lop_open; [|apply CW]; apply O1; cbn; tauto|]. intros _.
    apply local_bind; [apply local_prim, lop_open; [|apply CW]; apply O1; cbn; tauto|]. intros _.
    destruct ex; [|constructor]. apply local_prim. split; [intros f p _; now destruct (lookup _ f)|]. intros f g A.
    rewrite (A (case_path E n (lit ".md"))) by (apply covers_self; apply E1; cbn; tauto). destruct (lookup _ g); cbn; auto. }
  intros snapshot. apply local_bind; [now apply lo_reading|]. intros b. destruct (run_body _ _ _ _ _) as [s|]; [|constructor].
  apply local_bind.
  { unfold files_proc. apply local_bind; [apply lo_below; apply O1; cbn; tauto|]. intros _. apply local_bind; [apply lo_below; apply O1; cbn; tauto|]. intros _.
    apply local_bind; [apply lo_writing, CW; apply O1; cbn; tauto|]. intros _. apply local_bind; [apply lo_writing, CW; apply O1; cbn; tauto|]. intros _.
    apply lo_writing, CW; apply O1; cbn; tauto. }
  intros _. apply local_bind; [apply lo_exists; apply E1; cbn; tauto|]. intros there. apply local_bind.
  { unfold review_proc. destruct (_ || _); [|constructor]. apply local_bind; [|constructor].
    unfold freeze_proc. cbv zeta. rewrite !J, !J0 by assumption. apply local_bind; [apply lo_exists; apply E1; cbn; tauto|]. intros old.
    apply local_bind; [apply lo_when, local_prim, lop_rmtree; apply E1; cbn; tauto|]. intros _.
    apply local_bind; [apply local_prim, lop_rename_file; [apply covers_self; apply O1; cbn; tauto|apply E1; cbn; tauto|apply CW; apply O1; cbn; tauto|apply CW; apply E1; cbn; tauto]|]. intros _.
    apply local_bind; [apply lo_exists; apply O1; cbn; tauto|]. intros new.
    apply lo_when, local_prim, lop_rename_path; try (apply O1; cbn; tauto); apply E1; cbn; tauto. }
  intros res. apply local_bind; [|constructor]. apply lo_when. unfold save_proc. rewrite BJ.
  assert (BR : covers R (O ++ SLASH :: n ++ lit ".bin") /\ covers W (O ++ SLASH :: n ++ lit ".bin")) by (apply HR2; cbn; tauto). destruct BR as [BR BW].
  destruct (match b_exc b with Some _ => None | None => b_value b end) as [x|].
  - apply local_prim. split.
    + intros f p N. destruct (is_dir _ f); [reflexivity|]. cbn [fs_end]. rewrite lookup_write. destruct (str_eqb_spec (O ++ SLASH :: n ++ lit ".bin") p) as [<-|_]; [|reflexivity].
      exfalso. apply N. now apply CW.
    + intros f g A. rewrite (is_dir_agree R _ f g BR A). destruct (is_dir _ g); [exact A|]. split; [reflexivity|now apply agree_write].
  - apply local_bind; [now apply lo_exists|]. intros old. apply lo_when, local_prim. split.
    + intros f p N. destruct (is_file _ f); [|reflexivity]. cbn [fs_end]. rewrite lookup_remove. destruct (str_eqb_spec (O ++ SLASH :: n ++ lit ".bin") p) as [<-|_]; [|reflexivity].
      exfalso. apply N. now apply CW.
    + intros f g A. unfold is_file. rewrite (A _ (covers_self _ _ BR)). destruct (lookup _ g); [|exact A]. split; [reflexivity|now apply agree_remove].
Qed.
End Solo.

(** ** Order *)
Lemma todo_order {D} (old : list (case_rec D)) k cases : NoDup cases -> forall a n b, snd (cases_to_done_and_todo old k cases) = a ++ n :: b ->
  exists a' b', cases = a' ++ n :: b' /\ forall d, In d a' -> In d (snd (cases_to_done_and_todo old k cases)) -> In d a.
Proof.
  unfold cases_to_done_and_todo. destruct k; [|cbn [snd]; intros _ a n b ->; eauto 10]. induction 1 as [|i cases Hi _ IH]; intros a n b; cbn [done_and_todo].
  - destruct a; discriminate.
  - pose proof (todo_incl old true cases) as INC. cbn [cases_to_done_and_todo] in INC. destruct (done_and_todo old cases) as [done todo]. cbn [snd] in *.
    assert (SKIP : todo = a ++ n :: b -> exists a' b', i :: cases = a' ++ n :: b' /\ forall d, In d a' -> In d todo -> In d a).
    { intros EQ. destruct (IH _ _ _ EQ) as (a' & b' & -> & X). exists (i :: a'), b'. split; [reflexivity|]. intros d [<-|Hd] Td; [|auto]. exfalso. apply Hi. apply INC. exact Td. }
    assert (KEEP : i :: todo = a ++ n :: b -> exists a' b', i :: cases = a' ++ n :: b' /\ forall d, In d a' -> In d (i :: todo) -> In d a).
    { intros EQ. destruct a as [|i' a].
      - injection EQ as <- <-. exists [], cases. split; [reflexivity|]. intros d [].
      - injection EQ as <- EQ. destruct (IH _ _ _ EQ) as (a' & b' & -> & X). exists (i :: a'), b'. split; [reflexivity|].
        intros d [Q|Hd] [Q'|Td]; try (left; congruence). right. auto. }
    destruct (by_name i old) as [|r l]; [exact KEEP|]. destruct (is_ok (rec_result r)); cbn [snd]; auto.
Qed.
Lemma todo_deps_first {D} deps (old : list (case_rec D)) k cases : NoDup cases -> deps_first deps cases -> deps_first deps (snd (cases_to_done_and_todo old k cases)).
Proof.
  intros ND H a n b EQ d Hd Td. destruct (todo_order old k cases ND a n b EQ) as (a' & b' & E & X). apply X; [|exact Td].
  apply (H a' n b' E d Hd). now apply (todo_incl old k cases).
Qed.

(** ** The files of the workers *)
Section Files.
Variables (E o : str).
Hypothesis HE : plain_dir E.
Hypothesis Ho : plain o.
Hypothesis Hdot : starts_with [DOT] o = true.
Notation O := (E ++ SLASH :: o).
Notation B := (O ++ SLASH :: lit ".batches").

Definition bdir (n : str) : str := B ++ SLASH :: SchedModel.batch_name n.
Lemma HB0 : plain_dir B.
Proof. apply plain_dir_join; [now apply HO|discriminate|reflexivity]. Qed.
Lemma batches_eq : batches_dir O = B.
Proof. apply path_join_name; [now apply HO|reflexivity]. Qed.
Lemma no_slash_plain (x : str) : ~ In SLASH x -> starts_with [SLASH] x = false /\ ends_with [SLASH] x = false.
Proof.
  intros H. split; [destruct (starts_with _ x) eqn:S|destruct (ends_with _ x) eqn:S]; try reflexivity; exfalso; apply H.
  - apply starts_with_iff in S as [r ->]. now left.
  - apply ends_with_iff in S as [r ->]. apply in_or_app. right. now left.
Qed.
Lemma batch_name_ne n : n <> [] -> SchedModel.batch_name n <> [].
Proof. intros H. rewrite SchedValues.batch_name_map. destruct n; [easy|discriminate]. Qed.
Lemma bdir_eq n : SchedModel.case_batch_dir (batches_dir O) n = bdir n.
Proof. rewrite batches_eq. apply path_join_name; [apply HB0|]. apply no_slash_plain, SchedValues.batch_no_slash. Qed.
Lemma bdir_plain n : n <> [] -> plain_dir (bdir n).
Proof. intros H. apply plain_dir_join; [apply HB0|now apply batch_name_ne|]. apply no_slash_plain, SchedValues.batch_no_slash. Qed.
Lemma report_eq n : n <> [] -> SchedModel.case_report_file (batches_dir O) n = bdir n ++ SLASH :: lit "cases.txt".
Proof. intros H. unfold SchedModel.case_report_file. rewrite bdir_eq. apply path_join_name; [now apply bdir_plain|reflexivity]. Qed.
Lemma output_eq n : n <> [] -> output_file O n = bdir n ++ SLASH :: lit "output.txt".
Proof. intros H. unfold output_file. rewrite bdir_eq. apply path_join_name; [now apply bdir_plain|reflexivity]. Qed.

Lemma slash_dot_inj n : forall m, ~ In DOT n -> ~ In DOT m -> map SchedValues.slash_dot n = map SchedValues.slash_dot m -> n = m.
Proof.
  induction n as [|a n IH]; intros [|b m] H1 H2 E1; cbn [map] in E1; try discriminate; [reflexivity|]. injection E1 as E1 E2.
  rewrite (IH m); [|intros X; apply H1; now right|intros X; apply H2; now right|exact E2]. f_equal.
  unfold SchedValues.slash_dot in E1. destruct (N.eqb_spec a SLASH), (N.eqb_spec b SLASH); subst; auto.
  - exfalso. apply H2. left. congruence.
  - exfalso. apply H1. left. congruence.
Qed.
Lemma slash_free_split (a b t t' : str) : ~ In SLASH a -> ~ In SLASH b -> (t = [] \/ exists r, t = SLASH :: r) -> (t' = [] \/ exists r, t' = SLASH :: r) -> a ++ t = b ++ t' -> a = b.
Proof.
  intros Ha Hb HT HT' X. apply app_eq_app in X as (l & [[-> X]|[-> X]]).
  - destruct l as [|c l]; [now rewrite app_nil_r|]. destruct HT' as [->|[r ->]]; [discriminate|]. cbn [app] in X. injection X as <- _. exfalso. apply Ha. apply in_or_app. right. now left.
  - destruct l as [|c l]; [now rewrite app_nil_r|]. destruct HT as [->|[r ->]]; [discriminate|]. cbn [app] in X. injection X as <- _. exfalso. apply Hb. apply in_or_app. right. now left.
Qed.
Lemma bdir_disjoint n m p : case_name n -> case_name m -> path_prefix (bdir n) p -> path_prefix (bdir m) p -> n = m.
Proof.
  intros (_ & D1 & _) (_ & D2 & _) P1 P2. apply prefix_split in P1 as (t & HT & ->). apply prefix_split in P2 as (t' & HT' & X). unfold bdir in X.
  rewrite <- !(app_assoc B) in X. apply app_inv_head in X. cbn [app] in X. injection X as X.
  apply slash_free_split in X; auto using SchedValues.batch_no_slash. rewrite !SchedValues.batch_name_map in X. now apply slash_dot_inj.
Qed.
Lemma bdir_below n p : path_prefix (bdir n) p -> path_prefix B p.
Proof. intros H. apply prefix_split in H as (t & _ & ->). right. exists (SchedModel.batch_name n ++ t). unfold bdir. now rewrite <- (app_assoc B). Qed.

Definition booked (p : str) : Prop := bookkeeping O p \/ p = E ++ SLASH :: lit "index.md".
Lemma own_not_booked n p : case_name n -> n <> lit "output" -> own E o n p -> ~ booked p.
Proof.
  intros C NO OW [[X|[X|[X|[X|[]]]]]|X].
  - pose proof (proper_nonempty n (proj1 C)) as NE. pose proof (proj1 (proj2 C)) as D.
    apply prefix_split in X as (t & _ & ->). destruct OW as [(x & _ & H)|(x & _ & H)]; apply prefix_split in H as (t' & _ & H); rewrite in_case in H.
    + revert H. rewrite <- (app_assoc O). intros H. symmetry in H. revert H. now apply name_vs_out.
    + rewrite <- (app_assoc O) in H. apply app_inv_head in H. destruct n as [|c n]; [easy|]. cbn [app] in H. injection H as <- _. apply D. now left.
  - apply (special_not_own (fun _ => None) E o Hdot n p C); [subst; cbn [In]; tauto|exact OW].
  - apply (special_not_own (fun _ => None) E o Hdot n p C); [subst; cbn [In]; tauto|exact OW].
  - destruct C as (P & D & _). pose proof (proper_nonempty n P) as NE.
    destruct OW as [(x & Hx & H)|(x & Hx & H)]; apply prefix_split in H as (t' & HT & H); rewrite in_case in H.
    + rewrite <- X in H. symmetry in H. revert H. now apply name_vs_out.
    + rewrite <- X in H. apply app_inv_head in H. injection H as H.
      assert (K : exists z, t' = [] /\ x = DOT :: z).
      { destruct HT as [->|[r ->]]; [|exfalso; assert (Y : In SLASH (lit "output.txt")) by (rewrite H; apply in_or_app; right; apply in_or_app; right; now left); vm_compute in Y; intuition discriminate].
        destruct (ext_start x Hx) as [->|[z ->]]; [|eauto]. exfalso. apply D. assert (Y : In DOT (lit "output.txt")) by (vm_compute; tauto). rewrite H in Y. rewrite !app_nil_r in Y. exact Y. }
      destruct K as (z & -> & ->). rewrite app_nil_r in H. change (lit "output.txt") with (lit "output" ++ DOT :: lit "txt") in H. apply NO.
      apply app_eq_app in H as (l & [[E1 H]|[E1 H]]); destruct l as [|c l]; try (rewrite app_nil_r in E1; congruence); cbn [app] in H; injection H as <- _.
      * exfalso. assert (Y : In DOT (lit "output")) by (rewrite E1; apply in_or_app; right; now left). vm_compute in Y. intuition discriminate.
      * exfalso. apply D. rewrite E1. apply in_or_app. right. now left.
  - apply (special_not_own (fun _ => None) E o Hdot n p C); [subst; cbn [In]; tauto|exact OW].
Qed.
Lemma own_not_bdir n m p : case_name n -> n <> lit "output" -> own E o n p -> ~ path_prefix (bdir m) p.
Proof. intros C NO OW X. apply (own_not_booked n p C NO OW). left. left. now apply (bdir_below m). Qed.
Lemma prefix_dec a p : path_prefix a p \/ ~ path_prefix a p.
Proof.
  destruct (str_eqb_spec p a) as [->|N1]; [left; now left|]. destruct (below a p) eqn:B0; [left; now apply prefix_below|].
  right. intros H. apply prefix_app in H as [H|H]; congruence.
Qed.
Lemma area_dec r n p : area r n p \/ ~ area r n p.
Proof.
  unfold area. induction case_exts as [|x l IH]; [right; intros (x & [] & _)|].
  destruct (prefix_dec (r ++ SLASH :: n ++ x) p) as [H|H]; [left; exists x; split; [now left|exact H]|].
  destruct IH as [(y & H1 & H2)|IH]; [left; exists y; split; [now right|exact H2]|]. right. intros (y & [<-|H1] & H2); [auto|]. apply IH. eauto.
Qed.
Lemma some_own l p : (exists n, In n l /\ own E o n p) \/ forall n, In n l -> ~ own E o n p.
Proof.
  induction l as [|n l IH]; [right; intros n []|]. destruct IH as [(m & H1 & H2)|IH]; [left; exists m; split; [now right|exact H2]|].
  destruct (area_dec E n p) as [H|H1]; [left; exists n; split; [now left|now left]|]. destruct (area_dec O n p) as [H|H2]; [left; exists n; split; [now left|now right]|].
  right. intros m [<-|Hm]; [|auto]. intros [X|X]; auto.
Qed.
End Files.

Lemma no_dot_index : ~ In DOT (lit "index").
Proof. vm_compute. intuition discriminate. Qed.

(** ** Workers in any order *)
Section Main.
Variable cc : CharClass.
Variable refloat : str -> option str.
Variables (E o : str).
Hypothesis HE : plain_dir E.
Hypothesis Ho : plain o.
Hypothesis Hdot : starts_with [DOT] o = true.
Notation O := (E ++ SLASH :: o).
Variable c : config.
Hypothesis HB : batch c.
Hypothesis HU : update c = false.
Hypothesis HF : fail_fast c = false.
Variable body : str -> fs -> body_run.
Context {D : Type} (show_dur : D -> str) (parse_dur : str -> option D) (sp : char -> bool).
Hypothesis DUR : durations_ok show_dur parse_dur.
Hypothesis SPC : space_ok sp.
Variables durS durP : str -> D.
Variable all_names : list str.
Variables printed metrics_of : str -> str.
Variable names : list str.
Variable deps : str -> list str.
Hypothesis Hsep : separate names.
Hypothesis Hout : ~ In (lit "output") names.
Hypothesis Hfield : forall n, In n names -> field_ok n.
Hypothesis Hdeps : forall n, In n names -> incl (deps n) names.
Hypothesis Hbody : forall n, In n names -> reads_deps E O deps n (body n).

Notation worker := (worker cc refloat E O c body show_dur parse_dur sp durP all_names printed metrics_of).
Notation nb := (fun p => ~ booked E o p).
Notation metrics_file := (O ++ SLASH :: lit "metrics.json").
Notation index_file := (E ++ SLASH :: lit "index.md").
Notation bin d := (O ++ SLASH :: d ++ lit ".bin").

Lemma a_name n : In n names -> case_name n.
Proof. intros H. destruct Hsep as [S _]. rewrite Forall_forall in S. auto. Qed.
Lemma not_output n : In n names -> n <> lit "output".
Proof. intros H ->. contradiction. Qed.
Lemma a_ne n : In n names -> n <> [].
Proof. intros H. apply proper_nonempty, a_name, H. Qed.
Lemma own_nb n p : In n names -> own E o n p -> ~ booked E o p.
Proof. intros H. apply own_not_booked; auto using a_name, not_output. Qed.
Lemma bin_own d : own E o d (bin d).
Proof. apply (own_O E o d (lit ".bin")); [do 4 right; now left|apply prefix_refl]. Qed.
Lemma metrics_eq : path_join O (lit "metrics.json") = metrics_file.
Proof. apply path_join_name; [now apply HO|reflexivity]. Qed.
Lemma index_eq : path_join E (lit "index.md") = index_file.
Proof. apply path_join_name; [exact HE|reflexivity]. Qed.

(** what a worker reads and writes *)
Definition own' (n p : str) : Prop := own E o n p \/ path_prefix (bdir E o n) p.
Definition reads (n p : str) : Prop := own' n p \/ exists d, In d (deps n) /\ p = bin d.
Definition writes (n p : str) : Prop := own' n p \/ p = metrics_file \/ p = index_file.

Lemma case_local (R W : str -> Prop) n : In n names -> (forall p, own E o n p -> R p /\ W p) -> (forall d, In d (deps n) -> R (bin d)) ->
  local R W (case_proc cc refloat E O (job_config c) body n).
Proof.
  intros Hn H1 H2. apply lo_case; [exact HE|now apply HO|apply a_name, Hn| | |].
  - intros f g A. apply (Hbody n Hn f g); [|intros d Hd; apply A; auto]. intros p OW. apply A. now apply H1.
  - intros x Hx. split; intros p Hp; apply H1; apply (own_E E o n x); auto; (destruct Hx as [<-|[<-|[]]]; [now left|right; now left]).
  - intros x Hx. split; intros p Hp; apply H1; apply (own_O E o n x); auto.
Qed.
Lemma worker_local n : In n names -> local (reads n) (writes n) (worker n).
Proof.
  intros Hn. pose proof (a_ne n Hn) as NE.
  assert (BR : covers (reads n) (bdir E o n)) by (intros p Hp; left; now right).
  assert (BW : covers (writes n) (bdir E o n)) by (intros p Hp; left; now right).
  assert (BX : forall (P : str -> Prop) x, covers P (bdir E o n) -> covers P (bdir E o n ++ SLASH :: x)).
  { intros P x H p Hp. apply H. apply prefix_split in Hp as (t & _ & ->). right. exists (x ++ t). now rewrite <- app_assoc. }
  unfold ParModel.worker. cbv zeta. rewrite report_eq, output_eq, metrics_eq, index_eq by assumption.
  apply local_bind; [apply local_prim, lop_open; [|apply covers_self]; apply BX; assumption|]. intros _.
  apply local_bind; [apply lo_reading; intros f g A; rewrite (A (bdir E o n ++ SLASH :: lit "cases.txt")); [reflexivity|apply covers_self; apply BX; assumption]|]. intros old.
  apply local_bind; [apply lo_writing, covers_self; apply BX; assumption|]. intros _.
  apply local_bind; [apply case_local; [exact Hn| |]|].
  { intros p OW. split; left; now left. }
  { intros d Hd. right. eauto. }
  intros res. apply local_bind; [apply lo_writing, covers_self; apply BX; assumption|]. intros _.
  apply local_bind; [apply lo_writing; right; now left|]. intros _. apply local_bind; [apply lo_writing; right; now right|]. intros _.
  apply local_bind; [apply lo_writing, covers_self; apply BX; assumption|]. intros _. constructor.
Qed.

Lemma booked_metrics : booked E o metrics_file.
Proof. left. right. right. left. reflexivity. Qed.
Lemma booked_index : booked E o index_file.
Proof. now right. Qed.
Lemma booked_bdir n p : path_prefix (bdir E o n) p -> booked E o p.
Proof. intros H. left. left. now apply (bdir_below E o n). Qed.
Lemma in_bdir n x : path_prefix (bdir E o n) (bdir E o n ++ SLASH :: x).
Proof. right. eauto. Qed.
Lemma write_booked p t f : booked E o p -> agree nb (write_file p t f) f.
Proof. intros H q N. rewrite lookup_write. destruct (str_eqb_spec p q) as [<-|_]; [contradiction|reflexivity]. Qed.
Lemma write_metrics_bdir n x t f : path_prefix (bdir E o n) x -> lookup x (write_file metrics_file t f) = lookup x f.
Proof.
  intros H. rewrite lookup_write. destruct (str_eqb_spec metrics_file x) as [<-|_]; [|reflexivity]. apply (bdir_below E o n) in H. apply prefix_split in H as (t' & _ & H).
  rewrite <- (app_assoc O) in H. apply app_inv_head in H. discriminate H.
Qed.
Lemma write_index_bdir n x t f : path_prefix (bdir E o n) x -> lookup x (write_file index_file t f) = lookup x f.
Proof.
  intros H. rewrite lookup_write. destruct (str_eqb_spec index_file x) as [<-|_]; [|reflexivity]. apply (bdir_below E o n) in H. apply prefix_split in H as (t' & _ & H).
  exfalso. rewrite <- (app_assoc O) in H. revert H. apply (name_vs_out E o Hdot (lit "index") (lit ".md")); [discriminate|exact no_dot_index].
Qed.

(** one worker alone, compared with the case in a sequential run *)
Lemma worker_solo n answers f g res req rest h : In n names -> agree nb f g -> (forall p, path_prefix (bdir E o n) p -> lookup p g = None) ->
  run_case cc refloat E O c body n answers f = Some (Ret (res, req, rest) h) ->
  exists g', solo (worker n) g = (g', Value res) /\ agree nb h g' /\
    lookup (bdir E o n ++ SLASH :: lit "cases.txt") g' = Some (report_text show_dur [(n, res, durP n)]) /\
    forall m p, In m names -> m <> n -> path_prefix (bdir E o m) p -> lookup p g' = lookup p g.
Proof.
  intros Hn A EMP RC. pose proof (a_ne n Hn) as NE. apply (solo_case cc refloat E O c body n answers f res req rest h HB) in RC.
  change (case_proc cc refloat E O c body n) with (case_proc cc refloat E O (job_config c) body n) in RC.
  assert (OUT : is_dir (bdir E o n ++ SLASH :: lit "output.txt") g = false).
  { destruct (is_dir _ g) eqn:ID; [|reflexivity]. apply is_dir_iff in ID as (p & t & LP & Hp). rewrite EMP in LP; [discriminate|].
    apply below_iff in Hp as [r ->]. right. exists (lit "output.txt" ++ SLASH :: r). now rewrite <- app_assoc. }
  set (g1 := write_file (bdir E o n ++ SLASH :: lit "cases.txt") (report_text show_dur (kept (D := D) [] [n])) (write_file (bdir E o n ++ SLASH :: lit "output.txt") [] g)).
  assert (A1 : agree nb f g1).
  { apply (agree_trans _ _ g); [exact A|]. apply agree_sym. unfold g1. eapply agree_trans; [apply write_booked, (booked_bdir n), in_bdir|apply write_booked, (booked_bdir n), in_bdir]. }
  assert (LN : local nb nb (case_proc cc refloat E O (job_config c) body n)).
  { apply case_local; [exact Hn| |]; [intros p OW; split; now apply (own_nb n)|]. intros d Hd. apply (own_nb d); [now apply (Hdeps n)|apply bin_own]. }
  assert (LO : local nb (own E o n) (case_proc cc refloat E O (job_config c) body n)).
  { apply case_local; [exact Hn| |]; [intros p OW; split; [now apply (own_nb n)|exact OW]|]. intros d Hd. apply (own_nb d); [now apply (Hdeps n)|apply bin_own]. }
  destruct (local_solo _ _ _ LN) as [_ SAME]. destruct (SAME f g1 A1) as [S1 S2]. destruct (local_solo _ _ _ LO) as [FR _]. specialize (FR g1).
  rewrite RC in S1, S2. cbn [fst snd] in S1, S2. destruct (solo (case_proc cc refloat E O (job_config c) body n) g1) as [h1 o1] eqn:SO. cbn [fst snd] in *. subst o1.
  unfold ParModel.worker. cbv zeta. rewrite report_eq, output_eq, metrics_eq, index_eq by assumption.
  rewrite solo_bind, solo_prim. unfold open_w at 1. rewrite OUT. cbn [solo_io]. rewrite solo_bind, solo_reading.
  assert (lookup (bdir E o n ++ SLASH :: lit "cases.txt") (write_file (bdir E o n ++ SLASH :: lit "output.txt") [] g) = None) as ->.
  { rewrite lookup_write. destruct (str_eqb_spec (bdir E o n ++ SLASH :: lit "output.txt") (bdir E o n ++ SLASH :: lit "cases.txt")) as [X|_].
    - apply app_inv_head in X. discriminate X.
    - apply EMP, in_bdir. }
  change (of_file parse_dur sp None) with (@nil (case_rec D)). rewrite solo_bind, solo_writing, solo_bind. fold g1. rewrite SO.
  rewrite solo_bind, solo_writing, solo_bind, solo_writing, solo_bind, solo_writing, solo_bind, solo_writing. cbn [solo].
  eexists. split; [reflexivity|]. split; [|split].
  - apply (agree_trans _ _ h1); [exact S2|]. apply agree_sym.
    eapply agree_trans; [apply write_booked, (booked_bdir n), in_bdir|]. eapply agree_trans; [apply write_booked, booked_index|].
    eapply agree_trans; [apply write_booked, booked_metrics|apply write_booked, (booked_bdir n), in_bdir].
  - rewrite lookup_write. destruct (str_eqb_spec (bdir E o n ++ SLASH :: lit "output.txt") (bdir E o n ++ SLASH :: lit "cases.txt")) as [X|_]; [apply app_inv_head in X; discriminate X|].
    rewrite (write_index_bdir n), (write_metrics_bdir n) by apply in_bdir. rewrite lookup_write, str_eqb_refl. reflexivity.
  - intros m p Hm NM Hp. assert (NP : forall x, bdir E o n ++ SLASH :: x <> p).
    { intros x <-. apply NM. apply (bdir_disjoint E o m n (bdir E o n ++ SLASH :: x)); auto using a_name, in_bdir. }
    assert (WP : forall x t f, lookup p (write_file (bdir E o n ++ SLASH :: x) t f) = lookup p f).
    { intros x t f2. rewrite lookup_write. destruct (str_eqb_spec (bdir E o n ++ SLASH :: x) p) as [X|_]; [exfalso; now apply (NP x)|reflexivity]. }
    rewrite WP, (write_index_bdir m), (write_metrics_bdir m), WP by exact Hp. rewrite FR.
    + unfold g1. now rewrite !WP.
    + intros OW. revert Hp. apply (own_not_bdir E o Hdot n m p); auto using a_name, not_output.
Qed.

Lemma settled n answers f res req rest h : In n names -> ready E O n f -> run_case cc refloat E O c body n answers f = Some (Ret (res, req, rest) h) ->
  auto c res = false /\ req = NONE /\ rest = answers /\ ready E O n h /\ ((res = OK -> accept c = false) -> exists t, lookup (O ++ SLASH :: n ++ lit ".md") h = Some t) /\
    exists b s fr, case_ran E O n b s fr res f h.
Proof.
  intros Hn R H. destruct (run_case_exact E o HE Ho Hdot cc refloat c body HB n answers f (a_name n Hn) R) as (f1 & _ & X).
  destruct (run_body _ _ _ _ _) as [s|]; [|congruence]. cbv zeta in X. destruct X as (h' & Y & CR & R'). rewrite H in Y. injection Y as -> -> -> ->.
  pose proof (cr_md _ _ _ _ _ _ _ _ _ CR) as MD. set (v := verdict _ s) in *. split; [destruct (auto c v) eqn:AU; [exact HU|exact AU]|]. split; [reflexivity|]. split; [reflexivity|].
  split; [exact R'|]. split; [|eauto]. destruct (auto c v) eqn:AU; [|intros _; eauto]. intros X. specialize (X eq_refl). destruct v; cbn [auto] in AU; congruence.
Qed.

(** the cases do not touch the files of other cases *)
Lemma todo_frame l : incl l names -> forall m, In m names -> ~ In m l -> forall rv fails recs answers f x g p,
  (forall n, In n l -> ready E O n f) -> run_todo cc refloat E O O c body show_dur durS l rv fails recs answers f = Some (Ret x g) -> own E o m p -> lookup p g = lookup p f.
Proof.
  induction l as [|n l IH]; intros IN m Hm NI rv fails recs answers f x g p RD H OW; cbn [run_todo] in H; [now injection H as _ <-|].
  assert (Hn : In n names) by (apply IN; now left). assert (NM : n <> m) by (intros ->; apply NI; now left).
  destruct (run_case cc refloat E O c body n answers f) as [[[[res req] a1] f1|f1]|] eqn:RC; [|discriminate|discriminate]. cbn [run_bind] in H.
  destruct (settled n answers f res req a1 f1 Hn (RD n (or_introl eq_refl)) RC) as (_ & -> & -> & RDn & _ & b & s & fr & CR). rewrite HF in H. cbn [is_abort orb andb] in H.
  set (f2 := write_file (report_file O) _ f1) in H.
  assert (F2 : forall k q, In k names -> k <> n -> own E o k q -> lookup q f2 = lookup q f).
  { intros k q Hk NK OQ. unfold f2. rewrite (write_special refloat E o Hdot names Hsep k); [|exact Hk|apply (report_special E o HE Ho)|exact OQ].
    apply (ran_other E o Hdot names Hsep n k b s fr res f f1 q); auto. }
  assert (F1 : forall q, own E o n q -> lookup q f1 = lookup q f2).
  { intros q OQ. unfold f2. symmetry. apply (write_special refloat E o Hdot names Hsep n); auto. apply (report_special E o HE Ho). }
  assert (IN' : incl l names) by (intros k Hk; apply IN; now right).
  assert (RD' : forall k, In k l -> ready E O k f2).
  { intros k Hk. destruct (list_eq_dec N.eq_dec k n) as [->|NK].
    - apply (ready_local E o n f1); [exact F1|exact RDn].
    - apply (ready_local E o k f); [intros q OQ; symmetry; now apply (F2 k); auto|apply RD; now right]. }
  rewrite (IH IN' m Hm (fun X => NI (or_intror X)) _ _ _ _ f2 _ _ p RD' H OW). apply (F2 m); auto.
Qed.

Definition runs_of (rs : list (str * result)) (dur : str -> D) : list (case_rec D) := map (fun x => (fst x, snd x, dur (fst x))) rs.
Lemma turn_sim l : incl l names -> NoDup l -> forall rv fails recs answers f g rv' recs' rest f',
  agree nb f g -> (forall n p, In n l -> path_prefix (bdir E o n) p -> lookup p g = None) -> (forall n, In n l -> ready E O n f) ->
  run_todo cc refloat E O O c body show_dur durS l rv fails recs answers f = Some (Ret (rv', recs', rest) f') ->
  exists rs g', map fst rs = l /\ recs' = recs ++ runs_of rs durS /\ rv' = fold_left add_result (map snd rs) rv /\
    in_turn worker l g = (g', map (fun x => (fst x, Value (snd x))) rs) /\ agree nb f' g' /\
    (forall m p, In m names -> ~ In m l -> path_prefix (bdir E o m) p -> lookup p g' = lookup p g) /\
    forall n r, In (n, r) rs -> auto c r = false /\ lookup (bdir E o n ++ SLASH :: lit "cases.txt") g' = Some (report_text show_dur [(n, r, durP n)]) /\
      ready E O n f' /\ ((r = OK -> accept c = false) -> exists t, lookup (O ++ SLASH :: n ++ lit ".md") f' = Some t).
Proof.
  induction l as [|n l IH]; intros IN ND rv fails recs answers f g rv' recs' rest f' A EMP RD H.
  - cbn [run_todo] in H. injection H as <- <- <- <-. exists [], g. cbn. rewrite app_nil_r. repeat split; auto; intros; contradiction.
  - inversion ND as [|? ? NI ND']; subst. cbn [run_todo] in H. assert (Hn : In n names) by (apply IN; now left).
    destruct (run_case cc refloat E O c body n answers f) as [[[[res req] a1] f1|f1]|] eqn:RC; [|discriminate|discriminate]. cbn [run_bind] in H.
    destruct (settled n answers f res req a1 f1 Hn (RD n (or_introl eq_refl)) RC) as (AU & -> & -> & RDn & MDn & b & s & fr & CR). rewrite HF in H. cbn [is_abort orb andb] in H.
    destruct (worker_solo n answers f g res NONE answers f1 Hn A ltac:(intros p Hp; apply (EMP n p); [now left|exact Hp]) RC) as (g1 & SO & A1 & REP & OTH).
    set (f2 := write_file (report_file O) _ f1) in H.
    assert (A2 : agree nb f2 g1).
    { apply (agree_trans _ _ f1); [|exact A1]. apply write_booked. left. right. left. symmetry. apply path_join_name; [now apply HO|reflexivity]. }
    assert (IN' : incl l names) by (intros m Hm; apply IN; now right).
    assert (EMP' : forall m p, In m l -> path_prefix (bdir E o m) p -> lookup p g1 = None).
    { intros m p Hm Hp. rewrite (OTH m p); [apply (EMP m p); [now right|exact Hp]|now apply IN'| |exact Hp]. intros ->. contradiction. }
    assert (RD' : forall m, In m l -> ready E O m f2).
    { intros m Hm. apply (ready_local E o m f); [|apply RD; now right]. intros p OW.
      assert (NM : n <> m) by (intros ->; contradiction). unfold f2.
      rewrite (write_special refloat E o Hdot names Hsep m); [|now apply IN'|apply (report_special E o HE Ho)|exact OW].
      symmetry. apply (ran_other E o Hdot names Hsep n m b s fr res f f1 p); auto. }
    destruct (IH IN' ND' _ _ _ _ f2 g1 _ _ _ _ A2 EMP' RD' H) as (rs & g' & M & ER & EV & TU & A' & OT' & RS').
    exists ((n, res) :: rs), g'. cbn [map fst snd fold_left in_turn runs_of]. fold (runs_of rs durS). rewrite SO, TU, M. split; [reflexivity|]. split; [rewrite ER, <- app_assoc; reflexivity|].
    split; [exact EV|]. split; [reflexivity|]. split; [exact A'|]. split.
    + intros m p Hm NM Hp. rewrite (OT' m p); [|exact Hm|intros X; apply NM; now right|exact Hp]. apply (OTH m p Hm); [|exact Hp]. intros ->. apply NM. now left.
    + intros m r [X|Hm].
      * injection X as <- <-. split; [exact AU|]. split; [rewrite (OT' n); [exact REP|exact Hn|exact NI|apply in_bdir]|].
        assert (SM : forall p, own E o n p -> lookup p f1 = lookup p f').
        { intros p OW. rewrite (todo_frame l IN' n Hn NI _ _ _ _ f2 _ _ p RD' H OW). unfold f2. symmetry. apply (write_special refloat E o Hdot names Hsep n); auto. apply (report_special E o HE Ho). }
        split; [apply (ready_local E o n f1); [exact SM|exact RDn]|]. intros X. destruct (MDn X) as [t T]. exists t. rewrite <- SM; [exact T|].
        apply (own_O E o n (lit ".md")); [unfold case_exts; cbn [In]; tauto|apply prefix_refl].
      * now apply RS'.
Qed.

Lemma fold_ok rs : forall rv, is_ok (fold_left add_result rs rv) = is_ok rv && forallb is_ok rs.
Proof. induction rs as [|r rs IH]; intros rv; cbn [fold_left forallb]; [now rewrite andb_true_r|]. rewrite IH. destruct rv, r; reflexivity. Qed.

Lemma par_review_all order g res : (forall n, In n order -> In n names /\ auto c (res n) = false /\
    lookup (bdir E o n ++ SLASH :: lit "cases.txt") g = Some (report_text show_dur [(n, res n, durP n)])) ->
  par_review E O c parse_dur sp order g = Ret (map (fun n => (n, res n, durP n)) order) g.
Proof.
  induction order as [|n order IH]; intros H; [reflexivity|]. cbn [par_review map]. destruct (H n (or_introl eq_refl)) as (Hn & AU & L).
  unfold batch_record. rewrite report_eq, L by (try assumption; now apply a_ne). rewrite (of_file_roundtrip show_dur parse_dur sp DUR SPC) by (constructor; [now apply Hfield|constructor]).
  cbn [hd_error]. rewrite batch_review by exact HB. rewrite AU. cbn [io_bind fst snd]. rewrite IH by (intros m Hm; apply H; now right). reflexivity.
Qed.

Lemma lookup_rm d f p : lookup p (rm_rf d f) = if below d p || str_eqb d p then None else lookup p f.
Proof. unfold rm_rf. rewrite (lookup_filter p (fun q => negb (below d q || str_eqb d q))). destruct (below d p || str_eqb d p); reflexivity. Qed.
End Main.
