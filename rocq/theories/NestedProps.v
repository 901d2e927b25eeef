(** C80 for all names: which outputs are there after a run, with tests whose names are directories of others. *)
From Coq Require Import Lia.
From Verif Require Import RunCaseSpec PyStrFacts RunCaseProofs RunnerProofs RunCaseProps ReviewProofs CaseRunProps TokenizerProps FailProps.

(** the test [x] is in the directory of the test [y] *)
Definition inside (x y : str) : Prop := exists r, x = y ++ SLASH :: r.

Lemma dotless (a b u v : str) : ~ In DOT a -> ~ In DOT b -> a ++ DOT :: u = b ++ DOT :: v -> a = b /\ u = v.
Proof.
  revert b. induction a as [|c a IH]; intros [|d b] A B E; cbn [app] in E.
  - injection E as E. auto.
  - injection E as E1 E2. subst d. destruct B. now left.
  - injection E as E1 E2. subst c. destruct A. now left.
  - injection E as E1 E2. destruct (IH b) as [-> ->]; auto; [now intros X; apply A; right|now intros X; apply B; right|]. now subst.
Qed.
Lemma below_md (x y t : str) : ~ In DOT x -> ~ In DOT y -> x ++ lit ".md" = y ++ SLASH :: t -> exists r, x = y ++ SLASH :: r /\ t = r ++ lit ".md".
Proof.
  revert y. induction x as [|c x IH]; intros [|d y] A B E; cbn [app] in E.
  - discriminate.
  - injection E as E1 _. subst d. destruct B. now left.
  - injection E as -> <-. exists x. auto.
  - injection E as -> E. destruct (IH y) as (r & -> & ->); auto; [now intros X; apply A; right|now intros X; apply B; right|]. now exists r.
Qed.

Section Nested.
Variable cc : CharClass.
Variable refloat : str -> option str.
Variables E O : str.
Hypothesis HE : plain_dir E.
Hypothesis HO : plain_dir O.
Variable c : config.
Hypothesis HB : batch c.
Hypothesis HA : accept c = false /\ update c = false.
Hypothesis HF : fail_fast c = false.
Variable body : str -> fs -> body_run.
Notation md x := (O ++ SLASH :: x%list ++ lit ".md").
Definition W (n p : str) : Prop := own_output O n p \/ p = O ++ SLASH :: n ++ lit ".bin".

Lemma save_own n v f : proper n -> changes_only (W n) f (save_value O n v f).
Proof.
  intros P. unfold save_value. replace (path_join O (n ++ lit ".bin")) with (O ++ SLASH :: n ++ lit ".bin").
  2: { symmetry. apply path_join_plain; try apply HO. pose proof (proper_start n P) as X. pose proof (proper_nonempty n P). destruct n; [easy|exact X]. }
  destruct v as [t|].
  - destruct (is_dir _ f); [apply co_raise|]. intros p N. apply (co_write (W n)); [now right|exact N].
  - destruct (path_exists _ f); [|apply co_ret]. destruct (is_file _ f); [|apply co_raise]. intros p N. cbn [fs_of]. rewrite lookup_remove.
    destruct (str_eqb_spec (O ++ SLASH :: n ++ lit ".bin") p) as [<-|_]; [destruct N; now right|reflexivity].
Qed.

(** one case that returns *)
Lemma case_done n answers f res req rest g : proper n -> run_case cc refloat E O c body n answers f = Some (Ret (res, req, rest) g) ->
  req = NONE /\ (forall p, ~ W n p -> lookup p g = lookup p f) /\ exists snapshot f1 s,
    case_start E O n f = Ret snapshot f1 /\ run_body cc refloat snapshot (point_error_pos c) (all_ops (body n f1)) = Some s /\
    forall p, p <> O ++ SLASH :: n ++ lit ".bin" -> lookup p g = lookup p (case_files O n (body n f1) s f1).
Proof.
  intros P H. unfold run_case in H. pose proof (fail_start E O HO n P f) as SC. destruct (case_start E O n f) as [snapshot f1|f1] eqn:S; cbn [run_bind] in H; [|discriminate].
  destruct (run_body _ _ _ _ _) as [s|] eqn:RB in H; [|discriminate]. set (v := verdict _ s) in H.
  rewrite base_review in H by (exact HE || exact HO || exact P). rewrite batch_review in H by exact HB. rewrite (no_auto c HA) in H. cbn [run_bind] in H.
  set (f2 := case_files O n (body n f1) s f1) in *.
  assert (F2 : forall p, ~ W n p -> lookup p f2 = lookup p f).
  { intros p N. unfold f2. rewrite (fail_files O HO n P) by (intros X; apply N; now left). apply (SC p). intros X. apply N. now left. }
  assert (X : req = NONE /\ (g = f2 \/ exists val u, save_value O n val f2 = Ret u g)).
  { destruct v; try (injection H as _ <- _ <-; split; [reflexivity|now left]);
      (match type of H with context [save_value O n ?val f2] => destruct (save_value O n val f2) as [u f4|f4] eqn:SV; cbn [io_bind] in H; [|discriminate];
       injection H as _ <- _ <-; split; [reflexivity|right; exists val, u; exact SV] end). }
  destruct X as [-> X]. split; [reflexivity|].
  assert (G : forall p, p <> O ++ SLASH :: n ++ lit ".bin" -> lookup p g = lookup p f2).
  { destruct X as [->|(val & u & SV)]; [reflexivity|]. intros p N. unfold save_value in SV. replace (path_join O (n ++ lit ".bin")) with (O ++ SLASH :: n ++ lit ".bin") in SV.
    2: { symmetry. apply path_join_plain; try apply HO. pose proof (proper_start n P) as X. pose proof (proper_nonempty n P). destruct n; [easy|exact X]. }
    assert (EQ : str_eqb (O ++ SLASH :: n ++ lit ".bin") p = false) by (destruct (str_eqb_spec (O ++ SLASH :: n ++ lit ".bin") p); [congruence|reflexivity]).
    destruct val as [t|].
    - destruct (is_dir _ f2); [discriminate|]. injection SV as _ <-. now rewrite lookup_write, EQ.
    - destruct (path_exists (O ++ SLASH :: n ++ lit ".bin") f2); [|assert (X : g = f2) by congruence; now rewrite X]. destruct (is_file (O ++ SLASH :: n ++ lit ".bin") f2); [|discriminate]. assert (X : g = remove_file (O ++ SLASH :: n ++ lit ".bin") f2) by congruence. rewrite X. now rewrite lookup_remove, EQ. }
  split.
  - intros p N. rewrite G by (intros ->; apply N; now right). exact (F2 p N).
  - exists snapshot, f1, s. auto.
Qed.

(** the output of the case itself *)
Lemma case_md n answers f res req rest g : proper n -> run_case cc refloat E O c body n answers f = Some (Ret (res, req, rest) g) ->
  exists snapshot f1 s, case_start E O n f = Ret snapshot f1 /\ run_body cc refloat snapshot (point_error_pos c) (all_ops (body n f1)) = Some s /\
    lookup (md n) g = Some (out s).
Proof.
  intros P H. destruct (case_done n answers f res req rest g P H) as (_ & _ & snapshot & f1 & s & S & RB & G). exists snapshot, f1, s. split; [exact S|]. split; [exact RB|].
  rewrite G by (intros X; apply app_inv_head in X; injection X as X; apply app_inv_head in X; discriminate).
  unfold case_files. rewrite !(case_path_eq O) by (exact HO || exact P). rewrite !lookup_write.
  destruct (str_eqb_spec (O ++ SLASH :: n ++ lit ".txt") (md n)) as [X|_]; [apply app_inv_head in X; injection X as X; apply app_inv_head in X; discriminate|].
  destruct (str_eqb_spec (md n) (md n)) as [_|X]; [reflexivity|now destruct X].
Qed.

Lemma start_cleared n snapshot f f1 : proper n -> case_start E O n f = Ret snapshot f1 -> forall r, lookup (O ++ SLASH :: n ++ SLASH :: r) f1 = None.
Proof.
  intros P H r. unfold case_start in H. rewrite !(case_path_eq O) in H by (exact HO || exact P). set (p := O ++ SLASH :: n ++ SLASH :: r).
  assert (P0 : forall g, purge (O ++ SLASH :: n ++ []) f = Ret tt g -> lookup p g = None).
  { intros g PU. rewrite app_nil_r in PU. assert (B : below (O ++ SLASH :: n) p = true) by (apply below_iff; exists r; unfold p; now rewrite <- app_assoc).
    unfold purge, rmtree, path_exists in PU. destruct (is_dir (O ++ SLASH :: n) f) eqn:D.
    - rewrite orb_true_r in PU. injection PU as <-. now rewrite lookup_purged, B.
    - rewrite orb_false_r in PU. destruct (is_file _ f); [discriminate|]. injection PU as <-. destruct (lookup p f) as [t|] eqn:L; [|reflexivity]. exfalso.
      assert (X : is_dir (O ++ SLASH :: n) f = true) by (apply is_dir_iff; eauto). congruence. }
  assert (KP : forall d g h, below d p = false -> purge d g = Ret tt h -> lookup p h = lookup p g).
  { intros d g h B PU. unfold purge, rmtree in PU. destruct (path_exists d g); [|now injection PU as <-]. destruct (is_dir d g); [|discriminate].
    injection PU as <-. now rewrite lookup_purged, B. }
  assert (KO : forall x g h, In x [lit ".md"; lit ".txt"; lit ".log"] -> open_w (O ++ SLASH :: n ++ x) g = Ret tt h -> lookup p h = lookup p g).
  { intros x g h I OW. unfold open_w in OW. destruct (is_dir _ g); [discriminate|]. injection OW as <-. rewrite lookup_write.
    destruct (str_eqb_spec (O ++ SLASH :: n ++ x) p) as [X|_]; [|reflexivity]. unfold p in X. apply app_inv_head in X. injection X as X. apply app_inv_head in X.
    destruct I as [<-|[<-|[<-|[]]]]; discriminate. }
  destruct (purge (O ++ SLASH :: n ++ []) f) as [[] g1|g1] eqn:E1; cbn [io_bind] in H; [|discriminate]. specialize (P0 _ eq_refl).
  destruct (purge (O ++ SLASH :: n ++ lit ".tmp") g1) as [[] g2|g2] eqn:E2; cbn [io_bind] in H; [|discriminate]. apply KP in E2.
  2: { destruct (below _ p) eqn:B; [|reflexivity]. apply below_iff in B as [t B]. unfold p in B. rewrite <- app_assoc in B. apply app_inv_head in B. cbn [app] in B. injection B as B.
       rewrite <- app_assoc in B. apply app_inv_head in B. discriminate. }
  destruct (open_w (O ++ SLASH :: n ++ lit ".md") g2) as [[] g3|g3] eqn:E3; cbn [io_bind] in H; [|discriminate]. apply KO in E3; [|now left].
  destruct (open_w (O ++ SLASH :: n ++ lit ".txt") g3) as [[] g4|g4] eqn:E4; cbn [io_bind] in H; [|discriminate]. apply KO in E4; [|right; now left].
  destruct (open_w (O ++ SLASH :: n ++ lit ".log") g4) as [[] g5|g5] eqn:E5; cbn [io_bind] in H; [|discriminate]. apply KO in E5; [|right; right; now left].
  assert (G5 : f1 = g5) by (destruct (path_exists _ f) in H; [destruct (lookup _ g5) in H; [now injection H|discriminate]|now injection H]).
  subst f1. congruence.
Qed.

(** what a case leaves where a test in its directory had its output *)
Lemma case_inside n r answers f res req rest g : proper n -> run_case cc refloat E O c body n answers f = Some (Ret (res, req, rest) g) ->
  exists snapshot h, case_start E O n f = Ret snapshot h /\ lookup (md (n ++ SLASH :: r)) g = last_write (r ++ lit ".md") (b_files (body n h)).
Proof.
  intros P H. destruct (case_done n answers f res req rest g P H) as (_ & _ & snapshot & f1 & s & S & RB & G). exists snapshot, f1. split; [exact S|].
  rewrite <- app_assoc. cbn [app]. set (p := O ++ SLASH :: n ++ SLASH :: r ++ lit ".md").
  assert (NE : forall x, x <> [] -> hd SLASH x <> SLASH -> str_eqb (O ++ SLASH :: n ++ x) p = false).
  { intros x N1 N2. destruct (str_eqb_spec (O ++ SLASH :: n ++ x) p) as [X|_]; [|reflexivity]. unfold p in X. apply app_inv_head in X. injection X as X. apply app_inv_head in X. now subst x. }
  rewrite G by (intros X; specialize (NE (lit ".bin") ltac:(discriminate) ltac:(discriminate)); rewrite <- X, str_eqb_refl in NE; discriminate).
  unfold case_files. rewrite !(case_path_eq O) by (exact HO || exact P). rewrite !lookup_write, !NE by discriminate.
  rewrite lookup_write_below_out.
  2: { destruct (below _ p) eqn:B; [|reflexivity]. apply below_iff in B as [t B]. unfold p in B. rewrite <- app_assoc in B. apply app_inv_head in B. cbn [app] in B. injection B as B.
       rewrite <- app_assoc in B. apply app_inv_head in B. discriminate. }
  pose proof (lookup_write_below_in (O ++ SLASH :: n ++ []) (b_files (body n f1)) f1 (r ++ lit ".md")) as L. rewrite app_nil_r in L |- *.
  replace p with ((O ++ SLASH :: n) ++ SLASH :: r ++ lit ".md") by (unfold p; rewrite <- app_assoc; reflexivity). rewrite L.
  destruct (last_write _ _); [reflexivity|]. rewrite <- app_assoc. exact (start_cleared n snapshot f f1 P S (r ++ lit ".md")).
Qed.

(** the output of [x] is touched only by [x] and by the tests in whose directory it is *)
Lemma touched x y : ~ In DOT x -> ~ In DOT y -> W y (md x) -> y = x \/ inside x y.
Proof.
  intros DX DY [[(e & I & X)|(e & t & I & X)]|X]; apply app_inv_head in X; injection X as X.
  - destruct I as [<-|[<-|[<-|[]]]]; destruct (dotless x y _ _ DX DY X) as [Y Z]; try discriminate. left. now symmetry.
  - destruct I as [<-|[<-|[]]]; cbn [app] in X.
    + destruct (below_md x y t DX DY X) as (r & -> & _). right. now exists r.
    + destruct (dotless x y (lit "md") (lit "tmp" ++ SLASH :: t) DX DY X) as [_ Z]. discriminate.
  - destruct (dotless x y _ _ DX DY X) as [_ Z]. discriminate.
Qed.

Context {D : Type} (show_dur : D -> str) (dur : str -> D).
Notation run := (run_todo cc refloat E O O c body show_dur dur).
Lemma report_not x : ~ In DOT x -> report_file O <> md x.
Proof.
  intros N X. unfold report_file in X. rewrite path_join_name in X by (exact HO || reflexivity). apply app_inv_head in X. injection X as X.
  destruct (dotless (lit "cases") x (lit "txt") (lit "md")) as [_ Z]; [intros Y; vm_compute in Y; repeat (destruct Y as [Y|Y]; [discriminate|]); exact Y|exact N|exact X|discriminate].
Qed.

Lemma todo_keeps x todo : ~ In DOT x -> Forall (fun y => proper y /\ ~ In DOT y) todo -> (forall y, In y todo -> y <> x /\ ~ inside x y) ->
  forall rv fails recs answers f z g, run todo rv fails recs answers f = Some (Ret z g) -> lookup (md x) g = lookup (md x) f.
Proof.
  intros DX F. induction F as [|n todo [P DN] F IH]; intros N rv fails recs answers f z g H; cbn [run_todo] in H; [now injection H as _ <-|].
  destruct (run_case _ _ _ _ _ _ n answers f) as [[[[res req] a1] f1|f1]|] eqn:RC; cbn [run_bind] in H; [|discriminate|discriminate].
  destruct (case_done n answers f res req a1 f1 P RC) as (-> & K & _). cbn [is_abort orb] in H. rewrite HF in H. cbn [andb] in H.
  rewrite (IH (fun y I => N y (or_intror I)) _ _ _ _ _ _ _ H). rewrite lookup_write. destruct (str_eqb_spec (report_file O) (md x)) as [X|_]; [destruct (report_not x DX X)|].
  apply K. intros X. destruct (touched x n DX DN X) as [Y|Y]; destruct (N n (or_introl eq_refl)); contradiction.
Qed.
Lemma todo_split pre x post : Forall (fun y => proper y /\ ~ In DOT y) pre -> proper x ->
  forall rv fails recs answers f z g, run (pre ++ x :: post) rv fails recs answers f = Some (Ret z g) ->
  exists a f0 res req rest f1 rv' fails' recs' a', run_case cc refloat E O c body x a f0 = Some (Ret (res, req, rest) f1) /\
    run post rv' fails' recs' a' (write_file (report_file O) (report_text show_dur recs') f1) = Some (Ret z g).
Proof.
  intros F PX. induction F as [|n pre [P DN] F IH]; intros rv fails recs answers f z g H; cbn [app run_todo] in H.
  - destruct (run_case _ _ _ _ _ _ x answers f) as [[[[res req] a1] f1|f1]|] eqn:RC; cbn [run_bind] in H; [|discriminate|discriminate].
    destruct (case_done x answers f res req a1 f1 PX RC) as (-> & _ & _). cbn [is_abort orb] in H. rewrite HF in H. cbn [andb] in H. do 10 eexists. split; [exact RC|exact H].
  - destruct (run_case _ _ _ _ _ _ n answers f) as [[[[res req] a1] f1|f1]|] eqn:RC; cbn [run_bind] in H; [|discriminate|discriminate].
    destruct (case_done n answers f res req a1 f1 P RC) as (-> & _ & _). cbn [is_abort orb] in H. rewrite HF in H. cbn [andb] in H. exact (IH _ _ _ _ _ _ _ H).
Qed.
End Nested.

(** *** C80. For every selection (each test once): if no test that ran after [x] has [x] in its directory, the output of [x] is there and is
    what [x] wrote in this run. Otherwise there is what the last such test wrote there into its own directory: nothing, as a rule. *)
Theorem C80_outputs_exact :
  forall cc refloat E o c body (D : Type) (show_dur : D -> str) parse_dur sp dur all_names metrics selected answers f z g,
  plain_dir E -> plain o -> starts_with [DOT] o = true -> let O := E ++ SLASH :: o in
  batch c -> accept c = false -> update c = false -> fail_fast c = false -> cont c = false ->
  Forall (fun n => proper n /\ ~ In DOT n) selected -> NoDup selected ->
  run_async cc refloat E O O c body show_dur parse_dur sp dur all_names metrics selected answers f = Some (Ret z g) ->
  (forall pre x post, selected = pre ++ x :: post -> (forall y, In y post -> ~ inside x y) ->
     exists f0 snapshot f1 s, case_start E O x f0 = Ret snapshot f1 /\
       run_body cc refloat snapshot (point_error_pos c) (all_ops (body x f1)) = Some s /\ lookup (O ++ SLASH :: x ++ lit ".md") g = Some (out s)) /\
  (forall pre x mid y post r, selected = pre ++ x :: mid ++ y :: post -> x = y ++ SLASH :: r -> (forall y', In y' post -> ~ inside x y') ->
     exists f0 snapshot h, case_start E O y f0 = Ret snapshot h /\ lookup (O ++ SLASH :: x ++ lit ".md") g = last_write (r ++ lit ".md") (b_files (body y h)) /\
       (last_write (r ++ lit ".md") (b_files (body y h)) = None -> exists g', freeze_case E O x g = Raise g')).
Proof.
  intros cc refloat E o c body D show_dur parse_dur sp dur all_names metrics selected answers f z g HE Ho Hdot O HB HA HU HF HC F ND H.
  assert (HO : plain_dir O) by (now apply RunCaseProofs.HO).
  unfold run_async in H. unfold cases_to_done_and_todo in H. rewrite HC in H. cbn [snd] in H. set (recs0 := kept _ _) in H.
  destruct (run_todo _ _ _ _ _ _ _ _ _ _ _ _ _ _ _) as [[y0 f9|f9]|] eqn:RT in H; [|discriminate|discriminate]. cbn [run_bind] in H. injection H as <- <-.
  rewrite (path_join_name O) by (exact HO || reflexivity). rewrite (path_join_name E) by (exact HE || reflexivity).
  set (g := write_file _ _ _).
  assert (G : forall x, ~ In DOT x -> lookup (O ++ SLASH :: x ++ lit ".md") g = lookup (O ++ SLASH :: x ++ lit ".md") f9).
  { intros x N. unfold g. rewrite !lookup_write.
    destruct (str_eqb_spec (E ++ SLASH :: lit "index.md") (O ++ SLASH :: x ++ lit ".md")) as [X|_].
    { exfalso. unfold O in X. rewrite <- app_assoc in X. apply app_inv_head in X. cbn [app] in X. injection X as X. apply starts_with_iff in Hdot as [o' ->]. cbn [app] in X. discriminate. }
    destruct (str_eqb_spec (O ++ SLASH :: lit "metrics.json") (O ++ SLASH :: x ++ lit ".md")) as [X|_]; [|reflexivity].
    exfalso. apply app_inv_head in X. injection X as X. destruct (dotless (lit "metrics") x (lit "json") (lit "md")) as [_ Z]; [vm_compute; intuition discriminate|exact N|exact X|discriminate]. }
  split.
  - intros pre x post -> NI. apply Forall_app in F as [F1 F2]. inversion F2 as [|? ? [PX DX] F3]; subst.
    destruct (todo_split cc refloat E O HE HO c HB (conj HA HU) HF body show_dur dur pre x post F1 PX _ _ _ _ _ _ _ RT) as (a & f0 & res & req & rest & f1 & rv' & fa' & re' & a' & RC & RP).
    destruct (case_md cc refloat E O HE HO c HB (conj HA HU) body x a f0 res req rest f1 PX RC) as (sn & h & s & S & RB & L).
    exists f0, sn, h, s. split; [exact S|]. split; [exact RB|]. rewrite (G x DX).
    assert (NI' : forall y, In y post -> y <> x /\ ~ inside x y).
    { intros y I. split; [|now apply NI]. intros ->. apply NoDup_remove_2 in ND. apply ND. apply in_or_app. now right. }
    rewrite (todo_keeps cc refloat E O HE HO c HB (conj HA HU) HF body show_dur dur x post DX F3 NI' _ _ _ _ _ _ _ RP). rewrite lookup_write. destruct (str_eqb_spec (report_file O) (O ++ SLASH :: x ++ lit ".md")) as [X|_]; [destruct (report_not O HO x DX X)|exact L].
  - intros pre x mid y post r -> EX NI. apply Forall_app in F as [F1 F2]. inversion F2 as [|? ? [PX DX] F3]; subst x0 l. apply Forall_app in F3 as [F3 F4]. inversion F4 as [|? ? [PY DY] F5]; subst x0 l.
    replace (pre ++ x :: mid ++ y :: post) with ((pre ++ x :: mid) ++ y :: post) in RT, ND by (now rewrite <- app_assoc).
    assert (FP : Forall (fun y => proper y /\ ~ In DOT y) (pre ++ x :: mid)) by (apply Forall_app; split; [exact F1|constructor; [now split|exact F3]]).
    destruct (todo_split cc refloat E O HE HO c HB (conj HA HU) HF body show_dur dur (pre ++ x :: mid) y post FP PY _ _ _ _ _ _ _ RT) as (a & f0 & res & req & rest & f1 & rv' & fa' & re' & a' & RC & RP).
    destruct (case_inside cc refloat E O HE HO c HB (conj HA HU) body y r a f0 res req rest f1 PY RC) as (sn & h & S & L). rewrite <- EX in L.
    assert (LG : lookup (O ++ SLASH :: x ++ lit ".md") g = last_write (r ++ lit ".md") (b_files (body y h))).
    { rewrite (G x DX). assert (NI' : forall y', In y' post -> y' <> x /\ ~ inside x y').
      { intros y' I. split; [|now apply NI]. intros ->. rewrite <- app_assoc in ND. apply NoDup_remove_2 in ND. apply ND. apply in_or_app. right. apply in_or_app. right. now right. }
      rewrite (todo_keeps cc refloat E O HE HO c HB (conj HA HU) HF body show_dur dur x post DX F5 NI' _ _ _ _ _ _ _ RP). rewrite lookup_write. destruct (str_eqb_spec (report_file O) (O ++ SLASH :: x ++ lit ".md")) as [X|_]; [destruct (report_not O HO x DX X)|exact L]. }
    exists f0, sn, h. split; [exact S|]. split; [exact LG|]. intros N. rewrite N in LG.
    assert (SX : starts_with [SLASH] (x ++ lit ".md") = false) by (pose proof (proper_start x PX) as X; pose proof (proper_nonempty x PX); destruct x; [easy|exact X]).
    unfold freeze_case. rewrite (path_join_name O) by assumption.
    assert (R : forall h', lookup (O ++ SLASH :: x ++ lit ".md") h' = None -> forall b, rename_file (O ++ SLASH :: x ++ lit ".md") b h' = Raise h') by (intros h' L' b; unfold rename_file; now rewrite L').
    destruct (path_exists (path_join E x) g); cbn [io_bind]; [|rewrite (R g LG); cbn [io_bind]; eauto].
    unfold rmtree. destruct (is_dir (path_join E x) g); cbn [io_bind]; [|eauto]. rewrite R; [cbn [io_bind]; eauto|]. rewrite lookup_purged. now destruct (below _ _).
Qed.
Print Assumptions C80_outputs_exact.

(** a/b runs before and after a, and a leaves a file where the output of a/c was *)
Definition nest_body (n : str) (_ : fs) : body_run :=
  {| b_ops := [OTln n]; b_exc := None; b_files := if str_eqb n (lit "a") then [(lit "c.md", lit "mine")] else []; b_tmp := []; b_log := []; b_value := None |}.
Definition nest_go (selected : list str) :=
  run_async ascii_class no_float demo_E demo_O demo_O (demo_conf false) nest_body (fun d : str => d) Some (fun c => N.eqb c SP) (fun _ => lit "7") selected (lit "{}") selected [] [].
Definition nest_mds (selected : list str) : list (option str) := map (fun x => lookup (demo_O ++ SLASH :: x ++ lit ".md") (after (nest_go selected))) selected.
Example C80_exact_example :
  nest_mds [lit "a"; lit "a/b"; lit "a/c"] = map (fun x => Some (x ++ [NL])) [lit "a"; lit "a/b"; lit "a/c"] /\
  nest_mds [lit "a/b"; lit "a/c"; lit "a"] = [None; Some (lit "mine"); Some (lit "a" ++ [NL])] /\
  nest_mds [lit "a/b"; lit "a"; lit "a/c"] = [None; Some (lit "a" ++ [NL]); Some (lit "a/c" ++ [NL])].
Proof. repeat split; vm_compute; reflexivity. Qed.

(** C78 is false of nested names too: a run with -a of a/b and then a ends with OK, but accepting a removes the snapshot of a/b, and the next
    run does not pass. In the other order it does. *)
Definition nest_run (acc : bool) (selected : list str) (f : fs) :=
  run_async ascii_class no_float demo_E demo_O demo_O (demo_conf acc) nest_body (fun d : str => d) Some (fun c => N.eqb c SP) (fun _ => lit "7") selected (lit "{}") selected [] f.
Theorem C78_nested_refuted :
  let selected := [lit "a/b"; lit "a"] in
  Forall (fun n => proper n /\ ~ In DOT n) selected /\ NoDup selected /\
  verdict_of (nest_run true selected []) = Some OK /\
  verdict_of (nest_run false selected (after (nest_run true selected []))) = Some DIFF /\
  lookup (demo_E ++ SLASH :: lit "a/b.md") (after (nest_run true selected [])) = None /\
  verdict_of (nest_run true (rev selected) []) = Some OK /\
  verdict_of (nest_run false (rev selected) (after (nest_run true (rev selected) []))) = Some OK.
Proof.
  cbv zeta. split.
  { constructor; [|constructor; [|constructor]]; (split; [|vm_compute; intuition discriminate]).
    - change (lit "a/b") with (join_with [SLASH] [lit "a"; lit "b"]). apply proper_parts; [discriminate|repeat constructor; discriminate].
    - change (lit "a") with (join_with [SLASH] [lit "a"]). apply proper_parts; [discriminate|repeat constructor; discriminate]. }
  split; [repeat constructor; vm_compute; intuition discriminate|]. repeat split; vm_compute; reflexivity.
Qed.
Print Assumptions C78_nested_refuted.
