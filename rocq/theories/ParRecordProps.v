(** C126: tests recorded and accepted in one run also pass in every parallel run after it. *)
From Coq Require Import Permutation.
From Verif Require Import HttpTestModel RunCaseSpec MixModel MixProofs RunCaseProofs RunCaseProps RecordProps TokenizerProps CaseRunProps PyStrFacts FsFacts RecordProofs MixProps ParModel ParSpec ParProofs ParProps.
From Verif Require ReviewSpec FuncTestProofs FuncTestProps JsonFilesModel.

Lemma recording_kept E o n r : starts_with [DOT] o = true -> ~ In DOT n -> ~ bookkeeping (E ++ SLASH :: o) (E ++ SLASH :: n ++ SLASH :: r).
Proof.
  intros Hd ND B. apply starts_with_iff in Hd as [o' ->]. cbn [app] in *.
  assert (K : forall x, E ++ SLASH :: n ++ SLASH :: r <> (E ++ SLASH :: DOT :: o') ++ x).
  { intros x X. rewrite <- app_assoc in X. apply app_inv_head in X. cbn [app] in X. injection X as X. destruct n as [|a n]; [discriminate|]. injection X as -> _. apply ND. now left. }
  destruct B as [[B|[q B]]|[B|[B|[B|[]]]]]; try (symmetry in B; now apply K in B).
  - now apply K in B.
  - rewrite <- app_assoc in B. now apply K in B.
Qed.

(** A run with -a and -u in which nothing fails, as in C119, and any parallel run after it, whatever the order of the steps of its processes. *)
Theorem C126_recorded_then_parallel :
  forall cc, TokClassOK cc -> forall refloat E o c1 c2 body1 body2 b (D : Type) (show_dur : D -> str) parse_dur sp dur1 dur2 all1 all2 metrics1 printed metrics_of metrics2 deps
    selected answers1 f recs rest g,
  plain_dir E -> ReviewSpec.plain o -> starts_with [DOT] o = true -> let O := E ++ SLASH :: o in
  batch c1 -> accept c1 = true -> update c1 = true -> cont c1 = false ->
  batch c2 -> update c2 = false -> fail_fast c2 = false -> durations_ok show_dur parse_dur -> space_ok sp ->
  separate selected -> ~ In (lit "output") selected -> NoDup selected -> deps_first deps selected ->
  (forall n, In n selected -> field_ok n /\ incl (deps n) selected /\ reads_deps E O deps n (body2 n)) ->
  (forall n, In n selected -> steady cc (b n)) -> (forall n, In n selected -> ready E O n f) ->
  let recordings n h := fun r => lookup (E ++ SLASH :: n ++ SLASH :: r) h in
  (forall n h, In n selected -> (forall r, recordings n h r = recordings n f r) -> body1 n h = b n) ->
  (forall n h, In n selected -> (forall r, recordings n h r = last_write r (b_files (b n))) -> body2 n h = b n) ->
  run_async cc refloat E O O c1 body1 show_dur parse_dur sp dur1 all1 metrics1 selected answers1 f = Some (Ret (OK, recs, rest) g) ->
  forall x, parallel_run cc refloat E O c2 body2 show_dur parse_dur sp dur2 all2 printed metrics_of metrics2 deps selected g x ->
  exists recs' h, x = Ret (true, recs') h /\
    (cont c2 = false -> forall n, In n selected -> In (n, OK) (map (fun r => (rec_name r, rec_result r)) recs')) /\
    forall n r, In n selected -> recordings n g r = last_write r (b_files (b n)) /\ recordings n h r = recordings n g r.
Proof.
  intros cc TOK refloat E o c1 c2 body1 body2 b D show_dur parse_dur sp dur1 dur2 all1 all2 metrics1 printed metrics_of metrics2 deps selected answers1 f recs rest g
    HE Ho Hdot O HB1 HA HU HC1 HB2 HU2 HF2 DUR SPC SEP NOUT ND DF HN HST HR recordings HB HB' H x PR.
  destruct (C119_recorded_then_green cc TOK refloat E o c1 c2 body1 body2 b D show_dur parse_dur sp dur1 dur2 all1 all2 metrics1 metrics2 selected answers1 [] f recs rest g)
    as (recs2 & h2 & R2 & A & B); try assumption.
  destruct (C82_parallel_like_sequential cc refloat E o c2 body2 D show_dur parse_dur sp dur2 dur2 all2 printed metrics_of metrics2 metrics2 selected deps
    selected [] g OK recs2 [] h2 HE Ho Hdot HB2 HU2 HF2 DUR SPC SEP NOUT HN ND (incl_refl _) DF (fun n Hn => proj1 (B n Hn)) R2 x PR) as (recs' & h & EX & PM & _ & SAME).
  exists recs', h. split; [exact EX|]. split.
  - intros HC n Hn. apply (Permutation_in _ PM). apply in_map_iff. exists (n, OK, dur2 n). split; [reflexivity|]. now apply A.
  - intros n r Hn. destruct (B n Hn) as (_ & _ & _ & K). destruct (K r) as [K1 K2]. unfold recordings. split; [exact K1|].
    rewrite SAME; [now rewrite K1, K2|]. apply recording_kept; [exact Hdot|]. destruct SEP as [SN _]. rewrite Forall_forall in SN. apply (SN n Hn).
Qed.
Print Assumptions C126_recorded_then_parallel.

(** The same for tests inside any of the recorders of booktest: recorded with -s or -S, -a and -u, they pass with -p, with any network, functions and environment. *)
Theorem C126_recorded_tests :
  forall cc, TokClassOK cc -> forall refloat E o c1 c2 body1 body2 b (D : Type) (show_dur : D -> str) parse_dur sp dur1 dur2 all1 all2 metrics1 printed metrics_of metrics2 deps
    selected answers1 f recs rest g
    sha1 jfloat (X : Type) vars ign_rq ign_hx hide_rq hide_hx refresh complete stack (T T' : str -> mixed_test X) listing e e' cs os used,
  plain_dir E -> ReviewSpec.plain o -> starts_with [DOT] o = true -> let O := E ++ SLASH :: o in
  batch c1 -> accept c1 = true -> update c1 = true -> cont c1 = false ->
  batch c2 -> update c2 = false -> fail_fast c2 = false -> durations_ok show_dur parse_dur -> space_ok sp ->
  separate selected -> ~ In (lit "output") selected -> NoDup selected -> deps_first deps selected ->
  (forall n, In n selected -> field_ok n /\ incl (deps n) selected /\ reads_deps E O deps n (body2 n)) ->
  (forall n, In n selected -> steady cc (b n)) -> (forall n, In n selected -> ready E O n f) ->
  let recordings n h := fun r => lookup (E ++ SLASH :: n ++ SLASH :: r) h in
  (forall n, In n selected -> recorded_mixed cc sha1 jfloat (vars n) (ign_rq n) (ign_hx n) (hide_rq n) (hide_hx n) refresh complete (recordings n f) (listing n) (stack n)
     (T n) (T' n) (e n) (cs n) (os n) (b n) (used n) (e' n)) ->
  (forall n h, In n selected -> (forall r, recordings n h r = recordings n f r) -> body1 n h = b n) ->
  (forall n h, In n selected -> (forall r, recordings n h r = recordings n g r) -> exists listing' e2,
     FuncTestProofs.lists (recordings n h) listing' /\
     (forall saved d x, recordings n h (lit ".env.json") = Some saved -> JsonFilesModel.read_env jfloat saved = Some d -> In (x, None) d -> e2 x <> None) /\
     let offline := mixed_run cc sha1 jfloat X (vars n) (ign_rq n) (ign_hx n) (hide_rq n) (hide_hx n) false false (recordings n h) listing' (stack n) (T' n) e2 in
     ((exists cs' os' b' used' e3, offline cs' os' b' used' e3) -> exists cs' os' used' e3, offline cs' os' (body2 n h) used' e3)) ->
  run_async cc refloat E O O c1 body1 show_dur parse_dur sp dur1 all1 metrics1 selected answers1 f = Some (Ret (OK, recs, rest) g) ->
  forall x, parallel_run cc refloat E O c2 body2 show_dur parse_dur sp dur2 all2 printed metrics_of metrics2 deps selected g x ->
  exists recs' h, x = Ret (true, recs') h /\
    (cont c2 = false -> forall n, In n selected -> In (n, OK) (map (fun r => (rec_name r, rec_result r)) recs')) /\
    forall n r, In n selected -> recordings n h r = recordings n g r.
Proof.
  intros cc TOK refloat E o c1 c2 body1 body2 b D show_dur parse_dur sp dur1 dur2 all1 all2 metrics1 printed metrics_of metrics2 deps selected answers1 f recs rest g
    sha1 jfloat X vars ign_rq ign_hx hide_rq hide_hx refresh complete stack T T' listing e e' cs os used
    HE Ho Hdot O HB1 HA HU HC1 HB2 HU2 HF2 DUR SPC SEP NOUT ND DF HN HST HR recordings RR HB HB' H x PR.
  (* the recordings are those of the first run *)
  destruct (C119_recorded_then_green cc TOK refloat E o c1 c2 body1 (fun n _ => b n) b D show_dur parse_dur sp dur1 dur2 all1 all2 metrics1 metrics2 selected answers1 [] f recs rest g)
    as (r0 & h0 & _ & _ & B0); try assumption; [reflexivity|].
  destruct (C126_recorded_then_parallel cc TOK refloat E o c1 c2 body1 body2 b D show_dur parse_dur sp dur1 dur2 all1 all2 metrics1 printed metrics_of metrics2 deps selected answers1 f recs rest g)
    with (x := x) as (recs' & h & EX & A & B); try assumption.
  - intros n h Hn L. assert (LG : forall r, recordings n h r = recordings n g r).
    { intros r. destruct (B0 n Hn) as (_ & _ & _ & K). etransitivity; [apply L|]. symmetry. apply K. }
    destruct (HB' n h Hn LG) as (listing' & e2 & LS & UN & RUN).
    exact (mixed_again cc sha1 jfloat X _ _ _ _ _ refresh complete _ _ _ _ _ _ _ _ _ _ _ (recordings n h) listing' e2 (body2 n h) (RR n Hn) L LS UN RUN).
  - exists recs', h. split; [exact EX|]. split; [exact A|]. intros n r Hn. apply (B n r Hn).
Qed.
Print Assumptions C126_recorded_tests.

(** *** Example: the test of C124 twice, recorded by the user ann and run in parallel by bob, without network and without the function *)
Definition dir_of (n : str) (h : fs) (r : str) : option str := lookup (demo_E ++ SLASH :: n ++ SLASH :: r) h.
Definition functions : list str := filter (starts_with (lit ".functions/")) (map fst (b_files mix_b)).
Definition listing_of (n : str) (h : fs) : list (str * str) :=
  flat_map (fun r => match dir_of n h r with Some t => [(skipn (length (lit ".functions/")) r, t)] | None => [] end) functions.
Definition twice : list str := [lit "t/a"; lit "t/b"].
Definition replayed (n : str) (h : fs) : body_run := mix_do false (dir_of n h) (listing_of n h) mix_stack mixer bob down_cs.
Notation twice_first :=
  (run_async ascii_class no_float demo_E demo_O demo_O (talk_conf true true) (fun _ _ => mix_b) (fun _ : unit => lit "7") (fun _ => Some tt) (fun c => N.eqb c SP) (fun _ => tt) twice (lit "{}") twice (@nil str) []).
Notation twice_par g x :=
  (parallel_run ascii_class no_float demo_E demo_O (talk_conf false false) replayed (fun _ : unit => lit "7") (fun _ => Some tt) (fun c => N.eqb c SP) (fun _ => tt) twice
    (fun n => n) (fun n => n) (lit "{}") (fun _ => []) twice g x).
Lemma replayed_of n h h' : (forall r, dir_of n h r = dir_of n h' r) -> replayed n h = replayed n h'.
Proof.
  intros L. unfold replayed, mix_do, mix_load, listing_of. rewrite !L.
  replace (flat_map _ functions) with (flat_map (fun r => match dir_of n h' r with Some t => [(skipn (length (lit ".functions/")) r, t)] | None => [] end) functions); [reflexivity|].
  apply flat_map_ext. intros r. now rewrite L.
Qed.
Lemma replayed_same n h : (forall r, dir_of n h r = last_write r (b_files mix_b)) -> replayed n h = mix_b.
Proof.
  intros L. transitivity (mix_do false (fun r => last_write r (b_files mix_b)) (flat_map (fun r => match last_write r (b_files mix_b) with Some t => [(skipn (length (lit ".functions/")) r, t)] | None => [] end) functions) mix_stack mixer bob down_cs).
  - unfold replayed, mix_do, mix_load, listing_of. rewrite !L. replace (flat_map _ functions) with (flat_map (fun r => match last_write r (b_files mix_b) with Some t => [(skipn (length (lit ".functions/")) r, t)] | None => [] end) functions); [reflexivity|].
    apply flat_map_ext. intros r. now rewrite L.
  - vm_compute. reflexivity.
Qed.

Example C126_example : exists recs rest g x, twice_first = Some (Ret (OK, recs, rest) g) /\ length functions = 1 /\
  lookup (lit "books/t/b/.requests.json") g <> None /\ lookup (lit "books/t/b/.env.json") g <> None /\ twice_par g x /\
  exists recs' h, x = Ret (true, recs') h /\ (forall n, In n twice -> In (n, OK) (map (fun r => (rec_name r, rec_result r)) recs')) /\
    lookup (lit "books/t/b/.requests.json") h = lookup (lit "books/t/b/.requests.json") g.
Proof.
  assert (R1 : exists recs rest g, twice_first = Some (Ret (OK, recs, rest) g) /\ lookup (lit "books/t/b/.requests.json") g <> None /\ lookup (lit "books/t/b/.env.json") g <> None).
  { do 3 eexists. split; [vm_compute; reflexivity|]. split; vm_compute; discriminate. }
  destruct R1 as (recs & rest & g & R1 & L1 & L2).
  assert (DF : deps_first (fun _ => []) twice) by (intros a n b _ d []).
  assert (P : exists x, twice_par g x).
  { unfold parallel_run. cbv zeta. unfold par_todo. set (old := of_file _ _ _). change (cont (talk_conf false false)) with false. set (f := par_prepare _ _ _ _ _ _ _). set (w := worker _ _ _ _ _ _ _ _ _ _ _ _ _).
    destruct (C82_parallel_run_ends result unit old false (fun _ => []) twice demo_NoDup DF w f) as (_ & st & h & PS & AL).
    eexists. exists st, h, twice. split; [exact PS|]. split; [exact AL|]. split; [intros n; reflexivity|]. split; [exact demo_NoDup|reflexivity]. }
  destruct P as [x P]. exists recs, rest, g, x. split; [exact R1|]. split; [vm_compute; reflexivity|]. split; [exact L1|]. split; [exact L2|]. split; [exact P|].
  destruct (C126_recorded_then_parallel ascii_class ascii_TokClassOK no_float demo_E demo_o (talk_conf true true) (talk_conf false false) (fun _ _ => mix_b) replayed (fun _ => mix_b) unit
    (fun _ : unit => lit "7") (fun _ => Some tt) (fun c => N.eqb c SP) (fun _ => tt) (fun _ => tt) twice twice (lit "{}") (fun n => n) (fun n => n) (lit "{}") (fun _ => []) twice [] [] recs rest g)
    with (x := x) as (recs' & h & EX & A & B); try assumption; try reflexivity.
  - exact (proj1 demo_dirs).
  - exact (proj1 (proj2 demo_dirs)).
  - split; reflexivity.
  - split; reflexivity.
  - exact demo_durations.
  - exact demo_space.
  - exact demo_separate.
  - exact demo_not_output.
  - exact demo_NoDup.
  - intros n Hn. split; [exact (demo_field n Hn)|]. split; [intros m []|]. intros h h' L _. apply replayed_of. intros r. apply L. exact (own_file no_float demo_E demo_o n r).
  - intros n _. exact mix_steady.
  - intros n [<-|[<-|[]]]; apply readyb_ok; vm_compute; reflexivity.
  - intros n h _. apply replayed_same.
  - exists recs', h. split; [exact EX|]. split; [intros n Hn; now apply A|]. apply (B (lit "t/b") (lit ".requests.json")). right. now left.
Qed.

(** the hypotheses of [C126_recorded_tests] are met by the same tests *)
Definition fun_file : str * str := Eval vm_compute in hd ([], []) (listing_of [] (map (fun e => (demo_E ++ SLASH :: [] ++ SLASH :: fst e, snd e)) (b_files mix_b))).
Lemma listing_is n h : (forall r, dir_of n h r = last_write r (b_files mix_b)) -> listing_of n h = [fun_file].
Proof.
  intros L. transitivity (flat_map (fun r => match last_write r (b_files mix_b) with Some t => [(skipn (length (lit ".functions/")) r, t)] | None => [] end) functions).
  - apply flat_map_ext. intros r. now rewrite L.
  - vm_compute. reflexivity.
Qed.
Lemma listing_lists n h : (forall r, dir_of n h r = last_write r (b_files mix_b)) -> FuncTestProofs.lists (dir_of n h) (listing_of n h).
Proof.
  intros L. rewrite (listing_is n h L). split; [repeat constructor; intros []|]. intros name t. rewrite L. split.
  - intros [X|[]]. unfold fun_file in X. injection X as <- <-. split; [vm_compute; intuition discriminate|]. vm_compute. reflexivity.
  - intros [_ X]. apply lookup_In in X. revert X.
    assert (F : exists a b c, rev (b_files mix_b) = [a; b; c; (lit ".functions/" ++ fst fun_file, snd fun_file)] /\ Forall (fun e => nth 1 (fst e) 0%N <> 102%N) [a; b; c]).
    { do 3 eexists. split; [vm_compute; reflexivity|]. repeat constructor; vm_compute; discriminate. }
    destruct F as (a & b & c & -> & F). intros [X|[X|[X|[X|[]]]]].
    1-3: exfalso; rewrite Forall_forall in F; apply (F (lit ".functions/" ++ name, t)); [first [left; exact X|right; left; exact X|right; right; left; exact X]|reflexivity].
    injection X as X Y. left. exact (f_equal2 pair X Y).
Qed.

Example C126_tests_example : forall recs rest g x, twice_first = Some (Ret (OK, recs, rest) g) -> twice_par g x ->
  exists recs' h, x = Ret (true, recs') h /\ (forall n, In n twice -> In (n, OK) (map (fun r => (rec_name r, rec_result r)) recs')) /\
    forall n r, In n twice -> dir_of n h r = dir_of n g r.
Proof.
  intros recs rest g x R1 P.
  assert (DF : deps_first (fun _ => []) twice) by (intros a n b _ d []).
  assert (RD : forall n, In n twice -> ready demo_E demo_O n []) by (intros n [<-|[<-|[]]]; apply readyb_ok; vm_compute; reflexivity).
  assert (LG : forall n r, In n twice -> dir_of n g r = last_write r (b_files mix_b)).
  { destruct (C119_recorded_then_green ascii_class ascii_TokClassOK no_float demo_E demo_o (talk_conf true true) (talk_conf false false) (fun _ _ => mix_b) (fun _ _ => mix_b) (fun _ => mix_b) unit
    (fun _ : unit => lit "7") (fun _ => Some tt) (fun c => N.eqb c SP) (fun _ => tt) (fun _ => tt) twice twice (lit "{}") (lit "{}") twice [] [] [] recs rest g) as (r0 & h0 & _ & _ & B); try assumption; try reflexivity.
    - exact (proj1 demo_dirs).
    - exact (proj1 (proj2 demo_dirs)).
    - split; reflexivity.
    - split; reflexivity.
    - exact demo_separate.
    - exact demo_NoDup.
    - intros n _. exact mix_steady.
    - intros n r Hn. apply (B n Hn). }
  destruct (C126_recorded_tests ascii_class ascii_TokClassOK no_float demo_E demo_o (talk_conf true true) (talk_conf false false) (fun _ _ => mix_b) replayed (fun _ => mix_b) unit
    (fun _ : unit => lit "7") (fun _ => Some tt) (fun c => N.eqb c SP) (fun _ => tt) (fun _ => tt) twice twice (lit "{}") (fun n => n) (fun n => n) (lit "{}") (fun _ => []) twice [] [] recs rest g
    FuncTestProps.letter_sha1 (fun t => t) unit (fun _ => [lit "USER"]) (fun _ => HttpModel.IgnoreAll) (fun _ => HttpModel.IgnoreAll) (fun _ => true) (fun _ => true) true false (fun _ => mix_stack) (fun _ => mixer) (fun _ => mixer)
    (fun _ => []) (fun _ => ann) (fun _ => fst (fst (EnvModel.snap_block [lit "USER"] None true false (fun x => x) ann))) (fun _ => mix_cs) (fun _ => mix_os) (fun _ => [true; true; true]))
    with (x := x) as (recs' & h & EX & A & B); try assumption; try reflexivity.
  - exact (proj1 demo_dirs).
  - exact (proj1 (proj2 demo_dirs)).
  - split; reflexivity.
  - split; reflexivity.
  - exact demo_durations.
  - exact demo_space.
  - exact demo_separate.
  - exact demo_not_output.
  - exact demo_NoDup.
  - intros n Hn. split; [exact (demo_field n Hn)|]. split; [intros m []|]. intros h h' L _. apply replayed_of. intros r. apply L. exact (own_file no_float demo_E demo_o n r).
  - intros n _. exact mix_steady.
  - intros n _. exact C124_example.
  - intros n h Hn LH. assert (L : forall r, dir_of n h r = last_write r (b_files mix_b)) by (intros r; rewrite <- (LG n r Hn); apply LH).
    exists (listing_of n h), bob. split; [exact (listing_lists n h L)|].
    assert (UN : forall saved d y, dir_of n h (lit ".env.json") = Some saved -> JsonFilesModel.read_env (fun t => t) saved = Some d -> In (y, None) d -> bob y <> None).
    { intros saved d y W. rewrite L in W. vm_compute in W. injection W as <-. intros W. vm_compute in W. injection W as <-. intros [X|[]]. discriminate. }
    split; [exact UN|]. intros offline (cs' & os' & b' & used' & e3 & RUN). exists cs', os', used', e3. rewrite (replayed_same n h L).
    rewrite <- (mixed_again _ _ _ _ _ _ _ _ _ _ _ _ _ _ _ _ _ _ _ _ _ _ (dir_of n h) (listing_of n h) bob b' C124_example L (listing_lists n h L) UN); [exact RUN|].
    intros _. do 4 eexists. exact RUN.
  - exists recs', h. split; [exact EX|]. split; [intros n Hn; now apply A|]. intros n r Hn. exact (B n r Hn).
Qed.
