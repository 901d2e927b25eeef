(** C82: a parallel run has the results of a sequential one and leaves the same files. *)
From Verif Require Import PyStrFacts CaseRunProps RunCaseProps ReportsProofs RunnerProofs.
From Verif Require Export ParProofs.
From Coq Require Import Permutation.

Lemma in_map_fst {A B} (rs : list (A * B)) n : In n (map fst rs) -> exists r, In (n, r) rs.
Proof. intros H. apply in_map_iff in H as ([m r] & <- & H). eauto. Qed.
Lemma choose_results (rs : list (str * result)) : NoDup (map fst rs) -> exists res : str -> result, forall n r, In (n, r) rs -> r = res n.
Proof.
  intros H. exists (fun n => match find (fun x => str_eqb (fst x) n) rs with Some x => snd x | None => OK end). intros n r I.
  induction rs as [|[m q] rs IH]; [destruct I|]. cbn [map fst] in H. inversion H as [|? ? NI ND]; subst. cbn [find fst]. destruct (str_eqb_spec m n) as [->|N].
  - destruct I as [I|I]; [now injection I|]. exfalso. apply NI. apply in_map_iff. now exists (n, r).
  - destruct I as [I|I]; [injection I; congruence|]. auto.
Qed.

Section Workers.
Variable cc : CharClass.
Variable refloat : str -> option str.
Variables (E o : str).
Hypothesis HE : plain_dir E.
Hypothesis Ho : plain o.
Hypothesis Hdot : starts_with [DOT] o = true.
Notation O := (E ++ SLASH :: o).
Variable c : config.
Variable body : str -> fs -> body_run.
Context {D : Type} (show_dur : D -> str) (parse_dur : str -> option D) (sp : char -> bool).
Variable durP : str -> D.
Variable all_names : list str.
Variables printed metrics_of : str -> str.
Variable names : list str.
Variable deps : str -> list str.
Hypothesis Hsep : separate names.
Hypothesis Hout : ~ In (lit "output") names.
Hypothesis Hdeps : forall n, In n names -> incl (deps n) names.
Hypothesis Hbody : forall n, In n names -> reads_deps E O deps n (body n).
Notation worker := (worker cc refloat E O c body show_dur parse_dur sp durP all_names printed metrics_of).
Variable todo : list str.
Hypothesis IN : incl todo names.
Hypothesis ND : NoDup todo.
Hypothesis ORD : deps_first deps todo.

Lemma metrics_not_bdir n : ~ path_prefix (bdir E o n) (O ++ SLASH :: lit "metrics.json").
Proof. intros H. pose proof (write_metrics_bdir E o n _ [] [] H) as X. rewrite lookup_write, str_eqb_refl in X. discriminate X. Qed.
Lemma index_not_bdir n : ~ path_prefix (bdir E o n) (E ++ SLASH :: lit "index.md").
Proof. intros H. pose proof (write_index_bdir E o Hdot n _ [] [] H) as X. rewrite lookup_write, str_eqb_refl in X. discriminate X. Qed.
Lemma no_nb n p : In n names -> own E o n p -> ~ booked E o p.
Proof. intros H. apply (own_not_booked E o Hdot); [now apply (a_name names Hsep)|now apply (not_output names Hout)]. Qed.
Lemma worker_starts n : exists s, worker n = Act s.
Proof. eexists. reflexivity. Qed.
Lemma workers_apart n m p : In n todo -> In m todo -> n <> m -> writes E o n p -> own' E o m p -> False.
Proof.
  intros Hn Hm N W H. apply IN in Hn, Hm.
  pose proof (a_name names Hsep n Hn) as C1. pose proof (a_name names Hsep m Hm) as C2.
  destruct H as [H|H]; (destruct W as [[W|W]|[->| ->]]).
  - apply N. now apply (own_disjoint E o Hdot names n m p).
  - revert W. apply (own_not_bdir E o Hdot m n p); auto using (not_output names Hout).
  - apply (no_nb m _ Hm H). apply booked_metrics.
  - apply (no_nb m _ Hm H). apply booked_index.
  - revert H. apply (own_not_bdir E o Hdot n m p); auto using (not_output names Hout).
  - apply N. now apply (bdir_disjoint E o n m p).
  - exact (metrics_not_bdir m H).
  - exact (index_not_bdir m H).
Qed.
Lemma workers_read n p : In n todo -> reads E o deps n p ->
  own' E o n p \/ (exists d, In d (deps n) /\ In d todo /\ d <> n /\ own' E o d p) \/ (forall m, In m todo -> ~ writes E o m p).
Proof.
  intros Hn [H|(d & Hd & ->)]; [now left|]. right. pose proof (bin_own E o d) as OW.
  assert (Dn : In d names) by (apply (Hdeps n); auto).
  destruct (in_dec (list_eq_dec N.eq_dec) d todo) as [Td|Td].
  - left. exists d. split; [exact Hd|]. split; [exact Td|]. split; [|left; exact OW].
    intros ->. destruct (in_split _ _ Hn) as (a & b & EQ). pose proof (ORD a n b EQ n Hd Td) as X. rewrite EQ in ND. apply NoDup_remove_2 in ND. apply ND. apply in_or_app. now left.
  - right. intros m Hm [[W|W]|[W|W]].
    + apply Td. replace d with m; [exact Hm|]. apply (own_disjoint E o Hdot names m d (O ++ SLASH :: d ++ lit ".bin")); auto.
    + revert W. apply (own_not_bdir E o Hdot d m); auto using (a_name names Hsep), (not_output names Hout).
    + apply (no_nb d _ Dn OW). rewrite W. apply booked_metrics.
    + apply (no_nb d _ Dn OW). rewrite W. apply booked_index.
Qed.
Lemma workers_local n : In n todo -> local (reads E o deps n) (writes E o n) (worker n).
Proof. intros Hn. apply (worker_local cc refloat E o HE Ho c body show_dur parse_dur sp durP all_names printed metrics_of names deps Hsep Hbody). auto. Qed.
End Workers.

(** the workers one after the other *)
Lemma parallel_sim :
  forall cc refloat E o c body (D : Type) (show_dur : D -> str) parse_dur sp durS durP all_names printed metrics_of metricsS names deps
    selected answers f rv recs rest g,
  plain_dir E -> plain o -> starts_with [DOT] o = true -> let O := E ++ SLASH :: o in
  batch c -> update c = false -> fail_fast c = false ->
  separate names -> ~ In (lit "output") names ->
  (forall n, In n names -> field_ok n /\ incl (deps n) names /\ reads_deps E O deps n (body n)) ->
  NoDup selected -> incl selected names -> deps_first deps selected -> (forall n, In n selected -> ready E O n f) ->
  run_async cc refloat E O O c body show_dur parse_dur sp durS all_names metricsS selected answers f = Some (Ret (rv, recs, rest) g) ->
  let todo := par_todo O c parse_dur sp selected f in
  exists (res : str -> result) gl, incl todo names /\ NoDup todo /\ deps_first deps todo /\
    in_turn (worker cc refloat E O c body show_dur parse_dur sp durP all_names printed metrics_of) todo (par_prepare O c show_dur parse_dur sp selected f) = (gl, map (fun n => (n, Value (res n))) todo) /\
    (forall n, In n todo -> auto c (res n) = false /\ lookup (bdir E o n ++ SLASH :: lit "cases.txt") gl = Some (report_text show_dur [(n, res n, durP n)]) /\
      ready E O n g /\ ((res n = OK -> accept c = false) -> exists t, lookup (O ++ SLASH :: n ++ lit ".md") g = Some t)) /\
    recs = par_kept O c parse_dur sp selected f ++ map (fun n => (n, res n, durS n)) todo /\
    is_ok rv = forallb is_ok (map res todo) /\
    (forall p, ~ booked E o p -> lookup p gl = lookup p g) /\
    lookup (E ++ SLASH :: lit "index.md") g = Some (index_text all_names).
Proof.
  intros cc refloat E o c body D show_dur parse_dur sp durS durP all_names printed metrics_of metricsS names deps
    selected answers f rv recs rest g HE Ho Hdot O HB HU HF SEP NOUT HN ND INS ORD RD H todo0. unfold todo0 in *. clear todo0.
  assert (RF : report_file O = O ++ SLASH :: lit "cases.txt") by (apply path_join_name; [now apply HO|reflexivity]).
  assert (RF' : path_join O (lit "cases.txt") = O ++ SLASH :: lit "cases.txt") by exact RF.
  assert (BE : batches_dir O = (E ++ SLASH :: o) ++ SLASH :: lit ".batches") by now apply batches_eq.
  assert (ME : path_join O (lit "metrics.json") = O ++ SLASH :: lit "metrics.json") by now apply metrics_eq.
  assert (IE : path_join E (lit "index.md") = E ++ SLASH :: lit "index.md") by now apply index_eq.
  unfold run_async in H. unfold par_kept, par_todo, par_prepare in *. unfold par_kept, par_todo in *. rewrite !RF' in *. rewrite !RF in *. 
  set (old := of_file parse_dur sp (lookup (O ++ SLASH :: lit "cases.txt") f)) in *. set (todo := snd (cases_to_done_and_todo old (cont c) selected)) in *.
  assert (IN : incl todo names) by (intros n Hn; apply INS; now apply (todo_incl old (cont c) selected)).
  assert (TND : NoDup todo) by now apply todo_NoDup. assert (TORD : deps_first deps todo) by now apply todo_deps_first.
  assert (Hdeps : forall n, In n names -> incl (deps n) names) by (intros n Hn; apply HN; exact Hn).
  assert (Hbody : forall n, In n names -> reads_deps E O deps n (body n)) by (intros n Hn; apply HN; exact Hn).
  assert (Hfield : forall n, In n names -> field_ok n) by (intros n Hn; apply HN; exact Hn).
  set (f1 := write_file (O ++ SLASH :: lit "cases.txt") (report_text show_dur (kept old todo)) f) in *.
  set (g1 := write_file (O ++ SLASH :: lit "cases.txt") (report_text show_dur (kept old todo)) (rm_rf (batches_dir O) f)) in *.
  assert (BC : booked E o (O ++ SLASH :: lit "cases.txt")) by (left; right; now left).
  assert (A1 : agree (fun p => ~ booked E o p) f1 g1).
  { intros p N. unfold f1, g1. rewrite (write_booked E o _ _ f BC p N), (write_booked E o _ _ (rm_rf _ f) BC p N), lookup_rm, BE.
    destruct (below _ p || str_eqb _ p) eqn:X; [|reflexivity]. exfalso. apply N. left. left. apply orb_true_iff in X as [X|X]; [now apply prefix_below|].
    apply str_eqb_eq in X. subst p. apply prefix_refl. }
  assert (EMP : forall n p, In n todo -> path_prefix (bdir E o n) p -> lookup p g1 = None).
  { intros n p Hn Hp. unfold g1. rewrite lookup_write. destruct (str_eqb_spec (O ++ SLASH :: lit "cases.txt") p) as [<-|_].
    - apply (bdir_below E o n) in Hp. apply prefix_split in Hp as (t & _ & X). rewrite <- (app_assoc (E ++ SLASH :: o)) in X. apply app_inv_head in X. discriminate X.
    - rewrite lookup_rm, BE. apply (bdir_below E o n) in Hp. apply prefix_app in Hp as [->|X]; [now rewrite str_eqb_refl, orb_true_r|now rewrite X]. }
  assert (RD1 : forall n, In n todo -> ready E O n f1).
  { intros n Hn. apply (ready_local E o n f); [|apply RD; now apply (todo_incl old (cont c) selected)]. intros p OW. unfold f1. symmetry.
    apply (write_booked E o); [exact BC|]. apply (no_nb E o Hdot names SEP NOUT n); auto. }
  destruct (run_todo _ _ _ _ _ _ _ _ _ _ _ _ _ _ _) as [[[[rv0 recs0] rest0] f2|f2]|] eqn:RT in H; [|discriminate|discriminate]. cbn [run_bind] in H. injection H as <- <- <- <-.
  destruct (turn_sim cc refloat E o HE Ho Hdot c HB HU HF body show_dur parse_dur sp durS durP all_names printed metrics_of names deps SEP NOUT Hdeps Hbody
    todo IN TND _ _ _ _ _ g1 _ _ _ _ A1 EMP RD1 RT) as (rs & g2 & M & ER & EV & TU & A2 & _ & RS).
  destruct (choose_results rs) as [res RES]; [rewrite M; exact TND|].
  assert (RS' : forall n, In n todo -> In (n, res n) rs).
  { intros n Hn. rewrite <- M in Hn. apply in_map_fst in Hn as [r Hr]. now rewrite <- (RES n r Hr). }
  assert (RSM : rs = map (fun n => (n, res n)) todo).
  { rewrite <- M. rewrite map_map. clear -RES. induction rs as [|[n r] rs IH]; [reflexivity|]. cbn [map fst]. rewrite <- IH by (intros; apply RES; now right).
    now rewrite <- (RES n r (or_introl eq_refl)). }
  assert (WN : forall p, ~ booked E o p -> lookup p (write_file (path_join E (lit "index.md")) (index_text all_names) (write_file (path_join O (lit "metrics.json")) metricsS f2)) = lookup p f2).
  { intros p NBK. rewrite IE, ME, !lookup_write.
    assert (K : forall q, booked E o q -> str_eqb q p = false) by (intros q HQ; destruct (str_eqb_spec q p) as [->|]; [contradiction|reflexivity]).
    now rewrite !K by (try apply booked_metrics; apply booked_index). }
  exists res, g2. split; [exact IN|]. split; [exact TND|]. split; [exact TORD|]. split; [|split; [|split; [|split; [|split]]]].
  - fold O in TU. rewrite TU, RSM, map_map. reflexivity.
  - intros n Hn. destruct (RS n (res n) (RS' n Hn)) as (X1 & X2 & X3 & X4). split; [exact X1|]. split; [exact X2|].
    assert (OWN : forall p, own E o n p -> lookup p f2 = lookup p (write_file (path_join E (lit "index.md")) (index_text all_names) (write_file (path_join O (lit "metrics.json")) metricsS f2))).
    { intros p OW. symmetry. apply WN. apply (no_nb E o Hdot names SEP NOUT n); auto. }
    split; [apply (ready_local E o n f2); [exact OWN|exact X3]|]. intros X. destruct (X4 X) as [t T]. exists t. rewrite <- OWN; [exact T|].
    apply (own_O E o n (lit ".md")); [unfold case_exts; cbn [In]; tauto|apply prefix_refl].
  - rewrite ER. f_equal. unfold runs_of. rewrite RSM, map_map. reflexivity.
  - rewrite EV, fold_ok. cbn [is_ok andb]. rewrite RSM, map_map. reflexivity.
  - intros p NBK. rewrite WN by exact NBK. symmetry. now apply A2.
  - rewrite IE, lookup_write, str_eqb_refl. reflexivity.
Qed.

Lemma parallel_core :
  forall cc refloat E o c body (D : Type) (show_dur : D -> str) parse_dur sp durS durP all_names printed metrics_of metricsS names deps
    selected answers f rv recs rest g,
  plain_dir E -> plain o -> starts_with [DOT] o = true -> let O := E ++ SLASH :: o in
  batch c -> update c = false -> fail_fast c = false ->
  separate names -> ~ In (lit "output") names ->
  (forall n, In n names -> field_ok n /\ incl (deps n) names /\ reads_deps E O deps n (body n)) ->
  NoDup selected -> incl selected names -> deps_first deps selected -> (forall n, In n selected -> ready E O n f) ->
  run_async cc refloat E O O c body show_dur parse_dur sp durS all_names metricsS selected answers f = Some (Ret (rv, recs, rest) g) ->
  let todo := par_todo O c parse_dur sp selected f in
  forall st gp, psteps todo deps (worker cc refloat E O c body show_dur parse_dur sp durP all_names printed metrics_of, par_prepare O c show_dur parse_dur sp selected f) (st, gp) ->
  (forall n, In n todo -> ended (st n)) ->
  exists res : str -> result, incl todo names /\ NoDup todo /\
    (forall n, In n todo -> auto c (res n) = false /\ lookup (bdir E o n ++ SLASH :: lit "cases.txt") gp = Some (report_text show_dur [(n, res n, durP n)])) /\
    recs = par_kept O c parse_dur sp selected f ++ map (fun n => (n, res n, durS n)) todo /\
    is_ok rv = forallb is_ok (map res todo) /\
    (forall p, ~ booked E o p -> lookup p gp = lookup p g) /\
    lookup (E ++ SLASH :: lit "index.md") g = Some (index_text all_names).
Proof.
  intros cc refloat E o c body D show_dur parse_dur sp durS durP all_names printed metrics_of metricsS names deps
    selected answers f rv recs rest g HE Ho Hdot O HB HU HF SEP NOUT HN ND INS ORD RD H todo st gp ST ENDED.
  destruct (parallel_sim cc refloat E o c body D show_dur parse_dur sp durS durP all_names printed metrics_of metricsS names deps
    selected answers f rv recs rest g HE Ho Hdot HB HU HF SEP NOUT HN ND INS ORD RD H) as (res & gl & IN & TND & TORD & TU & RS & ER & EV & SAME & EI).
  fold O in IN, TND, TORD, TU, RS, ER, EV, SAME. fold todo in IN, TND, TORD, TU, RS, ER, EV.
  assert (Hdeps : forall n, In n names -> incl (deps n) names) by (intros n Hn; apply HN; exact Hn).
  assert (Hbody : forall n, In n names -> reads_deps E O deps n (body n)) by (intros n Hn; apply HN; exact Hn).
  set (W := worker cc refloat E O c body show_dur parse_dur sp durP all_names printed metrics_of) in *. set (g1 := par_prepare O c show_dur parse_dur sp selected f) in *.
  destruct (any_order todo deps W (own' E o) (reads E o deps) (writes E o) TND TORD) with (f0 := g1) (st := st) (f := gp) as [ALL FRAME]; auto.
  { intros n _. unfold W. apply worker_starts. }
  { intros n Hn. apply (workers_local cc refloat E o HE Ho c body show_dur parse_dur sp durP all_names printed metrics_of names deps SEP Hbody todo IN n Hn). }
  { intros n p _ X. now left. }
  { intros n m p Hn Hm N X Y. exact (workers_apart E o Hdot names SEP NOUT todo IN n m p Hn Hm N X Y). }
  { intros n p Hn X. exact (workers_read E o Hdot names deps SEP NOUT Hdeps todo IN TND TORD n p Hn X). }
  unfold last_fs, outs in ALL. rewrite TU in ALL. cbn [fst snd] in ALL.
  exists res. split; [exact IN|]. split; [exact TND|]. split; [|split; [exact ER|split; [exact EV|split; [|exact EI]]]].
  - intros n Hn. destruct (RS n Hn) as (X1 & X2 & _). split; [exact X1|]. destruct (ALL n Hn) as (oc & _ & _ & AG). rewrite <- X2. apply AG. right. apply in_bdir.
  - intros p NBK. rewrite <- (SAME p NBK). destruct (some_own E o todo p) as [(n & Hn & OW)|NO].
    + destruct (ALL n Hn) as (oc & _ & _ & AG). apply AG. now left.
    + assert (NW : forall n, In n todo -> ~ writes E o n p).
      { intros n Hn [[X|X]|[->| ->]]; [now apply (NO n)| | |]; apply NBK; [now apply (booked_bdir E o n)|apply booked_metrics|apply booked_index]. }
      rewrite (FRAME p NW).
      pose proof (turn_frame todo W (reads E o deps) (writes E o)) as TF. specialize (TF ltac:(intros n Hn; apply (workers_local cc refloat E o HE Ho c body show_dur parse_dur sp durP all_names printed metrics_of names deps SEP Hbody todo IN n Hn)) todo (incl_refl _) g1 p NW).
      rewrite TU in TF. cbn [fst] in TF. now symmetry.
Qed.

Theorem C82_parallel_like_sequential :
  forall cc refloat E o c body (D : Type) (show_dur : D -> str) parse_dur sp durS durP all_names printed metrics_of metricsS metricsP names deps
    selected answers f rv recs rest g,
  plain_dir E -> plain o -> starts_with [DOT] o = true -> let O := E ++ SLASH :: o in
  batch c -> update c = false -> fail_fast c = false -> durations_ok show_dur parse_dur -> space_ok sp ->
  separate names -> ~ In (lit "output") names ->
  (forall n, In n names -> field_ok n /\ incl (deps n) names /\ reads_deps E O deps n (body n)) ->
  NoDup selected -> incl selected names -> deps_first deps selected -> (forall n, In n selected -> ready E O n f) ->
  run_async cc refloat E O O c body show_dur parse_dur sp durS all_names metricsS selected answers f = Some (Ret (rv, recs, rest) g) ->
  forall x, parallel_run cc refloat E O c body show_dur parse_dur sp durP all_names printed metrics_of metricsP deps selected f x ->
  exists recs' h, x = Ret (is_ok rv, recs') h /\
    Permutation (map (fun r => (rec_name r, rec_result r)) recs) (map (fun r => (rec_name r, rec_result r)) recs') /\
    lookup (O ++ SLASH :: lit "cases.txt") h = Some (report_text show_dur recs') /\
    forall p, ~ bookkeeping O p -> lookup p h = lookup p g.
Proof.
  intros cc refloat E o c body D show_dur parse_dur sp durS durP all_names printed metrics_of metricsS metricsP names deps
    selected answers f rv recs rest g HE Ho Hdot O HB HU HF DUR SPC SEP NOUT HN ND INS ORD RD H x (st & gp & order & ST & ENDED & OIFF & ONOD & ->).
  destruct (parallel_core cc refloat E o c body D show_dur parse_dur sp durS durP all_names printed metrics_of metricsS names deps
    selected answers f rv recs rest g HE Ho Hdot HB HU HF SEP NOUT HN ND INS ORD RD H st gp ST ENDED) as (res & IN & TND & RS & ER & EV & SAME & EI).
  fold O in RS, ER, EV, SAME, IN, TND. set (todo := par_todo O c parse_dur sp selected f) in *.
  assert (ME : path_join O (lit "metrics.json") = O ++ SLASH :: lit "metrics.json") by now apply metrics_eq.
  assert (IE : path_join E (lit "index.md") = E ++ SLASH :: lit "index.md") by now apply index_eq.
  assert (RF' : path_join O (lit "cases.txt") = O ++ SLASH :: lit "cases.txt") by (apply path_join_name; [now apply HO|reflexivity]).
  assert (Hfield : forall n, In n names -> field_ok n) by (intros n Hn; apply HN; exact Hn).
  unfold par_finish.
  assert (REV : par_review E O c parse_dur sp order gp = Ret (map (fun n => (n, res n, durP n)) order) gp).
  { apply (par_review_all E o HE Ho c HB show_dur parse_dur sp DUR SPC durP names SEP Hfield). intros n Hn. apply OIFF in Hn. split; [now apply IN|]. now apply RS. }
  rewrite REV. cbn [io_bind]. rewrite RF', IE, ME. assert (RO : path_join O (lit "output.txt") = O ++ SLASH :: lit "output.txt") by (apply path_join_name; [now apply HO|reflexivity]). rewrite RO.
  eexists. eexists. split; [|split; [|split]].
  - f_equal. f_equal. rewrite EV.
    assert (X : forall l, forallb (fun r => is_ok (rec_result r)) (map (fun n => (n, res n, durP n)) l) = forallb is_ok (map (fun n => res n) l)).
    { induction l as [|n l IH]; [reflexivity|]. cbn [map forallb]. now rewrite IH. }
    rewrite X. assert (P : Permutation (map (fun n => res n) order) (map (fun n => res n) todo)) by (apply Permutation_map, NoDup_Permutation; auto).
    apply Bool.eq_iff_eq_true. rewrite !forallb_forall. split; intros Y r Hr; apply Y; [symmetry in P|]; now apply (Permutation_in _ P).
  - rewrite ER, !map_app. apply Permutation_app_head. rewrite !map_map. cbn [rec_name rec_result fst snd].
    apply (Permutation_map (fun n => (n, res n))). apply NoDup_Permutation; auto. intros n. now rewrite OIFF.
  - rewrite lookup_write. destruct (str_eqb_spec (E ++ SLASH :: lit "index.md") (O ++ SLASH :: lit "cases.txt")) as [X|_].
    + exfalso. revert X. apply (name_vs_out E o Hdot (lit "index") (lit ".md")); [discriminate|vm_compute; intuition discriminate].
    + rewrite !lookup_write.
      destruct (str_eqb_spec (O ++ SLASH :: lit "metrics.json") (O ++ SLASH :: lit "cases.txt")) as [X|_]; [apply app_inv_head in X; discriminate X|].
      destruct (str_eqb_spec (O ++ SLASH :: lit "output.txt") (O ++ SLASH :: lit "cases.txt")) as [X|_]; [apply app_inv_head in X; discriminate X|].
      now rewrite str_eqb_refl.
  - intros p NB. rewrite !lookup_write.
    assert (K : forall q, bookkeeping O q -> str_eqb q p = false) by (intros q HQ; destruct (str_eqb_spec q p) as [->|]; [contradiction|reflexivity]).
    destruct (str_eqb_spec (E ++ SLASH :: lit "index.md") p) as [<-|NI]; [now symmetry|]. rewrite !K by (right; cbn [In]; tauto).
    apply SAME. intros [X|X]; [contradiction|congruence].
Qed.
Print Assumptions C82_parallel_like_sequential.

(** Nothing gets stuck and nothing goes on for ever: every sequence of operations is finite, and from every state of the workers
    one comes to a state in which all have ended. *)
Theorem C82_parallel_run_ends :
  forall (A D : Type) (old : list (case_rec D)) k deps selected, NoDup selected -> deps_first deps selected ->
  let todo := snd (cases_to_done_and_todo old k selected) in
  forall (st : str -> proc A) f,
    Acc (fun y x => pstep todo deps x y) (st, f) /\
    exists st' f', psteps todo deps (st, f) (st', f') /\ forall n, In n todo -> ended (st' n).
Proof.
  intros A D old k deps selected ND ORD todo st f. pose proof (runs_end deps todo st f) as AC. split; [exact AC|].
  assert (TORD : deps_first deps todo) by now apply todo_deps_first.
  remember (st, f) as x eqn:EX. revert st f EX. induction AC as [x _ IH]. intros st f ->.
  assert (DEC : (exists n, In n todo /\ ~ ended (st n)) \/ forall n, In n todo -> ended (st n)).
  { clear. induction todo as [|n l IH]; [right; intros n []|]. destruct IH as [(m & H1 & H2)|IH]; [left; exists m; split; [now right|exact H2]|].
    destruct (st n) as [oc|s] eqn:En.
    - right. intros m [<-|Hm]; [now exists oc|auto].
    - left. exists n. split; [now left|]. intros [oc X]. congruence. }
  destruct DEC as [NE|AL]; [|exists st, f; split; [constructor|exact AL]].
  destruct (some_step todo deps TORD st f NE) as [[st1 f1] P]. destruct (IH (st1, f1) P st1 f1 eq_refl) as (st' & f' & PS & AL).
  exists st', f'. split; [|exact AL]. clear -P PS. remember (st1, f1) as y eqn:EY. induction PS as [z|a b d PS IHP P'].
  - subst z. econstructor; [constructor|exact P].
  - econstructor; [apply IHP; assumption|exact P'].
Qed.
Print Assumptions C82_parallel_run_ends.


(** ** Examples *)
(** the second test of the demo project depends on the first *)
Definition demo_deps (n : str) : list str := if str_eqb n (lit "t/b") then [lit "t/a"] else [].
(** it writes the value of the first *)
Definition demo_using (n : str) (f : fs) : body_run :=
  if str_eqb n (lit "t/b")
  then {| b_ops := [OTln (match lookup (lit "books/.out/t/a.bin") f with Some v => v | None => lit "none" end)]; b_exc := None; b_files := []; b_tmp := []; b_log := []; b_value := None |}
  else demo_text n.
Notation demo_seq acc :=
  (run_async ascii_class no_float demo_E demo_O demo_O (demo_conf acc) demo_using (fun _ : unit => lit "7") (fun _ => Some tt) (fun c => N.eqb c SP) (fun _ => tt) demo_two (lit "{}") demo_two (@nil str) demo_f0).
Notation demo_par acc x :=
  (parallel_run ascii_class no_float demo_E demo_O (demo_conf acc) demo_using (fun _ : unit => lit "7") (fun _ => Some tt) (fun c => N.eqb c SP) (fun _ => tt) demo_two
    (fun n => n) (fun n => n) (lit "{}") demo_deps demo_two demo_f0 x).

Lemma demo_field n : In n demo_two -> field_ok n.
Proof. intros [<-|[<-|[]]]; split; [|split| |split]; vm_compute; intuition discriminate. Qed.
Lemma demo_deps_ok n : In n demo_two -> incl (demo_deps n) demo_two.
Proof. intros [<-|[<-|[]]]; intros m; vm_compute; tauto. Qed.
Lemma demo_reads n : In n demo_two -> reads_deps demo_E demo_O demo_deps n (demo_using n).
Proof.
  intros [<-|[<-|[]]] f g _ H; [reflexivity|]. specialize (H (lit "t/a") (or_introl eq_refl)). unfold demo_using. cbn [str_eqb].
  change (lookup (lit "books/.out/t/a.bin") f = lookup (lit "books/.out/t/a.bin") g) in H. now rewrite H.
Qed.
Lemma demo_first : deps_first demo_deps demo_two.
Proof.
  intros a n b EQ d Hd _. destruct a as [|x a].
  - injection EQ as <- _. vm_compute in Hd. contradiction.
  - injection EQ as <- EQ. destruct a as [|y a].
    + injection EQ as <- _. vm_compute in Hd. destruct Hd as [<-|[]]. now left.
    + injection EQ as _ EQ. destruct a; discriminate.
Qed.

Lemma demo_seq_runs acc : exists recs rest g, demo_seq acc = Some (Ret (if acc then OK else DIFF, recs, rest) g) /\
  lookup (lit "books/t/b.md") g = if acc then Some (lit "t/a" ++ [NL]) else lookup (lit "books/t/b.md") demo_f0.
Proof. destruct acc; (do 3 eexists; split; [vm_compute; reflexivity|vm_compute; reflexivity]). Qed.
Lemma demo_NoDup : NoDup demo_two.
Proof. repeat constructor; vm_compute; intuition discriminate. Qed.
Lemma demo_par_runs acc : exists x, demo_par acc x.
Proof.
  unfold parallel_run. cbv zeta. unfold par_todo. set (old := of_file _ _ _). change (cont (demo_conf acc)) with false. set (f := par_prepare _ _ _ _ _ _ _).
  set (w := worker _ _ _ _ _ _ _ _ _ _ _ _ _).
  destruct (C82_parallel_run_ends result unit old false demo_deps demo_two demo_NoDup demo_first w f) as (_ & st & h & PS & AL).
  eexists. exists st, h, demo_two. split; [exact PS|]. split; [exact AL|]. split; [intros n; reflexivity|]. split; [exact demo_NoDup|reflexivity].
Qed.

Lemma demo_conf_batch acc : batch (demo_conf acc).
Proof. split; reflexivity. Qed.
Lemma demo_durations : durations_ok (fun _ : unit => lit "7") (fun _ => Some tt).
Proof. intros []. split; [reflexivity|]. split; [|split]; vm_compute; intuition discriminate. Qed.
Lemma demo_space : space_ok (fun c => N.eqb c SP).
Proof. intros k Hk. destruct (N.eqb_spec k SP) as [->|_]; [|reflexivity]. exfalso. destruct Hk as [Hk _]. now apply Hk. Qed.
Lemma demo_not_output : ~ In (lit "output") demo_two.
Proof. vm_compute. intuition discriminate. Qed.
Lemma demo_tests n : In n demo_two -> field_ok n /\ incl (demo_deps n) demo_two /\ reads_deps demo_E demo_O demo_deps n (demo_using n).
Proof. auto using demo_field, demo_deps_ok, demo_reads. Qed.
Lemma demo_ready n : In n demo_two -> ready demo_E demo_O n demo_f0.
Proof. intros [<-|[<-|[]]]; apply readyb_ok; vm_compute; reflexivity. Qed.
Lemma demo_not_kept : ~ bookkeeping demo_O (lit "books/t/b.md").
Proof. intros [[X|[r X]]|[X|[X|[X|[]]]]]; discriminate X. Qed.

(** The hypotheses of C82 are met with and without -a; a parallel run exists, and the value of the first test reaches the second. *)
Example C82_example : forall acc,
  exists recs rest g x, demo_seq acc = Some (Ret (if acc then OK else DIFF, recs, rest) g) /\ demo_par acc x /\
    exists recs' h, x = Ret (is_ok (if acc then OK else DIFF), recs') h /\ (forall p, ~ bookkeeping demo_O p -> lookup p h = lookup p g) /\
      lookup (lit "books/t/b.md") h = if acc then Some (lit "t/a" ++ [NL]) else lookup (lit "books/t/b.md") demo_f0.
Proof.
  intros acc. destruct (demo_seq_runs acc) as (recs & rest & g & S & L). destruct (demo_par_runs acc) as [x P].
  exists recs, rest, g, x. split; [exact S|]. split; [exact P|].
  destruct (C82_parallel_like_sequential ascii_class no_float demo_E demo_o (demo_conf acc) demo_using unit (fun _ : unit => lit "7") (fun _ => Some tt) (fun c => N.eqb c SP)
    (fun _ => tt) (fun _ => tt) demo_two (fun n => n) (fun n => n) (lit "{}") (lit "{}") demo_two demo_deps demo_two [] demo_f0 (if acc then OK else DIFF) recs rest g
    (proj1 demo_dirs) (proj1 (proj2 demo_dirs)) eq_refl (demo_conf_batch acc) eq_refl eq_refl demo_durations demo_space
    demo_separate demo_not_output demo_tests demo_NoDup (incl_refl _) demo_first demo_ready S x P) as (recs' & h & EX & _ & _ & SAME).
  exists recs', h. split; [exact EX|]. split; [exact SAME|]. rewrite (SAME _ demo_not_kept). exact L.
Qed.

(** Workers one after the other are one of the possible runs. *)
Lemma solo_steps {A} todo deps n : In n todo -> forall (p : proc A) st f, st n = p -> (forall d, In d (deps n) -> In d todo -> ended (st d)) ->
  exists st', psteps todo deps (st, f) (st', fst (solo p f)) /\ st' n = Halt (snd (solo p f)) /\ forall m, m <> n -> st' m = st m.
Proof.
  intros Hn p. induction p as [oc|s IH] using proc_ind2; intros st f E D; cbn [solo].
  - exists st. split; [constructor|]. auto.
  - specialize (IH f). destruct (s f) as [g q] eqn:SF. cbn [fst snd] in *. destruct (IH (set_proc st n q) g) as (st' & PS & E' & OT).
    + unfold set_proc. now rewrite str_eqb_refl.
    + intros d H1 H2. unfold set_proc. destruct (str_eqb_spec n d) as [<-|_]; [|auto]. exfalso. destruct (D n H1 H2) as [oc X]. congruence.
    + exists st'. split; [|split; [exact E'|]].
      * assert (P : pstep todo deps (st, f) (set_proc st n q, g)).
        { pose proof (PStep todo deps st f n s Hn E D) as P. rewrite SF in P. exact P. }
        clear -P PS. remember (set_proc st n q, g) as y eqn:EY. induction PS as [z|a b d PS IHP P'].
        -- subst z. econstructor; [constructor|exact P].
        -- econstructor; [apply IHP; assumption|exact P'].
      * intros m NM. rewrite OT by exact NM. unfold set_proc. destruct (str_eqb_spec n m); [congruence|reflexivity].
Qed.

(** C82 says nothing of a test named "output": its report is in out/output.txt, where the parallel run also puts what the workers print. *)
Example C82_output_clash :
  let n := lit "output" in
  case_name n /\ ready demo_E demo_O n [] /\
  exists recs rest g recs' h,
    run_async ascii_class no_float demo_E demo_O demo_O (demo_conf true) demo_body (fun _ : unit => lit "7") (fun _ => Some tt) (fun c => N.eqb c SP) (fun _ => tt) [n] (lit "{}") [n] [] [] =
      Some (Ret (OK, recs, rest) g) /\
    parallel_run ascii_class no_float demo_E demo_O (demo_conf true) demo_body (fun _ : unit => lit "7") (fun _ => Some tt) (fun c => N.eqb c SP) (fun _ => tt) [n]
      (fun n => n ++ [NL]) (fun n => n) (lit "{}") (fun _ => []) [n] [] (Ret (true, recs') h) /\
    lookup (lit "books/.out/output.txt") g = Some (flat_map (fun l => lit "  " ++ l ++ [NL]) [lit "# output"; lit ""; lit "one 1"; lit "two 2"; lit "took 3.5 ms"]) /\
    lookup (lit "books/.out/output.txt") h = Some (n ++ [NL]).
Proof.
  intros n. split; [|split; [apply readyb_ok; vm_compute; reflexivity|]].
  { split; [|split; [|split]]; [|vm_compute; intuition discriminate|discriminate|discriminate]. change n with (join_with [SLASH] [n]). apply proper_parts; [discriminate|repeat constructor; discriminate]. }
  do 5 eexists. split; [vm_compute; reflexivity|]. split; [|split].
  - set (w := worker ascii_class no_float demo_E demo_O (demo_conf true) demo_body (fun _ : unit => lit "7") (fun _ => Some tt) (fun c => N.eqb c SP) (fun _ => tt) [n] (fun n => n ++ [NL]) (fun n => n)).
    destruct (solo_steps [n] (fun _ => []) n (or_introl eq_refl) (w n) w
      (par_prepare demo_O (demo_conf true) (fun _ : unit => lit "7") (fun _ => Some tt) (fun c => N.eqb c SP) [n] []) eq_refl) as (st & PS & E & _); [intros d []|].
    exists st. eexists. exists [n]. split; [exact PS|]. split; [intros m [<-|[]]; eexists; exact E|]. split; [reflexivity|]. split; [repeat constructor; intros []|].
    vm_compute. reflexivity.
  - vm_compute. reflexivity.
  - vm_compute. reflexivity.
Qed.
