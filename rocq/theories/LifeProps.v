(** C55, C56, C70. *)
From Verif Require Import LifeModel.
From Coq Require Import Lia.

(** *** C55: after any sequence of test executions the root logger's handlers and sys.stderr are what they were. *)

(** a body may do anything to sys.stderr and to logger.handlers, but does not change the list object [h] *)
Definition keeps (h : nat) (b : body) : Prop := forall w, fresh w <= fresh (fst (b w)) /\ lists (fst (b w)) h = lists w h.

(** True for the handlers: after any history in which no body is interrupted, the logger has its old list of
    handlers back, with the same contents, whatever the bodies did to logger.handlers, and whether they raised. *)
Theorem C55_handlers_partial bs w w' ok :
  handlers w < fresh w ->
  Forall (keeps (handlers w)) bs ->
  Forall (fun b => forall x, snd (b x) <> Interrupts) bs ->
  run_all bs w = (w', ok) ->
  ok = true /\ handlers w' = handlers w /\ lists w' (handlers w) = lists w (handlers w).
Proof.
  intros HF HK HI. revert w HF HK. induction bs as [|b bs IH]; cbn [run_all]; intros w HF HK E; [injection E as <- <-; auto|].
  inversion HK as [|? ? Kb Kbs]; subst. inversion HI as [|? ? Ib Ibs]; subst. unfold run_case in E. cbn [tcr_init tcr_open handlers lists stderr] in E.
  match type of E with context [b ?x] => set (w1 := x) in * end. specialize (Kb w1). specialize (Ib w1). destruct (b w1) as [w2 e] eqn:Eb.
  cbn [fst snd] in *. destruct Kb as [K1 K2]. unfold w1 in K1, K2. cbn [fresh lists] in K1, K2.
  assert (NE : (handlers w =? S (fresh w)) = false) by (apply Nat.eqb_neq; lia). rewrite NE in K2.
  destruct e; [| |congruence]; cbn [tcr_close err orig_handlers orig_err] in E;
       (match type of E with run_all _ ?x = _ => set (w3 := x) in * end;
       destruct (IH Ibs w3) as (I1 & I2 & I3); [unfold w3; cbn [handlers fresh]; lia|exact Kbs|exact E|];
       unfold w3 in I2, I3; cbn [handlers lists] in I2, I3; repeat split; [exact I1|exact I2|congruence]).
Qed.
Print Assumptions C55_handlers_partial.

(** and while a test runs its errors and log go to its own, open file only *)
Theorem C55_own_log b w w' :
  (forall x, closed w x = true -> x < fresh w) ->
  fst (run_case b w) = w' ->
  exists w1 : world, stderr w1 = Some (fresh w) /\ lists w1 (handlers w1) = [fresh w] /\ closed w1 (fresh w) = false /\
    (forall l, l < fresh w -> lists w1 l = lists w l) /\
    (snd (b w1) = Interrupts -> w' = fst (b w1)) /\
    (snd (b w1) <> Interrupts -> closed w' (fresh w) = true /\ handlers w' = handlers w).
Proof.
  intros HC E. unfold run_case in E. cbn [tcr_init tcr_open handlers lists stderr closed fresh] in E.
  match type of E with context [b ?x] => exists x; destruct (b x) as [w2 e] eqn:Eb end.
  cbn [stderr handlers lists closed fresh fst snd]. repeat split.
  - now rewrite Nat.eqb_refl.
  - apply not_true_is_false. intros T. apply HC in T. lia.
  - intros l L. replace (l =? S (fresh w)) with false by (symmetry; apply Nat.eqb_neq; lia). reflexivity.
  - intros ->. now symmetry.
  - destruct e; [| |congruence]; cbn [tcr_close err fst] in E; subst w'; cbn [closed]; now rewrite Nat.eqb_refl.
  - destruct e; [| |congruence]; cbn [tcr_close err fst orig_handlers] in E; now subst w'.
Qed.
Print Assumptions C55_own_log.

(** False for stderr: after any history of at least one test whose bodies leave it alone, sys.stderr is the closed
    file of the last test. *)
Theorem C55_stderr_lost bs w w' ok :
  bs <> [] ->
  (forall x, closed w x = true -> x < fresh w) -> (forall e, stderr w = Some e -> e < fresh w) ->
  Forall (fun b => forall x, stderr (fst (b x)) = stderr x /\ fresh x <= fresh (fst (b x)) /\ snd (b x) <> Interrupts) bs ->
  run_all bs w = (w', ok) ->
  exists e, stderr w' = Some e /\ closed w' e = true /\ stderr w <> Some e.
Proof.
  intros NE HC HS HB E.
  assert (G : exists e, stderr w' = Some e /\ closed w' e = true /\ fresh w <= e).
  { clear HC HS. revert w NE E. induction bs as [|b bs IH]; intros w NE E; [congruence|]. cbn [run_all] in E. inversion HB as [|? ? Hb Hbs]; subst.
    unfold run_case in E. cbn [tcr_init tcr_open handlers lists stderr closed fresh] in E.
    match type of E with context [b ?x] => set (w1 := x) in * end. specialize (Hb w1). destruct (b w1) as [w2 e].
    cbn [fst snd] in Hb. destruct Hb as (B1 & B2 & B3). unfold w1 in B1, B2. cbn [stderr fresh] in B1, B2.
    destruct e; [| |congruence]; cbn [tcr_close err orig_handlers orig_err] in E;
         (destruct bs as [|b2 bs];
         [cbn [run_all] in E; injection E as <- _; exists (fresh w); cbn [stderr closed]; rewrite Nat.eqb_refl; auto|];
         match type of E with run_all _ ?x = _ => set (w3 := x) in * end;
         destruct (IH Hbs w3 ltac:(discriminate) E) as (e & E1 & E2 & E3); exists e; repeat split; try assumption;
         unfold w3 in E3; cbn [fresh] in E3; lia). }
  destruct G as (e & E1 & E2 & E3). exists e. repeat split; try assumption. intros S. apply HS in S. lia.
Qed.
Print Assumptions C55_stderr_lost.

Definition c55_w : world :=
  {| stderr := Some 0; handlers := 1; lists := fun x => if x =? 1 then [0] else []; closed := fun _ => false; fresh := 2 |}.
Definition quiet (e : ending) : body := fun w => (w, e).

Theorem C55_refuted : exists bs w w',
  run_all bs w = (w', true) /\ stderr w = Some 0 /\ closed w 0 = false /\ exists e, stderr w' = Some e /\ closed w' e = true /\ e <> 0.
Proof.
  exists [quiet Returns; quiet Raises], c55_w. eexists. split; [reflexivity|]. repeat split. exists 4. cbn. repeat split. discriminate.
Qed.
Print Assumptions C55_refuted.

(** False for both when a test is interrupted: the handlers stay those of the test. *)
Theorem C55_interrupt_refuted : exists b w w', run_all [b] w = (w', false) /\ handlers w' <> handlers w /\ lists w' (handlers w') <> lists w (handlers w).
Proof. exists (quiet Interrupts), c55_w. eexists. split; [reflexivity|]. cbn. split; discriminate. Qed.
Print Assumptions C55_interrupt_refuted.

Example C55_example :
  let rude : body := fun w => ({| stderr := None; handlers := 0; lists := lists w; closed := closed w; fresh := fresh w |}, Raises) in
  handlers c55_w < fresh c55_w /\ Forall (keeps (handlers c55_w)) [rude; quiet Returns] /\
  Forall (fun b : body => forall x, snd (b x) <> Interrupts) [rude; quiet Returns] /\
  handlers (fst (run_all [rude; quiet Returns] c55_w)) = 1 /\
  Forall (fun b : body => forall x, stderr (fst (b x)) = stderr x /\ fresh x <= fresh (fst (b x)) /\ snd (b x) <> Interrupts) [quiet Returns; quiet Raises].
Proof.
  cbn zeta. split; [cbn; lia|]. split; [repeat constructor; cbn; lia|]. split; [repeat constructor; cbn; discriminate|].
  split; [reflexivity|]. repeat constructor; cbn; try lia; discriminate.
Qed.

(** *** C56: if setup completes, teardown runs exactly once after the tests, also when they raise; if setup raises,
    neither the tests nor teardown run. *)
Section C56.
  Variable X : Type.
  Variable stop_iteration : X.
  Inductive event := Setup | Teardown | Later | Tests (n : nat).

  (** a setup generator as in the documentation: code before its yield, code after it. Each may raise (Some);
      [later]: a second yield, with further code *)
  Definition stage (ev : event) (throws : option X) (next : step (list event) X) : gen (list event) X :=
    Gen (fun tr => (tr ++ [ev], match throws with Some e => Fails e | None => next end)).
  Definition fixture (s t : option X) (later : option (gen (list event) X)) : gen (list event) X :=
    stage Setup s (Yields (stage Teardown t (match later with None => Stops | Some g => Yields g end))).
  Definition tests (n : nat) (o : outcome X) : code (list event) X := fun tr => (tr ++ [Tests n], o).

  Theorem C56_teardown_follows_setup s t later n o tr :
    setup_block _ _ stop_iteration (fixture s t later) (tests n o) tr =
    match s with
    | Some e => (tr ++ [Setup], Thrown e)
    | None => (tr ++ [Setup; Tests n; Teardown], match t with Some e => Thrown e | None => o end)
    end.
  Proof.
    unfold setup_block, fixture, stage, tests. cbn [resume]. destruct s; [reflexivity|]. cbn match. cbn [resume].
    rewrite <- !app_assoc. destruct t; [reflexivity|]. destruct later; reflexivity.
  Qed.
End C56.
Print Assumptions C56_teardown_follows_setup.

(** the same for arbitrary code: the state is threaded through setup, tests and teardown, each once *)
Theorem C56_any_code (W X : Type) (stop_iteration : X) (g : gen W X) (b : code W X) (w : W) :
  let (w1, s) := resume g w in
  match s with
  | Yields g' => let (w2, o) := b w1 in
                 fst (setup_block W X stop_iteration g b w) = fst (resume g' w2) /\
                 snd (setup_block W X stop_iteration g b w) = match snd (resume g' w2) with Fails e => Thrown e | _ => o end
  | Stops => setup_block W X stop_iteration g b w = (w1, Thrown stop_iteration)
  | Fails e => setup_block W X stop_iteration g b w = (w1, Thrown e)
  end.
Proof.
  unfold setup_block. destruct (resume g w) as [w1 [g'| |e]]; try reflexivity.
  destruct (b w1) as [w2 o]. destruct (resume g' w2) as [w3 [g''| |e]]; auto.
Qed.
Print Assumptions C56_any_code.

(** in a worker process: the exit code of the run is reported iff setup completed and the run did not raise *)
Theorem C56_worker (W X : Type) (given : option (gen W X)) (run : W -> W * (nat + X)) w w' r :
  run_batch W X given run w = (w', r) ->
  match resume (process_setup W X given) w with
  | (w1, Yields g') => w' = fst (resume g' (fst (run w1))) /\ (forall c, r = Some c <-> snd (run w1) = inl c)
  | (w1, _) => w' = w1 /\ r = None
  end.
Proof.
  unfold run_batch. destruct (resume _ w) as [w1 [g'| |e]]; try (intros [= <- <-]; auto).
  destruct (run w1) as [w2 [c|e]]; cbn [fst snd]; intros [= <- <-]; (split; [reflexivity|]); intros c'; split; congruence.
Qed.
Print Assumptions C56_worker.

Example C56_example :
  setup_block _ nat 0 (fixture nat None None None) (tests nat 7 (Thrown 3)) [] = ([Setup; Tests 7; Teardown], Thrown 3) /\
  setup_block _ nat 0 (fixture nat (Some 5) None None) (tests nat 7 Done) [] = ([Setup], Thrown 5) /\
  setup_block _ nat 0 (fixture nat None (Some 4) None) (tests nat 7 (Thrown 3)) [] = ([Setup; Tests 7; Teardown], Thrown 4) /\
  run_batch _ nat (Some (fixture nat None None None)) (fun tr => (tr ++ [Tests 1], inl 9)) [] = ([Setup; Tests 1; Teardown], Some 9).
Proof. repeat split; reflexivity. Qed.

(** *** C70: combined setup decorators nest: the first in the list is the innermost; setups run from the last to the
    first, teardowns in the opposite order, however the test ends; a setup that raises stops there and the outer
    teardowns still run. *)
Section C70.
  Variable X : Type.
  Variable stop_iteration : X.
  Inductive mark := Up (k : nat) | Down (k : nat) | Test.
  Definition level (k : nat) (throws : option X) : gen (list mark) X :=
    Gen (fun tr => (tr ++ [Up k], match throws with
                                  | Some e => Fails e
                                  | None => Yields (Gen (fun tr => (tr ++ [Down k], Stops))) end)).
  Definition deco (k : nat) (throws : option X) : code (list mark) X -> code (list mark) X :=
    setup_teardown _ _ stop_iteration (level k throws).

  Theorem C70_nesting ks o tr :
    combine_decorators _ _ (map (fun k => deco k None) ks) (fun tr => (tr ++ [Test], o)) tr =
    (tr ++ map Up (rev ks) ++ [Test] ++ map Down ks, o).
  Proof.
    unfold combine_decorators. revert tr. induction ks as [|k ks IH] using rev_ind; intros tr; [reflexivity|].
    rewrite map_app, fold_left_app. cbn [map fold_left]. unfold deco at 1, setup_teardown, setup_block. cbn [level resume].
    rewrite IH. cbn [resume]. rewrite rev_app_distr, map_app. cbn [rev app map]. rewrite map_app. cbn [map]. f_equal.
    rewrite <- !app_assoc. cbn [app]. reflexivity.
  Qed.

  Theorem C70_failed_setup inner k e outer o tr :
    combine_decorators _ _ (map (fun k => deco k None) inner ++ deco k (Some e) :: map (fun k => deco k None) outer)
      (fun tr => (tr ++ [Test], o)) tr =
    (tr ++ map Up (rev outer) ++ [Up k] ++ map Down outer, Thrown e).
  Proof.
    unfold combine_decorators. rewrite fold_left_app. cbn [fold_left].
    generalize (fold_left (fun rv d => d rv) (map (fun k0 => deco k0 None) inner) (fun tr0 => (tr0 ++ [Test], o))). intros f.
    revert tr. induction outer as [|q ks IH] using rev_ind; intros tr; [reflexivity|].
    rewrite map_app, fold_left_app. cbn [map fold_left]. unfold deco at 1, setup_teardown, setup_block. cbn [level resume].
    rewrite IH. cbn [resume]. rewrite rev_app_distr, map_app. cbn [rev app map]. rewrite map_app. cbn [map]. f_equal.
    rewrite <- !app_assoc. reflexivity.
  Qed.
End C70.
Print Assumptions C70_nesting.
Print Assumptions C70_failed_setup.

Example C70_example :
  combine_decorators _ _ [deco nat 0 1 None; deco nat 0 2 None] (fun tr => (tr ++ [Test], Thrown 9)) [] =
  ([Up 2; Up 1; Test; Down 1; Down 2], Thrown 9) /\
  combine_decorators _ _ [deco nat 0 1 None; deco nat 0 2 (Some 4); deco nat 0 3 None] (fun tr => (tr ++ [Test], Done)) [] =
  ([Up 3; Up 2; Down 3], Thrown 4).
Proof. split; reflexivity. Qed.
