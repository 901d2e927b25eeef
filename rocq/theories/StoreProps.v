(** C115: tests that return values which can not be stored. *)
From Coq Require Import Lia.
From Verif Require Import FsFacts CacheSpec CacheProofs CacheResults StoreModel.

Section Store.
Variable V : Type.
Variable dump : V -> str * bool.
Variable out_dir : str.
Notation case_run := (case_run V).

(** the value need not be stored, or can be *)
Definition storable (c : case_run) : Prop :=
  c_result c = FAIL \/ forall x, c_value c = Some x -> snd (dump x) = true.

(** [executed cs es]: of a run of [cs], the tests [es] are executed: all, or those up to the first whose value can not be stored *)
Definition executed (cs es : list case_run) : Prop :=
  (es = cs /\ Forall storable cs) \/
  exists before c after, cs = before ++ c :: after /\ Forall storable before /\ ~ storable c /\ es = before ++ [c].

(** [last_result es n v]: of the executions of [n] in [es] that did not fail, the last one returned [v] *)
Definition last_result (es : list case_run) (n : str) (v : option V) : Prop :=
  exists before c after, es = before ++ c :: after /\ c_name c = n /\ c_result c <> FAIL /\ c_value c = v /\
    forall d, In d after -> c_name d = n -> c_result d = FAIL.

Lemma case_end_ok c f : snd (case_end V dump out_dir c f) = true <-> storable c.
Proof.
  unfold case_end, storable, save_file. destruct (c_result c); cbn [snd]; [|split; [now left|easy]|];
    (destruct (c_value c) as [x|]; cbn [snd];
     [split; [intros E; right; intros y [= <-]; exact E|intros [E|E]; [discriminate|now apply E]]|split; [right; discriminate|easy]]).
Qed.

Lemma storable_dec c : storable c \/ ~ storable c.
Proof. pose proof (case_end_ok c []) as H. destruct (snd (case_end V dump out_dir c [])); [left; now apply H|right; intros S; apply H in S; discriminate]. Qed.

Lemma run_cases_spec : forall cs f records f' finished,
  run_cases V dump out_dir cs f = (records, f', finished) ->
  (finished = true <-> Forall storable cs) /\
  exists es, executed cs es /\
    records = map (fun c => (c_name c, c_result c)) (if finished then es else removelast es) /\
    f' = fold_left (fun f c => fst (case_end V dump out_dir c f)) es f.
Proof.
  induction cs as [|c cs IH]; intros f records f' finished; cbn [run_cases].
  - intros [= <- <- <-]. split; [split; [constructor|reflexivity]|]. exists []. split; [left; auto|]. auto.
  - destruct (case_end V dump out_dir c f) as [f1 ok] eqn:E. pose proof (case_end_ok c f) as S. rewrite E in S. cbn [snd] in S. destruct ok.
    + destruct (run_cases V dump out_dir cs f1) as [[r2 f2] fin] eqn:E2. intros [= <- <- <-].
      destruct (IH _ _ _ _ E2) as (A & es & X & R & F). assert (SC : storable c) by now apply S.
      split.
      * rewrite A. split; [now constructor|]. now inversion 1.
      * exists (c :: es). split; [|split].
        -- destruct X as [[-> X]|(b & d & a & -> & X & N & ->)]; [left; auto|right]. exists (c :: b), d, a. repeat split; auto.
        -- rewrite R. destruct fin; [reflexivity|]. destruct es as [|e es]; [|reflexivity].
           destruct X as [[Q X]|(b & d & a & _ & _ & _ & D)]; [|destruct b; discriminate]. rewrite <- Q in E2. discriminate.
        -- cbn [fold_left]. now rewrite E.
    + intros [= <- <- <-]. assert (N : ~ storable c) by (intros X; apply S in X; discriminate). split.
      * split; [discriminate|]. inversion 1. tauto.
      * exists [c]. split; [right; now exists [], c, cs|]. split; [reflexivity|]. cbn [fold_left]. now rewrite E.
Qed.

Variable load : str -> option V.
Hypothesis whole : forall x b, dump x = (b, true) -> load b = Some x.
Hypothesis broken : forall x b, dump x = (b, false) -> load b = None.
Hypothesis OD : dir_name out_dir.

(** what a dependent gets in a new process *)
Definition fresh_get (n : str) (f : fs) : option V :=
  match lookup (bin_path out_dir n) f with Some b => load b | None => None end.

Lemma last_result_snoc es c n v :
  last_result (es ++ [c]) n v <->
  (c_name c = n /\ c_result c <> FAIL /\ c_value c = v) \/ ((c_name c <> n \/ c_result c = FAIL) /\ last_result es n v).
Proof.
  split.
  - intros (b & d & a & E & N & R & Vv & L). destruct a as [|x a] using rev_ind.
    + apply app_inj_tail in E as [_ ->]. left. auto.
    + clear IHa. rewrite app_comm_cons, app_assoc in E. apply app_inj_tail in E as [-> <-]. right. split.
      * destruct (list_eq_dec N.eq_dec (c_name c) n) as [Q|Q]; [right; apply L; [apply in_or_app; right; now left|exact Q]|now left].
      * exists b, d, a. repeat split; auto. intros y I. apply L. apply in_or_app. now left.
  - intros [(N & R & Vv)|(D & b & d & a & -> & N & R & Vv & L)].
    + exists es, c, []. repeat split; auto. intros d [].
    + exists b, d, (a ++ [c]). split; [now rewrite <- app_assoc|]. repeat split; auto. intros y I Q. apply in_app_or in I as [I|[<-|[]]]; [now apply L|].
      destruct D as [D|D]; [contradiction|exact D].
Qed.

Lemma files_after : forall es f0, (forall n, rel_name n -> lookup (bin_path out_dir n) f0 = None) -> Forall (fun c => rel_name (c_name c)) es ->
  forall n, rel_name n ->
  forall x, fresh_get n (fold_left (fun f c => fst (case_end V dump out_dir c f)) es f0) = Some x <->
            last_result es n (Some x) /\ snd (dump x) = true.
Proof.
  intros es f0 F0 RN n R. induction es as [|c es IH] using rev_ind; intros x.
  - cbn [fold_left]. unfold fresh_get. rewrite (F0 n R). split; [discriminate|]. intros [(b & d & a & E & _) _]. now destruct b.
  - apply Forall_app in RN as [RN RC]. inversion_clear RC as [|? ? RC' _]. specialize (IH RN).
    rewrite fold_left_app. cbn [fold_left]. set (f := fold_left _ es f0) in *. rewrite last_result_snoc.
    unfold case_end.
    assert (OTHER : c_name c <> n \/ c_result c = FAIL ->
      ((c_name c = n /\ c_result c <> FAIL /\ c_value c = Some x) \/ ((c_name c <> n \/ c_result c = FAIL) /\ last_result es n (Some x))) /\ snd (dump x) = true <->
      last_result es n (Some x) /\ snd (dump x) = true) by tauto.
    assert (SAVE : c_result c <> FAIL -> fresh_get n (fst (save_file V dump out_dir (c_name c) (c_value c) f)) = Some x <->
      ((c_name c = n /\ c_result c <> FAIL /\ c_value c = Some x) \/ ((c_name c <> n \/ c_result c = FAIL) /\ last_result es n (Some x))) /\ snd (dump x) = true).
    { intros NF. destruct (list_eq_dec N.eq_dec (c_name c) n) as [Q|Q].
      - assert (Y : fresh_get n (fst (save_file V dump out_dir (c_name c) (c_value c) f)) =
                    match c_value c with Some y => if snd (dump y) then Some y else None | None => None end).
        { unfold fresh_get, save_file. rewrite Q. destruct (c_value c) as [y|]; cbn [fst].
          - rewrite lookup_write, str_eqb_refl. destruct (dump y) as [b [|]] eqn:D; cbn [fst snd]; [now apply whole|now apply broken with y].
          - now rewrite lookup_remove, str_eqb_refl. }
        rewrite Y. split.
        + destruct (c_value c) as [y|]; [|discriminate]. destruct (snd (dump y)) eqn:D; [|discriminate]. intros [= <-]. auto.
        + intros [[(_ & _ & ->)|([N|N] & _)] D]; try tauto. now rewrite D.
      - rewrite (OTHER (or_introl Q)), <- IH. unfold fresh_get, save_file.
        assert (NE : str_eqb (bin_path out_dir (c_name c)) (bin_path out_dir n) = false).
        { destruct (str_eqb_spec (bin_path out_dir (c_name c)) (bin_path out_dir n)) as [B|]; [|reflexivity].
          exfalso. apply Q. eapply (bin_inj out_dir OD); eassumption. }
        destruct (c_value c); cbn [fst]; [now rewrite lookup_write, NE|now rewrite lookup_remove, NE]. }
    destruct (c_result c) eqn:ER; cbn [fst]; [apply SAVE; discriminate| |apply SAVE; discriminate].
    rewrite OTHER by now right. apply IH.
Qed.

Lemma history_spec : forall runs f0, exists ess,
  Forall2 executed runs ess /\
  run_history V dump out_dir runs f0 = fold_left (fun f c => fst (case_end V dump out_dir c f)) (concat ess) f0.
Proof.
  induction runs as [|cs runs IH]; intros f0; cbn [run_history]; [now exists []|].
  destruct (run_cases V dump out_dir cs f0) as [[r f1] fin] eqn:E. cbn [fst snd].
  destruct (run_cases_spec _ _ _ _ _ E) as (_ & es & X & _ & ->). destruct (IH (fold_left (fun f c => fst (case_end V dump out_dir c f)) es f0)) as (ess & F & Q).
  exists (es :: ess). split; [now constructor|]. cbn [concat]. now rewrite fold_left_app.
Qed.
End Store.
Arguments storable {V}. Arguments executed {V}. Arguments last_result {V}. Arguments fresh_get {V}.

(** ** C115 *)

(** A run gets to its end iff every value that is to be stored can be stored. If not, the run raises at the first that can not; the
    tests before it are recorded, each with its verdict, and nothing is recorded of this one, so that -c runs it again. *)
Theorem C115_run_partial : forall V (dump : V -> str * bool) out_dir cs f records f' finished,
  run_cases V dump out_dir cs f = (records, f', finished) ->
  (finished = true <-> Forall (storable dump) cs) /\
  (finished = true -> records = map (fun c => (c_name c, c_result c)) cs) /\
  (finished = false -> exists before c after, cs = before ++ c :: after /\ Forall (storable dump) before /\ ~ storable dump c /\
     records = map (fun c => (c_name c, c_result c)) before).
Proof.
  intros V dump out_dir cs f records f' finished H. destruct (run_cases_spec V dump out_dir cs f records f' finished H) as (A & es & X & R & _).
  split; [exact A|]. split.
  - intros ->. destruct X as [[-> _]|(b & c & a & -> & _ & N & _)]; [exact R|]. exfalso. apply N.
    assert (F : Forall (storable dump) (b ++ c :: a)) by now apply A. apply Forall_app in F as [_ F]. now inversion F.
  - intros ->. destruct X as [[-> S]|(b & c & a & -> & S & N & ->)]; [apply A in S; discriminate|]. exists b, c, a.
    rewrite removelast_last in R. auto.
Qed.
Print Assumptions C115_run_partial.

(** After any history of such runs, a dependent in a new process gets a value iff it is the one that the last execution of its
    dependency which did not fail returned, and it could be stored: it never gets an older one. Otherwise it raises. *)
Theorem C115_never_stale : forall V (dump : V -> str * bool) load out_dir runs f0 n,
  (forall x b, dump x = (b, true) -> load b = Some x) -> (forall x b, dump x = (b, false) -> load b = None) ->
  dir_name out_dir -> (forall m, rel_name m -> lookup (bin_path out_dir m) f0 = None) ->
  Forall (Forall (fun c => rel_name (c_name c))) runs -> rel_name n ->
  exists ess, Forall2 (executed dump) runs ess /\
  forall x, fresh_get out_dir load n (run_history V dump out_dir runs f0) = Some x <->
            last_result (concat ess) n (Some x) /\ snd (dump x) = true.
Proof.
  intros V dump load out_dir runs f0 n W B OD F0 RN R. destruct (history_spec V dump out_dir runs f0) as (ess & X & E).
  exists ess. split; [exact X|]. rewrite E. apply files_after; auto.
  clear - X RN. induction X as [|cs es runs ess H X IH]; [constructor|]. inversion_clear RN. cbn [concat]. apply Forall_app. split; [|now apply IH].
  destruct H as [[-> _]|(b & c & a & -> & _ & _ & ->)]; [assumption|]. apply Forall_app in H0 as [P Q]. apply Forall_app. split; [exact P|].
  inversion_clear Q. now constructor.
Qed.
Print Assumptions C115_never_stale.

(** False: a test whose value can not be stored fails alone. The tests after it are neither run nor recorded, nor is this one. *)
Theorem C115_refuted : exists (dump : nat -> str * bool) (load : str -> option nat) cs f,
  (forall x b, dump x = (b, true) -> load b = Some x) /\ (forall x b, dump x = (b, false) -> load b = None) /\
  map (fun c => (c_name c, c_result c)) cs = [(lit "a", OK); (lit "b", OK); (lit "c", OK)] /\
  run_cases nat dump (lit "out") cs [] = ([(lit "a", OK)], f, false) /\
  fresh_get (lit "out") load (lit "b") f = None /\ fresh_get (lit "out") load (lit "a") f = Some 7.
Proof.
  exists (fun x => if Nat.eqb x 7 then (lit "7.", true) else (lit "8", false)), (fun b => if str_eqb b (lit "7.") then Some 7 else None),
    [ {| c_name := lit "a"; c_result := OK; c_value := Some 7 |}; {| c_name := lit "b"; c_result := OK; c_value := Some 8 |};
      {| c_name := lit "c"; c_result := OK; c_value := None |} ]. eexists.
  split; [|split; [|split; [reflexivity|split; [vm_compute; reflexivity|split; vm_compute; reflexivity]]]].
  - intros x b. destruct (Nat.eqb_spec x 7) as [->|]; intros [= <-]. reflexivity.
  - intros x b. destruct (Nat.eqb x 7); intros [= <-]. reflexivity.
Qed.
Print Assumptions C115_refuted.

(** the hypotheses of C115_never_stale are met, and the three answers occur: a value, then an exception after the value can not be
    stored, then the new value; a failed execution changes nothing *)
Example C115_example :
  let dump := fun x => if Nat.eqb x 8 then (lit "8", false) else (repeat 49%N x ++ lit ".", true) in
  let load := fun b => if str_eqb b (lit "8") then None else Some (length b - 1) in
  let ran r v := {| c_name := lit "a"; c_result := r; c_value := Some v |} in
  (forall x b, dump x = (b, true) -> load b = Some x) /\ (forall x b, dump x = (b, false) -> load b = None) /\
  dir_name (lit "out") /\ rel_name (lit "a") /\
  map (fun runs => fresh_get (lit "out") load (lit "a") (run_history nat dump (lit "out") runs []))
    [[]; [[ran OK 7]]; [[ran OK 7]; [ran DIFF 8; ran OK 5]]; [[ran OK 7]; [ran DIFF 8; ran OK 5]; [ran FAIL 6]]; [[ran DIFF 8]; [ran DIFF 4; ran FAIL 3]]] =
    [None; Some 7; None; None; Some 4].
Proof.
  cbn zeta. split; [|split; [|split; [split; [discriminate|reflexivity]|split; [reflexivity|vm_compute; reflexivity]]]].
  - intros x b. destruct (Nat.eqb_spec x 8); [discriminate|]. intros [= <-].
    destruct (str_eqb_spec (repeat 49%N x ++ lit ".") (lit "8")) as [E|_].
    + exfalso. change (lit "8") with [56%N] in E. destruct x as [|x]; [discriminate|]. cbn in E. discriminate.
    + rewrite app_length, repeat_length. cbn [length lit]. f_equal. cbn. lia.
  - intros x b. destruct (Nat.eqb x 8); [|discriminate]. intros [= <-]. reflexivity.
Qed.
