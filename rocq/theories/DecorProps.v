(** C104: a test gets the results of its dependencies. *)
From Verif Require Import PyStrFacts SelectModel SelectSpec SelectProofs SelectProps DecorModel.
From Coq Require Import Lia.

(** the depends_on decorators of a function, the outermost first *)
Fixpoint declared_by (f : tfunc) : list (list dep) :=
  match f with Def _ => [] | DependsOn _ ds g => ds :: declared_by g | Around _ g => declared_by g end.

(** what a dependency stands for: the value of the resource, or the result of the case that C30 is about *)
Definition is_value {V} (cases : list (str * meth)) (result_of : str -> option V) (resource : nat -> V) (m : meth) (d : dep) (v : V) : Prop :=
  match d with
  | Res r => v = resource r
  | On x => exists n, used_case cases m x = Some n /\ result_of n = Some v
  end.

Lemma test_self self f : attr_self (test_meth self f) = self.
Proof. destruct self as [s|]; [reflexivity|]. cbn [test_meth]. induction f; cbn [tf_meth attr_self]; auto. Qed.

Section Call.
  Context {V : Type} (cases : list (str * meth)) (result_of : str -> option V) (resource : nat -> V).
  Notation values := (dep_values V cases result_of resource).

  Lemma dep_value_spec self f d v :
    dep_value V cases result_of resource self d = Some v <-> is_value cases result_of resource (test_meth self f) d v.
  Proof.
    destruct d as [r|m]; cbn [dep_value is_value]; [split; [now intros [= ->]|now intros ->]|].
    unfold used_case, get_test_result, looked_up. rewrite test_self. destruct self as [s|].
    - destruct (case_by_method cases (bind_to m s)) as [n|].
      + destruct (result_of n) as [w|] eqn:E; split; [intros [= ->]; eauto|intros (n' & [= <-] & A); congruence|discriminate|intros (n' & [= <-] & A); congruence].
      + destruct (case_by_method cases m) as [n|]; [|split; [discriminate|intros (n & A & _); discriminate]].
        destruct (result_of n) as [w|] eqn:E; split; [intros [= ->]; eauto|intros (n' & [= <-] & A); congruence|discriminate|intros (n' & [= <-] & A); congruence].
    - destruct (case_by_method cases m) as [n|]; [|split; [discriminate|intros (n & A & _); discriminate]].
      destruct (result_of n) as [w|] eqn:E; split; [intros [= ->]; eauto|intros (n' & [= <-] & A); congruence|discriminate|intros (n' & [= <-] & A); congruence].
  Qed.
  Lemma dep_values_spec self f ds : forall vs, values self ds = Some vs <-> Forall2 (is_value cases result_of resource (test_meth self f)) ds vs.
  Proof.
    induction ds as [|d ds IH]; intros vs; cbn [dep_values].
    - split; [intros [= <-]; constructor|intros H; now inversion H].
    - split.
      + destruct (dep_value V cases result_of resource self d) as [v|] eqn:E; [|discriminate]. destruct (values self ds) as [us|]; [|discriminate].
        intros [= <-]. constructor; [now apply dep_value_spec|now apply IH].
      + intros H. inversion H as [|? v ? us A B]; subst. apply dep_value_spec in A. apply IH in B. now rewrite A, B.
  Qed.
  Lemma is_value_fun m ds : forall vs ws, Forall2 (is_value cases result_of resource m) ds vs -> Forall2 (is_value cases result_of resource m) ds ws -> vs = ws.
  Proof.
    induction ds as [|d ds IH]; intros vs ws A B; inversion A; inversion B; subst; [reflexivity|]. f_equal; [|eauto].
    destruct d; cbn [is_value] in *; [congruence|]. destruct H1 as (n & E & F). destruct H6 as (n' & E' & F'). congruence.
  Qed.

  Lemma call_start self f more : call V cases result_of resource f (start V self ++ map Val more) =
    match declared_by f with
    | [] => Some (start V self ++ map Val more)
    | _ => if forallb (fun ds => match values self ds with Some _ => true | None => false end) (declared_by f)
           then option_map (fun vs => start V self ++ map Val vs) (values self (last (declared_by f) [])) else None
    end.
  Proof.
    revert more. induction f as [i|i ds g IH|i g IH]; intros more; cbn [call declared_by]; [reflexivity| |apply IH].
    assert (S : forall vs, (match values self ds with Some vs => call V cases result_of resource g (start V self ++ map Val vs) | None => None end) = vs ->
      (if forallb (fun ds => match values self ds with Some _ => true | None => false end) (ds :: declared_by g)
           then option_map (fun vs => start V self ++ map Val vs) (values self (last (ds :: declared_by g) [])) else None) = vs).
    { intros vs <-. cbn [forallb]. destruct (values self ds) as [us|] eqn:E; [|reflexivity]. cbn [andb]. rewrite IH.
      destruct (declared_by g) as [|d l] eqn:ED; [|reflexivity]. cbn [forallb last]. now rewrite E. }
    symmetry. apply S. destruct self; reflexivity.
  Qed.
End Call.

(** Exactly, for any decorators in any order: the test is reached iff every dependency of every depends_on has a value; it gets
    the values of the innermost depends_on, in order, while the scheduler knows the dependencies of the outermost one. *)
Theorem C104_stacked_partial (V : Type) o cases (result_of : str -> option V) resource self f :
  o_deps o (tf_id f) = attr_dependencies f -> o_resources o (tf_id f) = attr_resources f ->
  let m := test_meth self f in
  (forall args, call V cases result_of resource f (start V self) = Some args <->
     (forall ds, In ds (declared_by f) -> exists vs, Forall2 (is_value cases result_of resource m) ds vs) /\
     exists vs, Forall2 (is_value cases result_of resource m) (last (declared_by f) []) vs /\ args = start V self ++ map Val vs) /\
  (forall d, In d (declared o m) <-> In (On d) (hd [] (declared_by f))) /\
  (forall r, In r (declared_resources o m) <-> In (Res r) (hd [] (declared_by f))).
Proof.
  intros HD HR m. split; [|split].
  - intros args. pose proof (call_start cases result_of resource self f []) as C. cbn [map] in C. rewrite app_nil_r in C. rewrite C. clear C.
    assert (SP := fun ds vs => dep_values_spec cases result_of resource self f ds vs). fold m in SP.
    destruct (declared_by f) as [|d l] eqn:E.
    + cbn [last]. split.
      * intros [= <-]. split; [intros ds []|]. exists []. split; [constructor|]. cbn [map]. now rewrite app_nil_r.
      * intros [_ (vs & A & ->)]. inversion A; subst. cbn [map]. now rewrite app_nil_r.
    + rewrite <- E in *. clear d l E. split.
      * destruct (forallb _ (declared_by f)) eqn:FB; [|discriminate]. rewrite forallb_forall in FB. intros H. split.
        -- intros ds I. specialize (FB ds I). destruct (dep_values V cases result_of resource self ds) as [vs|] eqn:E; [|discriminate]. exists vs. now apply SP.
        -- destruct (dep_values V cases result_of resource self (last (declared_by f) [])) as [vs|] eqn:E; [|discriminate]. cbn [option_map] in H. injection H as <-. exists vs. split; [now apply SP|reflexivity].
      * intros [A (vs & B & ->)].
        assert (FB : forallb (fun ds => match dep_values V cases result_of resource self ds with Some _ => true | None => false end) (declared_by f) = true).
        { apply forallb_forall. intros ds I. destruct (A ds I) as [us U]. apply SP in U. now rewrite U. }
        rewrite FB. apply SP in B. rewrite B. reflexivity.
  - intros d. assert (E : declared o m = attr_dependencies f).
    { unfold m. destruct self; cbn [test_meth declared]; rewrite <- HD; destruct f; reflexivity. }
    rewrite E. clear. induction f as [i|i ds g IH|i g IH]; cbn [attr_dependencies declared_by hd]; [tauto| |exact IH].
    unfold methods. rewrite in_flat_map. split; [intros ([r|x] & I & J); [destruct J|destruct J as [->|[]]; exact I]|]. intros I. exists (On d). split; [exact I|now left].
  - intros r. assert (E : declared_resources o m = attr_resources f).
    { unfold m. destruct self; cbn [test_meth declared_resources]; rewrite <- HR; destruct f; reflexivity. }
    rewrite E. clear. induction f as [i|i ds g IH|i g IH]; cbn [attr_resources declared_by hd]; [tauto| |exact IH].
    unfold resources. rewrite in_flat_map. split; [intros ([x|x] & I & J); [destruct J as [->|[]]; exact I|destruct J]|]. intros I. exists (Res r). split; [exact I|now left].
Qed.
Print Assumptions C104_stacked_partial.

(** A selected test with one depends_on, among any other decorators, in a run whose tests have stored their results: it is called
    with the values of its dependencies and resources in the order of the declaration, every dependency ran before it or has a
    stored result, and its resources are reserved. *)
Theorem C104_one_partial (V : Type) o cases fuel selection cached names (result_of : str -> option V) resource self f ds n :
  declared_by f = [ds] -> o_deps o (tf_id f) = attr_dependencies f -> o_resources o (tf_id f) = attr_resources f ->
  NoDup (map fst cases) -> In (n, test_meth self f) cases -> is_selected n selection = true ->
  selected_names o cases fuel selection cached = Some names ->
  (forall d, In (On d) ds -> used_case cases (test_meth self f) d <> None /\ used_case cases (test_meth self f) d = scheduled_case o cases (test_meth self f) d) ->
  (forall d, In d names \/ cached d = true -> result_of d <> None) ->
  exists vs, call V cases result_of resource f (start V self) = Some (start V self ++ map Val vs) /\
    Forall2 (is_value cases result_of resource (test_meth self f)) ds vs /\
    (forall d, In (On d) ds -> exists p, used_case cases (test_meth self f) d = Some p /\ (before names p n \/ cached p = true)) /\
    (forall r, In (Res r) ds -> In r (declared_resources o (test_meth self f))).
Proof.
  intros ONE HD HR ND IN SEL RUN USED READY.
  destruct (C104_stacked_partial V o cases result_of resource self f HD HR) as (CALL & DEC & RES). set (m := test_meth self f) in *. rewrite ONE in *. cbn [last hd] in *.
  assert (INN : In n names).
  { apply (C28_run_list_any_fuel o cases fuel selection cached names ND RUN). exists n. split; [apply in_map_iff; now exists (n, m)|auto]. }
  assert (B : forall d, In (On d) ds -> exists p, used_case cases m d = Some p /\ (before names p n \/ cached p = true)).
  { intros d I. destruct (USED d I) as [NN EQ]. destruct (used_case cases m d) as [p|] eqn:E; [|now contradict NN]. exists p. split; [reflexivity|].
    destruct (cached p) eqn:C; [now right|left]. apply (C28_run_list_any_fuel o cases fuel selection cached names ND RUN); [exact INN|].
    exists m, d. split; [exact IN|]. split; [now apply DEC|]. split; [now symmetry|now right]. }
  assert (VS : exists vs, Forall2 (is_value cases result_of resource m) ds vs).
  { assert (EACH : forall d, In d ds -> exists v, is_value cases result_of resource m d v).
    { intros [r|d] I; [now exists (resource r)|]. destruct (B d I) as (p & E & H). destruct (result_of p) as [v|] eqn:RP; [exists v, p; auto|]. exfalso. revert RP. apply READY.
      destruct H as [H|H]; [left|now right]. destruct H as (l1 & l2 & l3 & ->). rewrite ?in_app_iff; cbn [In]; rewrite ?in_app_iff; cbn [In]; tauto. }
    clear - EACH. induction ds as [|d ds IH]; [exists []; constructor|]. destruct (EACH d (or_introl eq_refl)) as [v H]. destruct IH as [vs F]; [intros x I; apply EACH; now right|].
    exists (v :: vs). now constructor. }
  destruct VS as [vs F]. exists vs. split; [|split; [exact F|split; [exact B|]]].
  - apply CALL. split; [intros x [<-|[]]; now exists vs|now exists vs].
  - intros r I. now apply RES.
Qed.
Print Assumptions C104_one_partial.

(** False of two depends_on on one function: the test is selected and everything on the run list has run, but the dependency of the
    inner depends_on was not scheduled, so the test raises. When both have results, the test gets only the inner one's. *)
Definition stacked : tfunc := DependsOn 3 [On (Fn 0)] (DependsOn 2 [On (Fn 1); Res 7] (Def 4)).
Definition stacked_objects : objects := {|
  o_deps i := match i with 3 => [Fn 0] | 2 => [Fn 1] | _ => [] end; o_resources i := match i with 2 => [7] | _ => [] end;
  o_self_type _ := None; o_isinstance _ _ := false |}.
Definition stacked_cases : list (str * meth) := [(lit "t/a", Fn 0); (lit "t/b", Fn 1); (lit "t/c", tf_meth stacked)].
Theorem C104_all_refuted :
  let o := stacked_objects in
  o_deps o (tf_id stacked) = attr_dependencies stacked /\ o_resources o (tf_id stacked) = attr_resources stacked /\
  declared_by stacked = [[On (Fn 0)]; [On (Fn 1); Res 7]] /\
  selected_names o stacked_cases 3 [lit "t/c"] (fun _ => false) = Some [lit "t/a"; lit "t/c"] /\
  call nat stacked_cases (fun n => if str_eqb n (lit "t/a") then Some 1 else None) (fun r => r) stacked [Case] = None /\
  call nat stacked_cases (fun n => if str_eqb n (lit "t/a") then Some 1 else if str_eqb n (lit "t/b") then Some 2 else None) (fun r => r) stacked [Case] = Some [Case; Val 2; Val 7] /\
  declared_resources o (tf_meth stacked) = [].
Proof. repeat split; vm_compute; reflexivity. Qed.
Print Assumptions C104_all_refuted.

(** a test of a test book with one depends_on between two other decorators meets the hypotheses of C104_one_partial *)
Definition single : tfunc := Around 5 (DependsOn 3 [On (Fn 1); Res 7; On (Fn 0)] (Around 2 (Def 4))).
Definition single_objects : objects := {|
  o_deps i := match i with 5 => [Fn 1; Fn 0] | 3 => [Fn 1; Fn 0] | _ => [] end; o_resources i := match i with 5 => [7] | 3 => [7] | _ => [] end;
  o_self_type i := match i with 4 => None | 2 => None | 3 => None | _ => Some 0 end; o_isinstance s t := Nat.eqb t 0 |}.
Definition single_cases : list (str * meth) := [(lit "x/a", Bound (Fn 0) 0); (lit "y/a", Bound (Fn 0) 1); (lit "y/b", Bound (Fn 1) 1); (lit "y/c", Bound (tf_meth single) 1)].
Example C104_example :
  let o := single_objects in
  let result := fun n => if str_eqb n (lit "y/a") then Some 1 else if str_eqb n (lit "y/b") then Some 2 else if str_eqb n (lit "x/a") then Some 3 else if str_eqb n (lit "y/c") then Some 4 else None in
  declared_by single = [[On (Fn 1); Res 7; On (Fn 0)]] /\ o_deps o (tf_id single) = attr_dependencies single /\ o_resources o (tf_id single) = attr_resources single /\
  NoDup (map fst single_cases) /\ In (lit "y/c", test_meth (Some 1) single) single_cases /\
  selected_names o single_cases 4 [lit "y/c"] (fun _ => false) = Some [lit "y/b"; lit "y/a"; lit "y/c"] /\
  (forall d, In (On d) [On (Fn 1); Res 7; On (Fn 0)] ->
     used_case single_cases (test_meth (Some 1) single) d <> None /\
     used_case single_cases (test_meth (Some 1) single) d = scheduled_case o single_cases (test_meth (Some 1) single) d) /\
  (forall d, In d [lit "y/b"; lit "y/a"; lit "y/c"] \/ false = true -> result d <> None) /\
  call nat single_cases result (fun r => r) single [Self 1; Case] = Some [Self 1; Case; Val 2; Val 7; Val 1].
Proof.
  intros o result. split; [reflexivity|]. split; [reflexivity|]. split; [reflexivity|].
  split; [repeat constructor; vm_compute; intuition discriminate|]. split; [right; right; right; left; reflexivity|]. split; [vm_compute; reflexivity|].
  split; [intros d [[= <-]|[[=]|[[= <-]|[]]]]; vm_compute; split; [discriminate|reflexivity|discriminate|reflexivity]|].
  split; [intros d [[<-|[<-|[<-|[]]]]|H]; [vm_compute; discriminate|vm_compute; discriminate|vm_compute; discriminate|discriminate]|]. vm_compute. reflexivity.
Qed.
