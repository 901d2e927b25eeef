(** C27, C28, C30: selection, the run list, and which dependency is meant. *)
From Verif Require Import SelectSpec SelectProofs PyStrFacts.

(** ** C27 *)

(** A name that itself starts with 'skip:' could be matched by a skip entry (and cannot be
    given on the command line); the exact condition for all names is [C27_selection_any_name]. *)
Theorem C27_selection name selection : ~ is_skip name ->
  is_selected name selection = true <->
  (forall p, In (lit "skip:" ++ p) selection -> ~ covers p name) /\
  (Forall is_skip selection \/
   exists s, In s selection /\ ~ is_skip s /\ (s = lit "*" \/ covers s name)).
Proof. exact (selected_iff_plain name selection). Qed.
Print Assumptions C27_selection.

Theorem C27_selection_any_name name selection :
  is_selected name selection = true <->
  (forall p, In (lit "skip:" ++ p) selection -> ~ covers p name) /\
  (Forall is_skip selection \/ exists s, In s selection /\ (s = lit "*" \/ covers s name)).
Proof. exact (selected_iff name selection). Qed.
Print Assumptions C27_selection_any_name.

Example C27_ex1 : is_selected (lit "a/b/c") [lit "x"; lit "a/b"; lit "skip:a/b/d"] = true.
Proof. reflexivity. Qed.
Example C27_ex2 : is_selected (lit "a/bc") [lit "x"; lit "a/b"] = false.
Proof. reflexivity. Qed.
Example C27_ex3 : is_selected (lit "a/b/c") [lit "a"; lit "skip:a/b"] = false.
Proof. reflexivity. Qed.
Example C27_ex4 : is_selected (lit "a/b") [lit "skip:b"] = true /\ ~ is_skip (lit "a/b").
Proof. split; [reflexivity|]. intros [p E]. discriminate E. Qed.

(** ** C28 *)

(** [fuel]: depth of recursion allowed; python's own limit is not modelled. With distinct case
    names and acyclic dependencies a depth of the number of cases is enough. *)
Theorem C28_run_list o cases fuel selection cached :
  NoDup (map fst cases) ->
  acyclic o cases selection cached ->
  length cases <= fuel ->
  exists l, selected_names o cases fuel selection cached = Some l /\
    NoDup l /\
    (forall n, In n (map fst cases) -> is_selected n selection = true -> In n l) /\
    (forall n d, In n l -> needs o cases selection cached n d -> before l d n) /\
    (forall d, In d l -> exists n, In n (map fst cases) /\ is_selected n selection = true /\
       (d = n \/ needs_trans o cases selection cached n d)).
Proof.
  intros ND AC F. destruct (selected_names_total o cases selection cached ND AC fuel F) as [l E].
  destruct (selected_loop_some o cases selection cached ND fuel cases [] l (incl_refl _) E
              (closed_nil _ _ _ _) (NoDup_nil _)) as (C & N & I).
  exists l. split; [assumption|]. split; [assumption|]. split; [|split].
  - intros n Hn S. apply I. right. exists n. auto.
  - intros n d Hn Nd. exact (closed_before _ _ _ _ _ _ _ C Hn Nd).
  - intros d Hd. apply I in Hd. destruct Hd as [[]|Hd]. exact Hd.
Qed.
Print Assumptions C28_run_list.

(** whatever the recursion depth: if a list comes out, it is right *)
Theorem C28_run_list_any_fuel o cases fuel selection cached l :
  NoDup (map fst cases) ->
  selected_names o cases fuel selection cached = Some l ->
  NoDup l /\
  (forall n d, In n l -> needs o cases selection cached n d -> before l d n) /\
  (forall d, In d l <-> exists n, In n (map fst cases) /\ is_selected n selection = true /\
     (d = n \/ needs_trans o cases selection cached n d)).
Proof.
  intros ND E.
  destruct (selected_loop_some o cases selection cached ND fuel cases [] l (incl_refl _) E
              (closed_nil _ _ _ _) (NoDup_nil _)) as (C & N & I).
  split; [assumption|]. split.
  - intros n d Hn Nd. exact (closed_before _ _ _ _ _ _ _ C Hn Nd).
  - intros d. rewrite I. split; [intros [[]|W]; exact W|intros W; now right].
Qed.
Print Assumptions C28_run_list_any_fuel.

(** the selected case c needs b (not selected, no cached result), which needs a (cached) and d *)
Definition dag : objects := {|
  o_deps i := match i with 2 => [Fn 1] | 1 => [Fn 0; Fn 3] | _ => [] end;
  o_resources _ := []; o_self_type _ := None; o_isinstance _ _ := false |}.
Definition dag_cases : list (str * meth) :=
  [(lit "t/c", Fn 2); (lit "t/a", Fn 0); (lit "t/b", Fn 1); (lit "u/d", Fn 3); (lit "v/e", Fn 4)].
Definition dag_cached (n : str) : bool := str_eqb n (lit "t/a").

Example C28_ex : NoDup (map fst dag_cases) /\
  selected_names dag dag_cases 5 [lit "t/c"; lit "v"] dag_cached
  = Some [lit "u/d"; lit "t/b"; lit "t/c"; lit "v/e"].
Proof.
  split; [|vm_compute; reflexivity].
  repeat constructor; cbn; intuition discriminate.
Qed.

(** its dependencies are acyclic: the needed case has a smaller rank *)
Definition dag_rank (n : str) : nat :=
  if str_eqb n (lit "t/c") then 2 else if str_eqb n (lit "t/b") then 1 else 0.

Example C28_ex_acyclic : acyclic dag dag_cases [lit "t/c"; lit "v"] dag_cached.
Proof.
  assert (R : forall n d, needs dag dag_cases [lit "t/c"; lit "v"] dag_cached n d -> dag_rank d < dag_rank n).
  { intros n d (m & dep & Hn & Hdep & M & _). unfold means in M.
    unfold dag_cases in Hn. cbn [In] in Hn.
    destruct Hn as [E|[E|[E|[E|[E|[]]]]]]; injection E as <- <-; cbn in Hdep;
      repeat (destruct Hdep as [<-|Hdep]); try destruct Hdep; vm_compute in M; injection M as <-; vm_compute; auto. }
  assert (T : forall n d, needs_trans dag dag_cases [lit "t/c"; lit "v"] dag_cached n d -> dag_rank d < dag_rank n).
  { induction 1 as [n d N|n e d N _ IH]; [auto|]. specialize (R _ _ N). eapply PeanoNat.Nat.lt_trans; eauto. }
  intros n H. exact (PeanoNat.Nat.lt_irrefl _ (T _ _ H)).
Qed.

(** ** C30 *)

(** Two counterexamples: (1) class 1 is a subclass of class 0 and does not list its method
    [Fn 0]: nothing is scheduled, yet the result of the base class's case is used; (2) class 1
    lists the method of class 0 again and its instance is made first: the scheduler takes the
    subclass's case, the test gets the base class's. *)
Definition sub_objects (t : nat) : objects := {|
  o_deps i := match i with 1 => [Fn 0] | _ => [] end; o_resources _ := [];
  o_self_type i := match i with 0 => Some t | 1 => Some t | _ => None end;
  o_isinstance s c := match s, c with 0, 0 => true | 1, _ => true | _, _ => false end |}.
Definition sub_cases1 : list (str * meth) := [(lit "a/data", Bound (Fn 0) 0); (lit "b/use", Bound (Fn 1) 1)].
Definition sub_cases2 : list (str * meth) :=
  [(lit "b/data", Bound (Fn 0) 1); (lit "a/data", Bound (Fn 0) 0); (lit "a/use", Bound (Fn 1) 0)].

Theorem C30_dependency_used_refuted :
  exists o cases1 cases2 m1 m2 dep,
    In (lit "b/use", m1) cases1 /\ In dep (declared o m1) /\
    scheduled_case o cases1 m1 dep = None /\ used_case cases1 m1 dep = Some (lit "a/data") /\
    selected_names o cases1 2 [lit "b"] (fun _ => false) = Some [lit "b/use"] /\
    exists o2, In (lit "a/use", m2) cases2 /\ In dep (declared o2 m2) /\
    scheduled_case o2 cases2 m2 dep = Some (lit "b/data") /\ used_case cases2 m2 dep = Some (lit "a/data").
Proof.
  exists (sub_objects 0), sub_cases1, sub_cases2, (Bound (Fn 1) 1), (Bound (Fn 1) 0), (Fn 0).
  repeat split; try (vm_compute; tauto). exists (sub_objects 1). repeat split; vm_compute; tauto.
Qed.
Print Assumptions C30_dependency_used_refuted.

(** Functions: always. Instances: when, for the dependency in question, instances of a class
    that lists it (or of its subclasses) list it too, and only those do. *)
Theorem C30_dependency_used_partial o cases books m dep :
  built o books cases -> attr_self dep = None ->
  (forall s, attr_self m = Some s -> exists b, In b books /\ b_inst b = s) ->
  (forall t, attr_self_type o dep = Some t -> exists b, In b books /\ lists b dep) ->
  (forall b1 b2, In b1 books -> In b2 books -> lists b1 dep ->
     o_isinstance o (b_inst b2) (b_class b1) = true <-> lists b2 dep) ->
  used_case cases m dep = scheduled_case o cases m dep.
Proof.
  intros B Hd Hm HT H. destruct (attr_self m) as [s|] eqn:E.
  - destruct (Hm s eq_refl) as (b & Hb & <-).
    apply (used_is_scheduled o cases books B b m dep Hb E Hd HT); intros; now apply (H b1 b2).
  - apply used_function. assumption.
Qed.
Print Assumptions C30_dependency_used_partial.

(** exactly when the scheduled case is the used one, for a test bound to instance [s] *)
Theorem C30_dependency_used_exact_partial o cases m s dep : attr_self m = Some s ->
  used_case cases m dep = scheduled_case o cases m dep <->
  (typed o s dep -> case_by_method cases (bind_to dep s) = None -> case_by_method cases dep = None) /\
  (~ typed o s dep -> case_by_method cases (bind_to dep s) <> None ->
     case_by_method cases (bind_to dep s) = case_by_method cases dep).
Proof. exact (used_scheduled_iff o cases m s dep). Qed.
Print Assumptions C30_dependency_used_exact_partial.

(** with several instances: the dependency's case of the same instance is the one used *)
Theorem C30_same_instance cases m s dep n x :
  attr_self m = Some s -> attr_self dep = None ->
  In (n, x) cases -> method_identity x = (Some s, dep) ->
  exists n', used_case cases m dep = Some n' /\
    first_case cases (fun y => method_identity y = (Some s, dep)) n'.
Proof. exact (same_instance cases m s dep n x). Qed.
Print Assumptions C30_same_instance.

(** two instances of one class, each with data and use *)
Definition two_cases : list (str * meth) :=
  [(lit "x/data", Bound (Fn 0) 0); (lit "x/use", Bound (Fn 1) 0);
   (lit "y/data", Bound (Fn 0) 1); (lit "y/use", Bound (Fn 1) 1)].
Definition two_objects : objects := {|
  o_deps i := match i with 1 => [Fn 0] | _ => [] end; o_resources _ := [];
  o_self_type i := match i with 0 => Some 0 | 1 => Some 0 | _ => None end;
  o_isinstance s c := Nat.eqb c 0 |}.
Definition two_books : list book :=
  [{| b_inst := 0; b_class := 0; b_tests := [Fn 0; Fn 1] |}; {| b_inst := 1; b_class := 0; b_tests := [Fn 0; Fn 1] |}].

Example C30_ex :
  built two_objects two_books two_cases /\
  scheduled_case two_objects two_cases (Bound (Fn 1) 1) (Fn 0) = Some (lit "y/data") /\
  used_case two_cases (Bound (Fn 1) 1) (Fn 0) = Some (lit "y/data") /\
  (forall b1 b2, In b1 two_books -> In b2 two_books -> lists b1 (Fn 0) ->
     o_isinstance two_objects (b_inst b2) (b_class b1) = true <-> lists b2 (Fn 0)).
Proof.
  split; [|split; [reflexivity|split; [reflexivity|]]]; [constructor|].
  - intros n x s f Hin E. cbn [In two_cases] in Hin.
    destruct Hin as [X|[X|[X|[X|[]]]]]; injection X as <- <-; injection E as <- <-.
    1, 2: exists (nth 0 two_books {| b_inst := 0; b_class := 0; b_tests := [] |}); cbn; tauto.
    1, 2: exists (nth 1 two_books {| b_inst := 0; b_class := 0; b_tests := [] |}); cbn; tauto.
  - intros b f [<-|[<-|[]]] [<-|[<-|[]]].
    + exists (lit "x/data"), (Bound (Fn 0) 0). cbn; tauto.
    + exists (lit "x/use"), (Bound (Fn 1) 0). cbn; tauto.
    + exists (lit "y/data"), (Bound (Fn 0) 1). cbn; tauto.
    + exists (lit "y/use"), (Bound (Fn 1) 1). cbn; tauto.
  - intros b f [<-|[<-|[]]] [<-|[<-|[]]]; eexists; reflexivity.
  - intros b f t [<-|[<-|[]]] [<-|[<-|[]]] E; injection E as <-;
      exists (nth 0 two_books {| b_inst := 0; b_class := 0; b_tests := [] |}); cbn; tauto.
  - intros b1 b2 [<-|[<-|[]]] [<-|[<-|[]]] _; cbn; tauto.
Qed.
