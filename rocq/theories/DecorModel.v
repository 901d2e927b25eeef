(** booktest/dependencies.py:65-153: what a decorated test is called with, and which of its dependencies are known to the scheduler. *)
From Verif Require Export SelectModel.

(** an argument of depends_on: a Resource, named by its identifier, or a test (129-134) *)
Inductive dep := Res (r : nat) | On (m : meth).
Definition methods (ds : list dep) : list meth := flat_map (fun d => match d with On m => [m] | Res _ => [] end) ds.
Definition resources (ds : list dep) : list nat := flat_map (fun d => match d with Res r => [r] | On _ => [] end) ds.

(** A test function: def, depends_on around a function, or any other decorator of the package around a function (env.py,
    functions.py, requests.py, httpx.py, utils.py: they pass their arguments on). *)
Inductive tfunc :=
| Def (i : nat)
| DependsOn (i : nat) (ds : list dep) (f : tfunc)
| Around (i : nat) (f : tfunc).
Definition tf_id (f : tfunc) : nat := match f with Def i => i | DependsOn i _ _ => i | Around i _ => i end.
Fixpoint tf_meth (f : tfunc) : meth :=
  match f with
  | Def i => Fn i
  | DependsOn i _ g => Wrap i (tf_meth g)
  | Around i g => Wrap i (tf_meth g)
  end.

(** _dependencies and _resources of the function object: set by depends_on (147-148); functools.wraps copies the attributes of
    the wrapped function first *)
Fixpoint attr_dependencies (f : tfunc) : list meth :=
  match f with Def _ => [] | DependsOn _ ds _ => methods ds | Around _ g => attr_dependencies g end.
Fixpoint attr_resources (f : tfunc) : list nat :=
  match f with Def _ => [] | DependsOn _ ds _ => resources ds | Around _ g => attr_resources g end.

Section Call.
  Variable V : Type.
  Variable cases : list (str * meth).
  Variable result_of : str -> option V.     (* testrun.py:59-76: the stored result of a case; None: raises *)
  Variable resource : nat -> V.             (* Resource.value *)

  (** positional arguments: a TestBook instance, the TestCaseRun, a value *)
  Inductive arg := Self (s : nat) | Case | Val (v : V).

  (** testrun.py:59-76 get_test_result *)
  Inductive found := Found (v : V) | NotFound | Raises.
  Definition get_test_result (m : meth) : found :=
    match case_by_method cases m with
    | Some n => match result_of n with Some v => Found v | None => Raises end
    | None => NotFound
    end.
  (** dependencies.py:73-96 and 104-117, one dependency; None: raises *)
  Definition dep_value (self : option nat) (d : dep) : option V :=
    match d with
    | Res r => Some (resource r)
    | On m =>
        let unbound := match get_test_result m with Found v => Some v | _ => None end in
        match self with
        | Some s => match get_test_result (bind_to m s) with Found v => Some v | Raises => None | NotFound => unbound end
        | None => unbound
        end
    end.
  Fixpoint dep_values (self : option nat) (ds : list dep) : option (list V) :=
    match ds with
    | [] => Some []
    | d :: r => match dep_value self d, dep_values self r with Some v, Some vs => Some (v :: vs) | _, _ => None end
    end.

  (** calling the function: the arguments that reach the def, None if an exception is raised before. 138-145: the wrapper of
      depends_on uses args[0] and args[1] only *)
  Fixpoint call (f : tfunc) (args : list arg) : option (list arg) :=
    match f with
    | Def _ => Some args
    | Around _ g => call g args
    | DependsOn _ ds g =>
        match args with
        | Self s :: c :: _ => match dep_values (Some s) ds with Some vs => call g (Self s :: c :: map Val vs) | None => None end
        | c :: _ => match dep_values None ds with Some vs => call g (c :: map Val vs) | None => None end
        | [] => None
        end
    end.

  (** testrun.py:93-96: case(t), where case is the function or the function bound to an instance *)
  Definition start (self : option nat) : list arg := match self with Some s => [Self s; Case] | None => [Case] end.
  Definition test_meth (self : option nat) (f : tfunc) : meth := match self with Some s => Bound (tf_meth f) s | None => tf_meth f end.
End Call.
Arguments Self {V}. Arguments Case {V}. Arguments Val {V}.
