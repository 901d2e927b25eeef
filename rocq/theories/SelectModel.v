(** booktest/tests.py, dependencies.py, testrun.py: which cases are run and in which order. *)
From Verif Require Export FsModel.

(** ** Selection *)

Definition skip_key : str := lit "skip:".
Definition star : str := lit "*".

(** tests.py:33-36 and 45-48: test_name.startswith(s) and (len(s) == 0 or
    len(test_name) == len(s) or test_name[len(s)] == '/') *)
Definition sel_match (name s : str) : bool :=
  starts_with s name &&
  (Nat.eqb (length s) 0 || Nat.eqb (length name) (length s)
   || match nth_error name (length s) with Some c => N.eqb c SLASH | None => false end).

(** tests.py:30-38: the first loop; None = returned False, else the number of negatives *)
Fixpoint count_negatives (name : str) (selection : list str) : option nat :=
  match selection with
  | [] => Some 0
  | s :: rest =>
      if starts_with skip_key s then
        if sel_match name (skipn (length skip_key) s) then None
        else option_map S (count_negatives name rest)
      else count_negatives name rest
  end.

(** tests.py:22-50 is_selected *)
Definition is_selected (name : str) (selection : list str) : bool :=
  match count_negatives name selection with
  | None => false
  | Some negatives =>
      if Nat.eqb negatives (length selection) then true
      else existsb (fun s => str_eqb s star || sel_match name s) selection
  end.

(** ** Test methods *)

(** A python callable used as test or dependency: a plain function, a function made by a
    decorator around another callable (it has [_original_function]), or a method bound to
    an instance. Functions and instances are identified by numbers. *)
Inductive meth :=
| Fn (id : nat)
| Wrap (id : nat) (orig : meth)
| Bound (func : meth) (self : nat).

(** python equality: functions by identity, bound methods by function and instance *)
Fixpoint meth_eqb (a b : meth) : bool :=
  match a, b with
  | Fn i, Fn j => Nat.eqb i j
  | Wrap i x, Wrap j y => Nat.eqb i j && meth_eqb x y
  | Bound f s, Bound g t => meth_eqb f g && Nat.eqb s t
  | _, _ => false
  end.

(** dependencies.py:39-46 get_decorated_attr(method, "__self__") *)
Fixpoint attr_self (m : meth) : option nat :=
  match m with Fn _ => None | Wrap _ o => attr_self o | Bound _ s => Some s end.

(** the same for "__func__" *)
Fixpoint attr_func (m : meth) : option meth :=
  match m with Fn _ => None | Wrap _ o => attr_func o | Bound f _ => Some f end.

(** testrun.py:19-26 method_identity *)
Definition method_identity (m : meth) : option nat * meth :=
  (attr_self m, match attr_func m with Some f => f | None => m end).

(** testrun.py:28-31 match_method *)
Definition opt_eqb (a b : option nat) : bool :=
  match a, b with Some x, Some y => Nat.eqb x y | None, None => true | _, _ => false end.

Definition match_method (matcher m : meth) : bool :=
  let '(ms, mf) := method_identity matcher in
  let '(s, f) := method_identity m in
  meth_eqb mf f && (opt_eqb ms s || match ms with None => true | _ => false end).

(** [m.__get__(self, self.__class__)]: functions are bound, bound methods stay as they are *)
Definition bind_to (m : meth) (self : nat) : meth :=
  match m with Bound _ _ => m | _ => Bound m self end.

(** What python objects carry: the [_dependencies] list of a function (resources left out,
    dependencies.py:129-134), its [_self_type], [_resources], and isinstance. *)
Record objects := {
  o_deps : nat -> list meth;
  o_resources : nat -> list nat;
  o_self_type : nat -> option nat;
  o_isinstance : nat -> nat -> bool
}.

Section Tests.
Variable o : objects.

(** hasattr(method, "_dependencies"): bound methods pass attribute access to the function *)
Fixpoint declared (m : meth) : list meth :=
  match m with Fn i => o_deps o i | Wrap i _ => o_deps o i | Bound f _ => declared f end.

Fixpoint declared_resources (m : meth) : list nat :=
  match m with Fn i => o_resources o i | Wrap i _ => o_resources o i | Bound f _ => declared_resources f end.

(** get_decorated_attr(dependency, "_self_type") *)
Fixpoint attr_self_type (m : meth) : option nat :=
  match m with
  | Fn i => o_self_type o i
  | Wrap i x => match o_self_type o i with Some t => Some t | None => attr_self_type x end
  | Bound f _ => attr_self_type f
  end.

(** dependencies.py:55-62 bind_dependent_method_if_unbound *)
Definition bind_dependent (m dep : meth) : meth :=
  match attr_self_type dep, attr_self m with
  | Some t, Some s => if o_isinstance o s t then bind_to dep s else dep
  | _, _ => dep
  end.

(** the cases of a Tests object, tests.py:18-20 *)
Variable cases : list (str * meth).

(** tests.py:58-62 *)
Fixpoint get_case_in (cs : list (str * meth)) (name : str) : option meth :=
  match cs with
  | [] => None
  | (n, m) :: rest => if str_eqb n name then Some m else get_case_in rest name
  end.
Definition get_case : str -> option meth := get_case_in cases.

(** tests.py:64-68 *)
Fixpoint case_by_method_in (cs : list (str * meth)) (m : meth) : option str :=
  match cs with
  | [] => None
  | (n, x) :: rest => if match_method m x then Some n else case_by_method_in rest m
  end.
Definition case_by_method : meth -> option str := case_by_method_in cases.

(** tests.py:70-85 method_dependencies. [cached n]: test_result_exists (tests.py:52-56);
    cache_out_dir None is [fun _ => false]. *)
Definition method_dependencies (m : meth) (selection : list str) (cached : str -> bool) : list str :=
  flat_map (fun dep =>
    match case_by_method (bind_dependent m dep) with
    | Some n => if is_selected n selection || negb (cached n) then [n] else []
    | None => []
    end) (declared m).

(** tests.py:87-93 method_resources *)
Definition method_resources (m : meth) : list nat := declared_resources m.

(** the loop of all_method_dependencies; [all m] is the recursive call *)
Fixpoint deps_loop (all : meth -> option (list str)) (ds : list str) : option (list str) :=
  match ds with
  | [] => Some []
  | d :: rest =>
      match match get_case d with Some m => all m | None => Some [] end, deps_loop all rest with
      | Some a, Some b => Some (a ++ d :: b)
      | _, _ => None
      end
  end.

(** tests.py:95-105 all_method_dependencies; None = the recursion does not end within [fuel].
    (get_case gives None only for names that are not cases; method_dependencies of None is []) *)
Fixpoint all_method_dependencies (fuel : nat) (m : meth) (selection : list str) (cached : str -> bool)
  : option (list str) :=
  match fuel with
  | 0 => None
  | S k => deps_loop (fun x => all_method_dependencies k x selection cached)
             (method_dependencies m selection cached)
  end.

(** tests.py:119-120, 121-122: append if not there *)
Definition add_new (l : list str) (n : str) : list str := if str_mem n l then l else l ++ [n].

(** tests.py:110-123 selected_names *)
Fixpoint selected_loop (fuel : nat) (selection : list str) (cached : str -> bool)
    (cs : list (str * meth)) (selected : list str) : option (list str) :=
  match cs with
  | [] => Some selected
  | (n, m) :: rest =>
      if is_selected n selection then
        match all_method_dependencies fuel m selection cached with
        | None => None
        | Some ds => selected_loop fuel selection cached rest (add_new (fold_left add_new ds selected) n)
        end
      else selected_loop fuel selection cached rest selected
  end.
Definition selected_names (fuel : nat) (selection : list str) (cached : str -> bool) : option (list str) :=
  selected_loop fuel selection cached cases [].

(** ** The value a dependent gets *)

(** testrun.py:59-76 get_test_result: the case whose result is looked up *)
Definition looked_up (m : meth) : option str := case_by_method m.

(** dependencies.py:65-122: the case whose result the test [m] is given for [dep]:
    call_class_method_test for a test bound to an instance, else call_function_test *)
Definition used_case (m dep : meth) : option str :=
  match attr_self m with
  | Some s =>
      match looked_up (bind_to dep s) with
      | Some n => Some n
      | None => looked_up dep
      end
  | None => looked_up dep
  end.

(** the case the scheduler and the run list use for [dep], tests.py:77-78 *)
Definition scheduled_case (m dep : meth) : option str := case_by_method (bind_dependent m dep).

End Tests.
