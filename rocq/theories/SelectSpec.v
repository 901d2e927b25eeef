(** Specification vocabulary for selection, the run list and dependency lookup. *)
From Verif Require Export SelectModel.

(** [p] is a path prefix of [name], whole components only; the empty path is one *)
Definition covers (p name : str) : Prop :=
  p = [] \/ name = p \/ exists r, name = p ++ SLASH :: r.

Definition is_skip (s : str) : Prop := exists p, s = lit "skip:" ++ p.

Section Spec.
Variable o : objects.
Variable cases : list (str * meth).
Variable selection : list str.
Variable cached : str -> bool.

(** the case a dependency is taken to mean is [d] *)
Definition means (m dep : meth) (d : str) : Prop := scheduled_case o cases m dep = Some d.

(** case [n] needs case [d] to be run: [d] is the case of one of its dependencies and is
    either selected itself or has no cached result *)
Definition needs (n d : str) : Prop :=
  exists m dep, In (n, m) cases /\ In dep (declared o m) /\ means m dep d /\
    (is_selected d selection = true \/ cached d = false).

(** [d] is needed by [n], directly or through others *)
Inductive needs_trans : str -> str -> Prop :=
| nt_one n d : needs n d -> needs_trans n d
| nt_step n e d : needs n e -> needs_trans e d -> needs_trans n d.

Definition acyclic : Prop := forall n, ~ needs_trans n n.

(** [x] comes before [y] in [l] *)
Definition before (l : list str) (x y : str) : Prop :=
  exists a b c, l = a ++ x :: b ++ y :: c.
End Spec.

(** [m] is the method of the first case with property [p], called [n] *)
Definition first_case (cases : list (str * meth)) (p : meth -> Prop) (n : str) : Prop :=
  exists a m b, cases = a ++ (n, m) :: b /\ p m /\ forall n' m', In (n', m') a -> ~ p m'.

(** ** Books *)

(** An instance of a TestBook class: the instance, its class, and the test functions that its
    class lists (testbook.py:75-82) *)
Record book := { b_inst : nat; b_class : nat; b_tests : list meth }.
Definition lists (b : book) (f : meth) : Prop := In f (b_tests b).

(** instance [s] is of the type noted for the function [dep] *)
Definition typed (o : objects) (s : nat) (dep : meth) : Prop :=
  exists t, attr_self_type o dep = Some t /\ o_isinstance o s t = true.

(** the cases bound to instances are the listed tests of the books, and each listed function
    has been given the class of some book that lists it as _self_type (testbook.py:79-81) *)
Record built (o : objects) (books : list book) (cases : list (str * meth)) : Prop := {
  built_cases : forall n x s f, In (n, x) cases -> method_identity x = (Some s, f) ->
    exists b, In b books /\ b_inst b = s /\ lists b f;
  built_all : forall b f, In b books -> lists b f ->
    exists n x, In (n, x) cases /\ method_identity x = (Some (b_inst b), f);
  built_typed : forall b f, In b books -> lists b f -> exists t, attr_self_type o f = Some t;
  built_type : forall b f t, In b books -> lists b f -> attr_self_type o f = Some t ->
    exists b', In b' books /\ b_class b' = t /\ lists b' f
}.
