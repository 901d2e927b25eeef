(** booktest/dependencies.py:7-36: resources, and the sets of them that the scheduler keeps. *)
From Verif Require Export SchedModel.
From Coq Require Import ZArith.

(** what a resource is named with; other kinds of values are not modelled *)
Inductive ident := IInt (z : Z) | IBool (b : bool) | IStr (s : str).
(** == of python; True is 1 and False is 0 *)
Definition int_of (b : bool) : Z := if b then 1%Z else 0%Z.
Definition ident_eqb (a b : ident) : bool :=
  match a, b with
  | IStr s, IStr t => str_eqb s t
  | IStr _, _ | _, IStr _ => false
  | IInt x, IInt y => Z.eqb x y
  | IInt x, IBool y => Z.eqb x (int_of y)
  | IBool x, IInt y => Z.eqb (int_of x) y
  | IBool x, IBool y => Bool.eqb x y
  end.

(** dependencies.py:17-21 __init__ *)
Record resource := { value : ident; identifier : ident }.
Definition new_resource (v : ident) (i : option ident) : resource :=
  {| value := v; identifier := match i with None => v | Some x => x end |}.
(** dependencies.py:23-24 __eq__; __hash__ (26-27) agrees with it, so sets go by it *)
Definition resource_eqb (a b : resource) : bool := ident_eqb (identifier a) (identifier b).

(** dependencies.py:30-36 port; [show_int]: str of a number *)
Definition port (show_int : Z -> str) (z : Z) : resource := new_resource (IInt z) (Some (IStr (lit "port=" ++ show_int z))).

(** sets of resources: runs.py:160 set(...), 190 and 211 |=, 186 len(_ & _) > 0, 229 -= *)
Definition res_mem (x : resource) (s : list resource) : bool := existsb (resource_eqb x) s.
Definition set_add (s : list resource) (x : resource) : list resource := if res_mem x s then s else s ++ [x].
Definition set_union (s t : list resource) : list resource := fold_left set_add t s.
Definition set_of (l : list resource) : list resource := set_union [] l.
Definition set_meets (s t : list resource) : bool := Nat.ltb 0 (length (filter (fun x => res_mem x t) s)).
Definition set_minus (s t : list resource) : list resource := filter (fun x => negb (res_mem x t)) s.
