(** booktest/testcaserun.py, class TestIt: chains of assertions on an object, t.it(title, it).must_equal(..).member(..)... *)
From Verif Require Export CaseRunModel.

Section It.
(** objects, [x == y], [y in x], [type(x)] (types are objects), and str() of an object *)
Variable V : Type.
Variables eq contains : V -> V -> bool.
Variable type_of : V -> V.
Variable show : V -> str.

Inductive act :=
| AContain (member : V)
| AEqual (value : V)
| ABeA (typ : V)
| AApply (title : str) (cond : V -> bool)
| AMember (title : str) (select : V -> V).

(** testcaserun.py:820-858 and 959-974: one assertion on the object [it] *)
Definition claim_op (it : V) (a : act) : op :=
  match a with
  | AContain m => OMust (lit "have " ++ show m) (contains it m) None
  | AEqual v => OMust (lit "equal " ++ show v) (eq it v) None
  | ABeA ty => OMust (lit "be a " ++ show ty) (eq (type_of it) ty) (Some (lit "was " ++ show (type_of it)))
  | AApply title cond => OMust title (cond it) None
  | AMember _ _ => OI []
  end.

(** testcaserun.py:953-957 and 975-977: the calls of a chain; a member starts a new TestIt *)
Fixpoint chain_ops (title : str) (it : V) (acts : list act) : list op :=
  match acts with
  | [] => []
  | AMember t select :: rest =>
      let title' := title ++ lit "." ++ t in
      OH 2 (title' ++ lit "..") :: chain_ops title' (select it) rest
  | a :: rest => claim_op it a :: chain_ops title it rest
  end.

(** testcaserun.py:860-871 it *)
Definition it_ops (title : str) (it : V) (acts : list act) : list op :=
  OH 2 (title ++ lit "..") :: chain_ops title it acts.
End It.
Arguments AContain {V}. Arguments AEqual {V}. Arguments ABeA {V}. Arguments AApply {V}. Arguments AMember {V}.
