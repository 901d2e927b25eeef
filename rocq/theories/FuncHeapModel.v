(** booktest/functions.py:131-150, 180-190: recorded results are objects. The recorder keeps the object that was returned to the test,
    and writes what it contains when the test has ended. *)
From Verif Require Export FuncModel.

Section Heap.
  Variable V X : Type.                  (* contents of objects; exceptions *)
  Variable to_json : V -> option V.     (* as in FuncModel *)

  (** the contents of the objects, which are numbered *)
  Definition heap := nat -> V.
  (** what a test does: a call of a recorded function, which may itself change objects and returns one or raises, or anything else
      that changes objects *)
  Inductive action :=
  | Call (h : str) (real : heap -> heap * (nat + X))
  | Change (effect : heap -> heap).

  (** snapshots: hash of the call and the object *)
  Definition objs := list (str * nat).
  Fixpoint obj_of (h : str) (l : objs) : option nat :=
    match l with
    | [] => None
    | (k, v) :: r => if str_eqb k h then Some v else obj_of h r
    end.

  (** functions.py:131-150; last component: what the caller sees in the returned object at that moment *)
  Definition heap_step (capture : bool) (loaded : objs) (m : heap) (calls : objs) (a : action) : heap * objs * list (str * outcome V X) :=
    match a with
    | Change effect => (effect m, calls, [])
    | Call h real =>
        match obj_of h (rev loaded) with
        | Some l => (m, if existsb (fun e => str_eqb (fst e) h) calls then calls else calls ++ [(h, l)], [(h, Returned (m l))])
        | None =>
            if capture then
              let '(m', r) := real m in
              match r with
              | inr x => (m', calls, [(h, Raised x)])
              | inl l => (m', filter (fun e => negb (str_eqb (fst e) h)) calls ++ [(h, l)], [(h, Returned (m' l))])
              end
            else (m, calls, [(h, Missing)])
        end
    end.
  Fixpoint heap_run (capture : bool) (loaded : objs) (m : heap) (calls : objs) (acts : list action) : heap * objs * list (str * outcome V X) :=
    match acts with
    | [] => (m, calls, [])
    | a :: r =>
        let '(m1, c1, s1) := heap_step capture loaded m calls a in
        let '(m2, c2, s2) := heap_run capture loaded m1 c1 r in
        (m2, c2, s1 ++ s2)
    end.

  (** functions.py:182-186 stop: the contents at the end; None: TypeError *)
  Fixpoint heap_store (m : heap) (calls : objs) : option (list (str * V)) :=
    match calls with
    | [] => Some []
    | (h, l) :: r => match to_json (m l), heap_store m r with Some w, Some s => Some ((h, w) :: s) | _, _ => None end
    end.
End Heap.
Arguments Call {V X}. Arguments Change {V X}.
