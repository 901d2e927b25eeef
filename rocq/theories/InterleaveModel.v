(** Processes that work on one file system and take turns, one file operation at a time. *)
From Verif Require Export FsModel.

(** How a process ends: with a value, with an exception, or never (a test that does not return, C04). *)
Inductive outcome (A : Type) := Value (a : A) | Crashed | Hangs.
Arguments Value {A}. Arguments Crashed {A}. Arguments Hangs {A}.

(** A process has ended, or its next operation reads and changes the file system and determines how it goes on. *)
Inductive proc (A : Type) := Halt (o : outcome A) | Act (s : fs -> fs * proc A).
Arguments Halt {A}. Arguments Act {A}.

(** one operation *)
Definition prim {A} (op : fs -> io A) : proc A :=
  Act (fun f => match op f with Ret a g => (g, Halt (Value a)) | Raise g => (g, Halt Crashed) end).

Fixpoint pbind {A B} (p : proc A) (k : A -> proc B) : proc B :=
  match p with
  | Halt (Value a) => k a
  | Halt Crashed => Halt Crashed
  | Halt Hangs => Halt Hangs
  | Act s => Act (fun f => match s f with (g, q) => (g, pbind q k) end)
  end.
Notation "x <- p ;; q" := (pbind p (fun x => q)) (at level 61, p at next level, right associativity).

(** the process alone *)
Fixpoint solo {A} (p : proc A) (f : fs) : fs * outcome A :=
  match p with
  | Halt o => (f, o)
  | Act s => match s f with (g, q) => solo q g end
  end.

Section Inter.
Context {A : Type}.
Variable todo : list str.
Variable deps : str -> list str.

Definition ended (p : proc A) : Prop := exists o, p = Halt o.
Definition set_proc (st : str -> proc A) (n : str) (p : proc A) : str -> proc A := fun m => if str_eqb n m then p else st m.

(** One operation of the process of [n], which only starts when the processes it depends on have ended. *)
Inductive pstep : (str -> proc A) * fs -> (str -> proc A) * fs -> Prop :=
| PStep st f n s : In n todo -> st n = Act s -> (forall d, In d (deps n) -> In d todo -> ended (st d)) ->
    pstep (st, f) (set_proc st n (snd (s f)), fst (s f)).
Inductive psteps : (str -> proc A) * fs -> (str -> proc A) * fs -> Prop :=
| PS0 x : psteps x x
| PS1 x y z : psteps x y -> pstep y z -> psteps x z.

(** one after the other *)
Fixpoint in_turn (init : str -> proc A) (l : list str) (f : fs) : fs * list (str * outcome A) :=
  match l with
  | [] => (f, [])
  | n :: r => let (g, o) := solo (init n) f in let (h, os) := in_turn init r g in (h, (n, o) :: os)
  end.
End Inter.
