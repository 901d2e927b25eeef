(** C116: sync and async tests alike are run to their end inside their decorators. *)
From Verif Require Import AwaitModel.

(** blocks around a piece of code, the outermost first: each is entered, its inside is run if entering did not raise, and it is left *)
Fixpoint inside {W V X} (bs : list (block W X)) (code : action W V X) : action W V X :=
  match bs with
  | [] => code
  | b :: r => fun w =>
      match enter b w with
      | (w1, Some x) => (w1, inr x)
      | (w1, None) => let (w2, o) := inside r code w1 in
                      let (w3, e) := leave b w2 in (w3, match e with Some x => inr x | None => o end)
      end
  end.

Definition async_of {W V X} (kind : bool) (body : W -> W * (V + X)) : fn W V X := if kind then AsyncDef body else Def body.

Lemma run_decorated {W V X} (te : X) bs (f : fn W V X) w : run_test te (decorated bs f) w = inside bs (run_test te f) w.
Proof.
  revert w. induction bs as [|b bs IH]; intros w; [reflexivity|].
  unfold run_test, decorated. cbn [fold_right is_coroutine_function call]. unfold maybe_async_call at 1. cbn [await]. unfold with_block.
  cbn [inside]. destruct (enter b w) as [w1 [x|]]; [reflexivity|]. fold (decorated bs f). specialize (IH w1). unfold run_test in IH. rewrite IH.
  destruct (inside bs _ w1) as [w2 o]. now destruct (leave b w2) as [w3 [x|]].
Qed.

(** ** C116. Whether the test is async or not makes no difference: run with any decorators, its body is run to its end inside of all
    of them, and the value or exception is its own, unless a block raises. *)
Theorem C116_partial : forall W V X (type_error : X) (bs : list (block W X)) kind (body : W -> W * (V + X)) w,
  run_test type_error (decorated bs (async_of kind body)) w = inside bs (plain body) w.
Proof. intros W V X te bs kind body w. rewrite run_decorated. now destruct kind. Qed.
Print Assumptions C116_partial.

(** In particular with blocks that do not raise: the blocks are entered from the outermost in, then the body is run, then they are
    left from the innermost out, whatever the body does; what is returned or raised is what the body returned or raised. *)
Inductive event := Enter (i : nat) | Body (i : nat) | Leave (i : nat).
Definition logs (i : nat) : block (list event) unit :=
  {| enter := fun t => (t ++ [Enter i], None); leave := fun t => (t ++ [Leave i], None) |}.
Theorem C116_order_partial : forall V (is : list nat) kind n (r : V + unit) t,
  run_test tt (decorated (map logs is) (async_of kind (fun t => (t ++ [Body n], r)))) t =
  (t ++ map Enter is ++ [Body n] ++ map Leave (rev is), match r with inl v => inl (Obj v) | inr x => inr x end).
Proof.
  intros V is kind n r t. rewrite C116_partial. revert t. induction is as [|i is IH]; intros t; [reflexivity|].
  cbn [map inside enter leave logs rev]. rewrite IH. rewrite map_app, <- !app_assoc. reflexivity.
Qed.
Print Assumptions C116_order_partial.

(** False for a function that returns a coroutine and is not a coroutine function: the body is not run, and the blocks are left before
    it could be. The value of the test is the coroutine, which pickle can not store (C115). *)
Theorem C116_refuted : exists (f : fn (list event) nat unit) t c,
  f = decorated [logs 1] (ReturnsCoroutine (fun t => (t ++ [Body 0], inl 5))) /\
  run_test tt f [] = (t, inl (Coro c)) /\ t = [Enter 1; Leave 1] /\ c t = (t ++ [Body 0], inl (Obj 5)).
Proof. do 3 eexists. split; [reflexivity|]. split; [reflexivity|]. split; reflexivity. Qed.
Print Assumptions C116_refuted.

(** Exactly that happens to every such function, whatever the decorators: all blocks are entered and left as if the body were empty, and the value is the
    coroutine, whose body was not run. *)
Theorem C116_returns_coroutine_exact : forall W V X (type_error : X) (bs : list (block W X)) (body : W -> W * (V + X)) w,
  run_test type_error (decorated bs (ReturnsCoroutine body)) w = inside bs (fun w => (w, inl (Coro (plain body)))) w /\
  forall w' v, run_test type_error (decorated bs (ReturnsCoroutine body)) w = (w', inl v) -> v = Coro (plain body).
Proof.
  intros W V X te bs body w. assert (E : forall w, run_test te (decorated bs (ReturnsCoroutine body)) w = inside bs (fun w => (w, inl (Coro (plain body)))) w) by (intros; now rewrite run_decorated).
  split; [apply E|]. rewrite E. clear E. revert w. induction bs as [|b bs IH]; intros w w' v H; cbn [inside] in H; [congruence|].
  destruct (enter b w) as [w1 [x|]]; [congruence|]. specialize (IH w1). destruct (inside bs _ w1) as [w2 o]. destruct (leave b w2) as [w3 [x|]]; [congruence|].
  apply (IH w2). congruence.
Qed.
Print Assumptions C116_returns_coroutine_exact.

Example C116_example :
  run_test tt (decorated [logs 1; logs 2] (AsyncDef (fun t => (t ++ [Body 0], inr tt : nat + unit)))) [] =
    ([Enter 1; Enter 2; Body 0; Leave 2; Leave 1], inr tt) /\
  run_test tt (decorated [logs 1; {| enter := fun t => (t, Some tt); leave := fun t => (t, None) |}; logs 3] (Def (fun t => (t ++ [Body 0], inl 5)))) [] =
    ([Enter 1; Leave 1], inr tt).
Proof. split; reflexivity. Qed.
