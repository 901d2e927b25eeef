(** booktest/coroutines.py, the wrappers of the decorators, and testrun.py:93-96: which functions are awaited. *)
From Verif Require Export PyStr.

Section Await.
Variable W : Type.                  (* the world that tests and blocks act on *)
Variable V : Type.                  (* values other than coroutines *)
Variable X : Type.                  (* exceptions *)
Variable type_error : X.

(** a value: an object, or a coroutine that was not started, with what it does when it is awaited *)
Inductive value := Obj (v : V) | Coro (run : W -> W * (value + X)).
Definition action := W -> W * (value + X).

(** the with-block of a decorator: __enter__ and __exit__, which may raise *)
Record block := { enter : W -> W * option X; leave : W -> W * option X }.
Definition with_block (b : block) (body : action) : action := fun w =>
  match enter b w with
  | (w1, Some x) => (w1, inr x)
  | (w1, None) =>
      let (w2, r) := body w1 in
      match leave b w2 with
      | (w3, Some x) => (w3, inr x)
      | (w3, None) => (w3, r)
      end
  end.

(** A test function: def, async def, a def that returns a coroutine (a lambda around an async def, a wrapper that another package's
    decorator made), or a decorator of this package around a function *)
Inductive fn :=
| Def (body : W -> W * (V + X))
| AsyncDef (body : W -> W * (V + X))
| ReturnsCoroutine (body : W -> W * (V + X))
| Decorated (b : block) (f : fn).

(** inspect.iscoroutinefunction; the wrappers of the decorators are async def *)
Definition is_coroutine_function (f : fn) : bool :=
  match f with Def _ | ReturnsCoroutine _ => false | AsyncDef _ | Decorated _ _ => true end.

Definition plain (body : W -> W * (V + X)) : action := fun w =>
  let (w1, r) := body w in (w1, match r with inl v => inl (Obj v) | inr x => inr x end).

(** await x *)
Definition await (v : value) : action :=
  match v with Coro run => run | Obj _ => fun w => (w, inr type_error) end.

(** coroutines.py:4-8 maybe_async_call, which is also testrun.py:93-96; [call]: func(..) *)
Definition maybe_async_call (is_coroutine : bool) (call : action) : action := fun w =>
  if is_coroutine
  then match call w with
       | (w1, inl v) => await v w1
       | r => r
       end
  else call w.

(** f(..): calling an async def only makes the coroutine. The wrappers: env.py:77-92, 137-152, 191-201, functions.py:207-226, 264-283,
    requests.py:384-410, httpx.py:325-351, utils.py:26-36 *)
Fixpoint call (f : fn) : action :=
  match f with
  | Def body => plain body
  | AsyncDef body | ReturnsCoroutine body => fun w => (w, inl (Coro (plain body)))
  | Decorated b g => fun w => (w, inl (Coro (with_block b (maybe_async_call (is_coroutine_function g) (call g)))))
  end.

(** testrun.py:92-97 *)
Definition run_test (f : fn) : action := maybe_async_call (is_coroutine_function f) (call f).

(** decorators on top of each other, the outermost first *)
Definition decorated (bs : list block) (f : fn) : fn := fold_right Decorated f bs.
End Await.
Arguments Obj {W V X}. Arguments Coro {W V X}. Arguments enter {W X}. Arguments leave {W X}. Arguments with_block {W V X}.
Arguments Def {W V X}. Arguments AsyncDef {W V X}. Arguments ReturnsCoroutine {W V X}. Arguments Decorated {W V X}.
Arguments plain {W V X}. Arguments run_test {W V X}. Arguments decorated {W V X}.
