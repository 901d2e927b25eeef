(** booktest/functions.py: recorded and mocked functions. *)
From Verif Require Export PyStr.

Section Func.
  Variable V : Type.                 (* values: arguments and results *)
  Variable X : Type.                 (* exceptions *)
  Variable to_json : V -> option V.  (* json.dump to a file and json.load: None if the value can not be dumped *)
  Variable hash_of : str -> list V -> list (str * V) -> str.
                                     (* sha1 of json.dumps of the func, args and kwargs entries *)

  Record func := { f_module : str; f_qualname : str; f_id : nat }.

  (** functions.py:15-26 and 44-50: the hash of a call is that of the name, the arguments and the
      keyword arguments; it is all that is compared (52-53, 82-83). *)
  Definition call_hash (f : func) (args : list V) (kwargs : list (str * V)) : str := hash_of (f_qualname f) args kwargs.

  (** what a call through a FunctionSnapshotter gives *)
  Inductive outcome := Returned (v : V) | Missing | Raised (x : X).

  (** snapshots: hash of the call and result *)
  Definition snaps := list (str * V).
  Fixpoint assoc (h : str) (l : snaps) : option V :=
    match l with
    | [] => None
    | (k, v) :: r => if str_eqb k h then Some v else assoc h r
    end.
  Definition recorded (h : str) (l : snaps) : bool := existsb (fun e => str_eqb (fst e) h) l.

  (** functions.py:131-150 snapshot. [real]: what func( *args, **kwargs) would do now. Result: the calls, what is
      returned or raised, and whether func was called. *)
  Definition snapshot (capture : bool) (loaded calls : snaps) (h : str) (real : V + X) : snaps * outcome * bool :=
    match assoc h (rev loaded) with
    | Some v => (if recorded h calls then calls else calls ++ [(h, v)], Returned v, false)
    | None =>
        if capture then
          match real with
          | inr x => (calls, Raised x, true)
          | inl v => (filter (fun e => negb (str_eqb (fst e) h)) calls ++ [(h, v)], Returned v, true)
          end
        else (calls, Missing, false)
    end.

  (** the calls a test makes, one after the other (an exception may be caught by the test) *)
  Fixpoint run_calls (capture : bool) (loaded calls : snaps) (cs : list (str * (V + X))) : snaps * list outcome * list bool :=
    match cs with
    | [] => (calls, [], [])
    | (h, real) :: r =>
        let '(calls1, o, i) := snapshot capture loaded calls h real in
        let '(calls2, os, is) := run_calls capture loaded calls1 r in
        (calls2, o :: os, i :: is)
    end.

  (** functions.py:120-123: -s (complete) and -S (refresh) *)
  Definition capturing (refresh complete : bool) : bool := refresh || complete.
  (** functions.py:152-161 start: [files]: the snapshot directory in the order of os.listdir *)
  Definition load (files : snaps) (refresh : bool) : snaps := if refresh then [] else files.

  (** functions.py:180-186 stop: one file per call, named by the hash; None: TypeError *)
  Fixpoint store (calls : snaps) : option snaps :=
    match calls with
    | [] => Some []
    | (h, v) :: r => match to_json v, store r with Some w, Some s => Some ((h, w) :: s) | _, _ => None end
    end.

  (** functions.py:192-195 t_snapshots: the hashes listed in the output, in this order *)
  Definition listed (calls : snaps) : list str := map fst calls.
End Func.
Arguments Returned {V X}. Arguments Missing {V X}. Arguments Raised {V X}.

(** ** Patching functions *)
Section Patch.
  Variable L : Type.                 (* places: an object or module, and a name *)
  Variable L_eqb : L -> L -> bool.
  Variable P : Type.                 (* what can be there: functions, snapshotters and mocks *)
  Variable F : Type.                 (* functions *)
  Variable place : F -> L.           (* functions.py:99-106 set_function: __self__ or the module of the function, and its __name__ *)
  Variable itself : F -> P.
  Variable settable : L -> bool.     (* setattr may raise *)

  Definition names := L -> option P.
  Definition put (ns : names) (l : L) (p : P) : names := fun m => if L_eqb m l then Some p else ns m.

  (** functions.py:99-106 *)
  Definition set_function (ns : names) (f : F) (p : P) : option names :=
    if settable (place f) then Some (put ns (place f) p) else None.

  (** functions.py:163-168 and 241-245 start; false: setattr raised *)
  Fixpoint patch (fs : list (F * P)) (ns : names) : names * bool :=
    match fs with
    | [] => (ns, true)
    | (f, p) :: r => match set_function ns f p with Some ns' => patch r ns' | None => (ns, false) end
    end.
  (** functions.py:176-178 and 250-251 stop *)
  Fixpoint unpatch (fs : list F) (ns : names) : names * bool :=
    match fs with
    | [] => (ns, true)
    | f :: r => match set_function ns f (itself f) with Some ns' => unpatch r ns' | None => (ns, false) end
    end.
  (** with MockFunctions(fs): body, or with SnapshotFunctions: __exit__ runs however the body ends, but not if __enter__ raises *)
  Definition mock_block (fs : list (F * P)) (body : names -> names) (ns : names) : names * bool :=
    match patch fs ns with
    | (ns1, true) => unpatch (map fst fs) (body ns1)
    | x => x
    end.

  (** requests.py:321-357 and httpx.py:266-306: start saves what is there, stop puts it back *)
  Definition saved_block (l : L) (p : P) (body : names -> names) (ns : names) : names :=
    let old := ns l in
    let ns2 := body (put ns l p) in
    match old with Some o => put ns2 l o | None => ns2 end.
End Patch.
