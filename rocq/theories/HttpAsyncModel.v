(** httpx.py:257-264 handle_async_request: several requests of one test may be waiting for their answers at the same time
    (asyncio.gather); lookup_snapshot (228-246) runs without interruption when a request is sent, and the answer is recorded
    when it arrives. Threads that share the synchronous client are not modelled. *)
From Verif Require Export HttpModel.

(** what happens in the event loop: request [i] is sent, the answer of request [i] arrives. A request that was answered from the
    snapshots is not waiting, and Answered then does nothing. *)
Inductive event (K R X : Type) :=
| Sent (i : nat) (q : K)
| Answered (i : nat) (real : R + X).
Arguments Sent {K R X}. Arguments Answered {K R X}.

Section Async.
  Variable cc : CharClass.
  Variable sha : obj -> str.
  Variable R X : Type.

  (** the requests that wait at the await in line 261, with the local variable key *)
  Definition waiting := list (nat * key).
  Fixpoint wait_key (i : nat) (w : waiting) : option key :=
    match w with
    | [] => None
    | (j, k) :: r => if Nat.eqb j i then Some k else wait_key i r
    end.
  Definition wait_done (i : nat) (w : waiting) : waiting := filter (fun e => negb (Nat.eqb (fst e) i)) w.

  (** one event; result: self.requests, the waiting requests, and what was returned or raised to whom *)
  Definition async_step (capture : bool) (snapshots : list (snap R)) (requests : list (snap R)) (w : waiting) (e : event key R X)
    : list (snap R) * waiting * list (nat * outcome R X) :=
    match e with
    | Sent i k =>
        let k := mark_order cc sha R requests k in
        match find (matches R k) (rev snapshots) with
        | Some s => (if existsb (fun j => str_eqb (k_hash (fst s)) (k_hash (fst j))) requests then requests else requests ++ [s], w, [(i, Returned (snd s))])
        | None => if capture then (requests, w ++ [(i, k)], []) else (requests, w, [(i, Missing)])
        end
    | Answered i real =>
        match wait_key i w with
        | None => (requests, w, [])
        | Some k => match real with
                    | inl r => (requests ++ [(k, r)], wait_done i w, [(i, Returned r)])
                    | inr x => (requests, wait_done i w, [(i, Raised x)])
                    end
        end
    end.

  Fixpoint async_run (capture : bool) (snapshots requests : list (snap R)) (w : waiting) (es : list (event key R X))
    : list (snap R) * waiting * list (nat * outcome R X) :=
    match es with
    | [] => (requests, w, [])
    | e :: r =>
        let '(requests1, w1, o1) := async_step capture snapshots requests w e in
        let '(requests2, w2, o2) := async_run capture snapshots requests1 w1 r in
        (requests2, w2, o1 ++ o2)
    end.
End Async.
