(** booktest/requests.py:226-248, 331-343 and 196-223: the requests of several threads inside one snapshot_requests block.
    requests.Session.send (part of the requests library) asks self.get_adapter for the adapter, calls its send, and then, while the
    response is a redirect, calls self.send again, with allow_redirects=False; self.send is _fake_send again. The limit on the
    number of redirects, cookies, and blocks that start or stop while a thread is inside are not modelled. *)
From Verif Require Export HttpModel HttpSessionModel.

Section Threads.
  Variable cc : CharClass.
  Variable sha : obj -> str.
  Variables R X A Q : Type.
  Variable url_of : Q -> str.
  Variable key_of : Q -> key.                      (* requests.py:94-123 *)
  Variable follow : list (Q * R) -> option Q.      (* after these requests and responses: the redirect, if the last one is one *)
  Variable capture : bool.
  Variable snapshots : list (snap R).

  (** what the code of a thread gets from session.send: what the request and its redirects returned or raised, of which the last
      is what it sees and the others are in r.history; or the exception of threading_rlock *)
  Inductive result := Done (os : list (outcome R X)) | TimedOut.
  (** the code of the threads: which request thread [t] makes next, with which session *)
  Variable code : nat -> list result -> option (nat * Q).

  (** where a thread is. The first argument of [Entered] to [Restored]: whether it is in the call of send for a redirect. *)
  Inductive place :=
  | Outside
  | Entered (inner : bool) (q : Q)                     (* holds the lock, line 335 *)
  | Taken (inner : bool) (q : Q)                       (* has replaced get_adapter, line 336 *)
  | Chosen (inner : bool) (q : Q) (a : option A)       (* has called get_adapter; None: the SnapshotAdapter *)
  | Asking (inner : bool) (q : Q) (k : key)            (* waits for the network, line 220 *)
  | Answered (inner : bool) (q : Q) (o : outcome R X)
  | Deciding (o : outcome R X)                         (* the outer send, after a response: is it a redirect? *)
  | Leaving (inner : bool) (o : outcome R X)           (* line 340 *)
  | Restored (inner : bool) (o : outcome R X).         (* the end of the with statement, lines 335, 248 *)
  Record thread := { th_place : place; th_session : nat; th_hops : list (Q * R); th_results : list result }.
  Definition at_place (p : place) (th : thread) : thread := {| th_place := p; th_session := th_session th; th_hops := th_hops th; th_results := th_results th |}.

  Record world := {
    w_lock : option (nat * nat);              (* _send_lock: the thread that owns it, how often it has acquired it *)
    w_sessions : nat -> session A;
    w_requests : list (snap R);               (* self.requests of the SnapshotAdapter *)
    w_threads : nat -> thread
  }.
  Definition upd {V} (f : nat -> V) (i : nat) (v : V) : nat -> V := fun j => if Nat.eqb j i then v else f j.
  Definition with_lock (l : option (nat * nat)) (w : world) : world := {| w_lock := l; w_sessions := w_sessions w; w_requests := w_requests w; w_threads := w_threads w |}.
  Definition with_session (i : nat) (s : session A) (w : world) : world := {| w_lock := w_lock w; w_sessions := upd (w_sessions w) i s; w_requests := w_requests w; w_threads := w_threads w |}.
  Definition with_requests (rs : list (snap R)) (w : world) : world := {| w_lock := w_lock w; w_sessions := w_sessions w; w_requests := rs; w_threads := w_threads w |}.
  Definition with_thread (t : nat) (th : thread) (w : world) : world := {| w_lock := w_lock w; w_sessions := w_sessions w; w_requests := w_requests w; w_threads := upd (w_threads w) t th |}.

  (** RLock.acquire and release, requests.py:231, 241, 248 *)
  Definition acquire (t : nat) (l : option (nat * nat)) : option (nat * nat) :=
    match l with
    | None => Some (t, 1)
    | Some (t', n) => if Nat.eqb t' t then Some (t, S n) else None
    end.
  Definition release (l : option (nat * nat)) : option (nat * nat) :=
    match l with
    | Some (t, S (S n)) => Some (t, S n)
    | _ => None
    end.

  (** what an observer sees: a request was answered (the network would now do [real]; [used]: it was asked), or a thread gave up *)
  Inductive seen := Hop (q : Q) (real : R + X) (o : outcome R X) (used : bool) | Late.

  (** one step of thread [t] *)
  Inductive step (t : nat) (w : world) : option seen -> world -> Prop :=
  | Enter s q l th :                                    (* lines 334-335, 241 *)
      th = w_threads w t -> th_place th = Outside -> code t (th_results th) = Some (s, q) -> acquire t (w_lock w) = Some l ->
      step t w None (with_lock (Some l) (with_thread t {| th_place := Entered false q; th_session := s; th_hops := []; th_results := th_results th |} w))
  | GiveUp s q th :                                     (* lines 241-243, after 10 seconds *)
      th = w_threads w t -> th_place th = Outside -> code t (th_results th) = Some (s, q) -> acquire t (w_lock w) = None ->
      step t w (Some Late) (with_thread t {| th_place := Outside; th_session := th_session th; th_hops := []; th_results := th_results th ++ [TimedOut] |} w)
  | Take th b q :                                       (* line 336 *)
      th = w_threads w t -> th_place th = Entered b q ->
      step t w None (with_session (th_session th) (set_own OfBlock (w_sessions w (th_session th))) (with_thread t (at_place (Taken b q) th) w))
  | Choose th b q :                                     (* line 339, Session.send *)
      th = w_threads w t -> th_place th = Taken b q ->
      step t w None (with_thread t (at_place (Chosen b q (get_adapter (w_sessions w (th_session th)) (url_of q))) th) w)
  | Direct th b q a real :                              (* another adapter *)
      th = w_threads w t -> th_place th = Chosen b q (Some a) ->
      let o := match real with inl r => Returned r | inr x => Raised x end in
      step t w (Some (Hop q real o true)) (with_thread t (at_place (Answered b q o) th) w)
  | Found th b q real s :                               (* lines 196-208, 223 *)
      th = w_threads w t -> th_place th = Chosen b q None ->
      find (matches R (mark_order cc sha R (w_requests w) (key_of q))) (rev snapshots) = Some s ->
      let known := existsb (fun i => str_eqb (k_hash (fst s)) (k_hash (fst i))) (w_requests w) in
      step t w (Some (Hop q real (Returned (snd s)) false))
        (with_requests (if known then w_requests w else w_requests w ++ [s]) (with_thread t (at_place (Answered b q (Returned (snd s))) th) w))
  | NotFound th b q real :                              (* lines 210-212 *)
      th = w_threads w t -> th_place th = Chosen b q None ->
      find (matches R (mark_order cc sha R (w_requests w) (key_of q))) (rev snapshots) = None -> capture = false ->
      step t w (Some (Hop q real Missing false)) (with_thread t (at_place (Answered b q Missing) th) w)
  | Ask th b q :                                        (* lines 214-220 *)
      th = w_threads w t -> th_place th = Chosen b q None ->
      find (matches R (mark_order cc sha R (w_requests w) (key_of q))) (rev snapshots) = None -> capture = true ->
      step t w None (with_thread t (at_place (Asking b q (mark_order cc sha R (w_requests w) (key_of q))) th) w)
  | Answer th b q k r :                                 (* lines 220-221 *)
      th = w_threads w t -> th_place th = Asking b q k ->
      step t w (Some (Hop q (inl r) (Returned r) true)) (with_requests (w_requests w ++ [(k, r)]) (with_thread t (at_place (Answered b q (Returned r)) th) w))
  | Break th b q k x :                                  (* line 220 raises *)
      th = w_threads w t -> th_place th = Asking b q k ->
      step t w (Some (Hop q (inr x) (Raised x) true)) (with_thread t (at_place (Answered b q (Raised x)) th) w)
  | Respond th b q r :                                  (* Session.send, after adapter.send; a send for a redirect does not look for redirects *)
      th = w_threads w t -> th_place th = Answered b q (Returned r) ->
      step t w None (with_thread t {| th_place := if b then Leaving true (Returned r) else Deciding (Returned r); th_session := th_session th;
                                      th_hops := th_hops th ++ [(q, r)]; th_results := th_results th |} w)
  | Fail th b q o :                                     (* Session.send, when adapter.send raised *)
      th = w_threads w t -> th_place th = Answered b q o -> (forall r, o <> Returned r) ->
      step t w None (with_thread t (at_place (Leaving b o) th) w)
  | Redirect th o q l :                                 (* resolve_redirects calls self.send: lines 334-335, 241. (That the lock cannot
                                                           be acquired here does not occur: C122_no_deadlock.) *)
      th = w_threads w t -> th_place th = Deciding o -> follow (th_hops th) = Some q -> acquire t (w_lock w) = Some l ->
      step t w None (with_lock (Some l) (with_thread t (at_place (Entered true q) th) w))
  | Final th o :
      th = w_threads w t -> th_place th = Deciding o -> follow (th_hops th) = None ->
      step t w None (with_thread t (at_place (Leaving false o) th) w)
  | Restore th b o :                                    (* line 342 *)
      th = w_threads w t -> th_place th = Leaving b o ->
      step t w None (with_session (th_session th) (set_own OfSession (w_sessions w (th_session th))) (with_thread t (at_place (Restored b o) th) w))
  | BackInner th o :                                    (* line 248, and back in the outer send *)
      th = w_threads w t -> th_place th = Restored true o ->
      step t w None (with_lock (release (w_lock w))
        (with_thread t (at_place (match o with Returned _ => Deciding o | _ => Leaving false o end) th) w))
  | Back th o :                                         (* line 248, and back in the code of the test *)
      th = w_threads w t -> th_place th = Restored false o ->
      step t w None (with_lock (release (w_lock w))
        (with_thread t {| th_place := Outside; th_session := th_session th; th_hops := [];
                          th_results := th_results th ++ [Done (map (fun h => Returned (snd h)) (th_hops th) ++ match o with Returned _ => [] | _ => [o] end)] |} w)).

  (** the steps of all threads, in any interleaving, with what is seen of them *)
  Inductive steps (w : world) : list (nat * seen) -> world -> Prop :=
  | Stay : steps w [] w
  | Go l w1 t e w2 : steps w l w1 -> step t w1 e w2 -> steps w (l ++ match e with Some e => [(t, e)] | None => [] end) w2.
End Threads.
Arguments Done {R X}. Arguments TimedOut {R X}.
Arguments Outside {R X A Q}. Arguments Entered {R X A Q}. Arguments Taken {R X A Q}. Arguments Chosen {R X A Q}. Arguments Asking {R X A Q}.
Arguments Answered {R X A Q}. Arguments Deciding {R X A Q}. Arguments Leaving {R X A Q}. Arguments Restored {R X A Q}.
Arguments th_place {R X A Q}. Arguments th_session {R X A Q}. Arguments th_hops {R X A Q}. Arguments th_results {R X A Q}. Arguments at_place {R X A Q}.
Arguments w_lock {R X A Q}. Arguments w_sessions {R X A Q}. Arguments w_requests {R X A Q}. Arguments w_threads {R X A Q}.
Arguments with_lock {R X A Q}. Arguments with_session {R X A Q}. Arguments with_requests {R X A Q}. Arguments with_thread {R X A Q}.
Arguments Hop {R X Q}. Arguments Late {R X Q}.
