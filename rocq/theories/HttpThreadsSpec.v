(** What one thread that makes requests does and sees, as if it were alone (for C122). *)
From Verif Require Export HttpThreadsModel.

Section Spec.
  Variables R X Q : Type.
  Variable follow : list (Q * R) -> option Q.
  Variable code : list (result R X) -> option (nat * Q).     (* of this thread *)

  (** the next request: a redirect of the requests made so far ([chain]), or what the code asks for after the results [rs] *)
  Definition wants (chain : list (Q * R)) (rs : list (result R X)) (q : Q) : Prop :=
    match chain with
    | [] => exists s, code rs = Some (s, q)
    | _ => follow chain = Some q
    end.
  Definition replies (chain : list (Q * R)) : list (outcome R X) := map (fun h => Returned (snd h)) chain.
  (** the chain and the results after the answer [o] *)
  Definition after (chain : list (Q * R)) (rs : list (result R X)) (q : Q) (o : outcome R X) : list (Q * R) * list (result R X) :=
    match o with
    | Returned r =>
        match follow (chain ++ [(q, r)]) with
        | Some _ => (chain ++ [(q, r)], rs)
        | None => ([], rs ++ [Done (replies (chain ++ [(q, r)]))])
        end
    | _ => ([], rs ++ [Done (replies chain ++ [o])])
    end.
  (** what was seen of the thread, the chain of redirects it is in (empty: none), and what its code has got *)
  Inductive alone : list (seen R X Q) -> list (Q * R) -> list (result R X) -> Prop :=
  | alone_nil : alone [] [] []
  | alone_late l rs s q : alone l [] rs -> code rs = Some (s, q) -> alone (l ++ [Late]) [] (rs ++ [TimedOut])
  | alone_hop l chain rs q real o used : alone l chain rs -> wants chain rs q ->
      alone (l ++ [Hop q real o used]) (fst (after chain rs q o)) (snd (after chain rs q o)).
End Spec.

(** what was seen of thread [t] *)
Definition of_thread {E} (t : nat) (l : list (nat * E)) : list E := map snd (filter (fun e => Nat.eqb (fst e) t) l).
(** the requests that were answered *)
Definition answered {R X Q} (l : list (nat * seen R X Q)) : list (Q * (R + X) * outcome R X * bool) :=
  flat_map (fun e => match snd e with Hop q real o used => [(q, real, o, used)] | Late => [] end) l.
Definition a_query {R X Q} (h : Q * (R + X) * outcome R X * bool) : Q := let '(q, _, _, _) := h in q.
Definition a_real {R X Q} (h : Q * (R + X) * outcome R X * bool) : R + X := let '(_, real, _, _) := h in real.
Definition a_outcome {R X Q} (h : Q * (R + X) * outcome R X * bool) : outcome R X := let '(_, _, o, _) := h in o.
Definition a_used {R X Q} (h : Q * (R + X) * outcome R X * bool) : bool := let '(_, _, _, u) := h in u.

(** before the first request: nobody holds the lock, nothing is recorded *)
Definition at_start {R X A Q} (w : world R X A Q) : Prop :=
  w_lock w = None /\ w_requests w = [] /\
  forall t, th_place (w_threads w t) = Outside /\ th_results (w_threads w t) = [].
Definition outside {R X A Q} (t : nat) (w : world R X A Q) : Prop := th_place (w_threads w t) = Outside.
