(** booktest/requests.py: how a block takes over the requests of a session, and what it leaves behind.
    The session itself is part of the requests library: Session.send asks self.get_adapter(url) for an adapter and calls its
    send(request, **kwargs); Session.get_adapter looks the url up in the adapters that were mounted. *)
From Verif Require Export HttpModel.

Section Session.
  Variable cc : CharClass.
  Variable sha : obj -> str.
  Variables R X : Type.
  Variable A : Type.                          (* adapters *)
  Variable K : Type.                          (* the keyword arguments of send: stream, timeout, verify, cert, proxies *)
  Variable Q : Type.                          (* prepared requests *)
  Variable url_of : Q -> str.
  Variable key_of : Q -> key.                 (* requests.py:94-123 *)
  Variable net : A -> K -> Q -> R + X.        (* adapter.send(request, **kwargs) *)
  Variable http_adapter : A.                  (* a new adapters.HTTPAdapter() *)
  Variable defaults : K.                      (* the default arguments of HTTPAdapter.send *)

  (** a get_adapter method: the one of requests.Session, the one of a block, or one that the user wrote *)
  Inductive getter := OfSession | OfBlock | OfUser (f : str -> A).
  Record session := {
    s_own : option getter;                    (* an attribute get_adapter of the object *)
    s_class : getter;                         (* get_adapter of its class, which may override the one of Session *)
    s_mounted : str -> A                      (* what Session.get_adapter finds *)
  }.
  Definition set_own (g : getter) (s : session) : session :=
    {| s_own := Some g; s_class := s_class s; s_mounted := s_mounted s |}.

  (** s.get_adapter(url); [None]: the SnapshotAdapter of the block *)
  Definition get_adapter (s : session) (url : str) : option A :=
    match match s_own s with Some g => g | None => s_class s end with
    | OfSession => Some (s_mounted s url)
    | OfBlock => None
    | OfUser f => Some (f url)
    end.

  (** what went over the network: the adapter and its arguments *)
  Definition used := option (A * K * Q)%type.

  (** requests.Session.send (requests.py:226 _original_send), with requests.py:216-223 SnapshotAdapter.send: the arguments are
      not passed on to the network. [requests]: self.requests of the adapter. *)
  Definition original_send (capture : bool) (snapshots requests : list (snap R)) (s : session) (q : Q) (kwargs : K)
    : list (snap R) * outcome R X * used :=
    match get_adapter s (url_of q) with
    | Some a => (requests, match net a kwargs q with inl r => Returned r | inr x => Raised x end, Some (a, kwargs, q))
    | None =>
        let '(requests', o, network) := send cc sha R X capture snapshots requests (key_of q) (net http_adapter defaults q) in
        (requests', o, if network then Some (http_adapter, defaults, q) else None)
    end.

  (** requests.py:331-343 _fake_send; self._last_get_adapter is requests.Session.get_adapter (line 329), bound to the session *)
  Definition fake_send (capture : bool) (snapshots requests : list (snap R)) (s : session) (q : Q) (kwargs : K)
    : session * (list (snap R) * outcome R X * used) :=
    let s1 := set_own OfBlock s in
    let result := original_send capture snapshots requests s1 q kwargs in
    (set_own OfSession s1, result).

  (** requests made with one session in a block, one after the other *)
  Fixpoint fake_send_all (capture : bool) (snapshots requests : list (snap R)) (s : session) (qs : list (Q * K))
    : session * list (snap R) * list (outcome R X) * list used :=
    match qs with
    | [] => (s, requests, [], [])
    | (q, kwargs) :: rest =>
        let '(s1, (requests1, o, u)) := fake_send capture snapshots requests s q kwargs in
        let '(s2, requests2, os, us) := fake_send_all capture snapshots requests1 s1 rest in
        (s2, requests2, o :: os, u :: us)
    end.

  (** the same requests outside of a block *)
  Definition plain_send (s : session) (q : Q) (kwargs : K) : option (outcome R X * used) :=
    match get_adapter s (url_of q) with
    | Some a => Some (match net a kwargs q with inl r => Returned r | inr x => Raised x end, Some (a, kwargs, q))
    | None => None
    end.
End Session.
Arguments OfSession {A}. Arguments OfBlock {A}. Arguments OfUser {A}.
Arguments s_own {A}. Arguments s_class {A}. Arguments s_mounted {A}. Arguments set_own {A}. Arguments get_adapter {A}.
