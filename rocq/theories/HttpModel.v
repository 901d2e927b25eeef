(** booktest/requests.py and booktest/httpx.py: recorded HTTP requests. The two files have the same
    RequestKey and the same lookup; lines are given for requests.py / httpx.py. *)
From Verif Require Export PyStr.

(** the JSON object of a request, without its "hash" entry; the headers are a dict *)
Record obj := {
  o_url : str; o_method : str;
  o_headers : option (list (str * str));
  o_body : option str;               (* encoded by encode_body *)
  o_order : option nat
}.
(** RequestKey: the object and the hash *)
Record key := { k_obj : obj; k_hash : str }.

(** the ignore_headers argument: False (also [] and None), True, or a list *)
Inductive ignore := IgnoreNone | IgnoreAll | IgnoreList (l : list str).

Section Http.
  Variable cc : CharClass.
  Variable sha : obj -> str.                  (* requests.py:19-23 json_to_sha1: sha1 of the JSON text with sorted keys *)
  Variable R : Type.                          (* responses *)
  Variable X : Type.                          (* exceptions *)
  Variable to_disk : R -> option R.           (* a response written and read again; None: it can not be written *)

  Definition is_ignored (l : list str) (header : str) : bool := str_mem (str_lower cc header) (map (str_lower cc) l).

  (** requests.py:50-61 / httpx.py:40-51 *)
  Definition strip_headers (ign : ignore) (o : obj) : obj :=
    match ign with
    | IgnoreNone => o
    | IgnoreAll => {| o_url := o_url o; o_method := o_method o; o_headers := None; o_body := o_body o; o_order := o_order o |}
    | IgnoreList l =>
        {| o_url := o_url o; o_method := o_method o;
           o_headers := option_map (filter (fun h => negb (is_ignored l (fst h)))) (o_headers o);
           o_body := o_body o; o_order := o_order o |}
    end.

  (** requests.py:38-69 / httpx.py:28-59; [hash]: the "hash" entry of the object, if it has one *)
  Definition request_key (ign : ignore) (json_to_hash : option (obj -> str)) (hash : option str) (o : obj) : key :=
    let o' := strip_headers ign o in
    {| k_obj := o';
       k_hash := match hash with
                 | Some h => h
                 | None => match json_to_hash with Some f => f o' | None => sha o' end
                 end |}.

  (** requests.py:71-76 / httpx.py:61-66 *)
  Definition increase_order (k : key) : key :=
    let o := k_obj k in
    let prev := match o_order o with Some n => n | None => 0 end in
    request_key IgnoreNone None None
      {| o_url := o_url o; o_method := o_method o; o_headers := o_headers o; o_body := o_body o; o_order := Some (prev + 1) |}.

  (** requests.py:81-91 / httpx.py:71-81: what is stored of the request, with its hash *)
  Definition to_json_object (hide : bool) (k : key) : obj * str :=
    let o := k_obj k in
    (if hide then {| o_url := o_url o; o_method := o_method o; o_headers := None; o_body := None; o_order := o_order o |} else o,
     k_hash k).

  (** requests.py:94-123 / httpx.py:84-117 *)
  Definition from_request (ign : ignore) (json_to_hash : option (obj -> str)) (url method : str) (headers : list (str * str)) (body : option str) : key :=
    request_key ign json_to_hash None {| o_url := url; o_method := method; o_headers := Some headers; o_body := body; o_order := None |}.

  (** RequestSnapshot; compared by the hash (requests.py:137-138, 169-170) *)
  Definition snap := (key * R)%type.
  Definition matches (k : key) (s : snap) : bool := str_eqb (k_hash (fst s)) (k_hash k).

  (** requests.py:189-194 / httpx.py:221-226 *)
  Definition mark_order (requests : list snap) (k : key) : key :=
    fold_left (fun k i => if str_eqb (k_hash k) (k_hash (fst i)) then increase_order k else k) requests k.

  Inductive outcome := Returned (r : R) | Missing | Raised (x : X).

  (** requests.py:196-223 / httpx.py:228-264: lookup_snapshot and send. [k]: the key of the request; [real]: what the network
      would do now. Result: self.requests, what is returned or raised, whether the network was used. *)
  Definition send (capture : bool) (snapshots requests : list snap) (k : key) (real : R + X) : list snap * outcome * bool :=
    let k := mark_order requests k in
    match find (matches k) (rev snapshots) with
    | Some s => (if existsb (fun i => str_eqb (k_hash (fst s)) (k_hash (fst i))) requests then requests else requests ++ [s], Returned (snd s), false)
    | None =>
        if capture then
          match real with
          | inl r => (requests ++ [(k, r)], Returned r, true)
          | inr x => (requests, Raised x, true)
          end
        else (requests, Missing, false)
    end.

  Fixpoint send_all (capture : bool) (snapshots requests : list snap) (cs : list (key * (R + X))) : list snap * list outcome * list bool :=
    match cs with
    | [] => (requests, [], [])
    | (k, real) :: r =>
        let '(requests1, o, i) := send capture snapshots requests k real in
        let '(requests2, os, is) := send_all capture snapshots requests1 r in
        (requests2, o :: os, i :: is)
    end.

  (** requests.py:361-368 / httpx.py:302-309 stop: a dict from the hash to what is stored *)
  Definition entry := (str * (obj * str * R))%type.
  Fixpoint dict_put (e : entry) (d : list entry) : list entry :=
    match d with
    | [] => [e]
    | f :: r => if str_eqb (fst f) (fst e) then e :: r else f :: dict_put e r
    end.
  Fixpoint stop (hide : bool) (requests : list snap) (d : list entry) : option (list entry) :=
    match requests with
    | [] => Some d
    | (k, r) :: rest => match to_disk r with
                        | Some r' => stop hide rest (dict_put (k_hash k, (to_json_object hide k, r')) d)
                        | None => None
                        end
    end.

  (** requests.py:297-314 / httpx.py:198-215: loading, from the file or (legacy) a directory *)
  Definition load (ign : ignore) (json_to_hash : option (obj -> str)) (entries : list entry) (refresh : bool) : list snap :=
    if refresh then [] else
    map (fun e => match snd e with (o, h, r) => (request_key ign json_to_hash (Some h) o, r) end) entries.
End Http.
Arguments Returned {R X}. Arguments Missing {R X}. Arguments Raised {R X}.
