(** booktest/env.py, requests.py, httpx.py, functions.py: a test that opens several recording blocks of the same kind. Every block
    of a test reads the same recordings (t.exp_dir_name) and writes to the same place (t.file): .env.json (env.py:17-18),
    .requests.json and .httpx.json (requests.py:284-285, httpx.py:178-179), the directory .functions (functions.py:118-119). *)
From Verif Require Export EnvModel.
From Verif Require FuncModel HttpModel.

(** *** Nested env blocks, outermost first: snapshot_env decorators on top of each other (env.py:77-91), each as in
    EnvModel.snap_block. [out]: the .env.json in the output directory, if any. Result: the environment, whether nothing was
    raised, the file. An exception of an inner block passes through the exit of the outer blocks, which write their file. *)
Fixpoint nested_env (blocks : list (list str)) (file : option table) (refresh complete : bool)
  (body : environ -> environ) (e : environ) (out : option table) : environ * bool * option table :=
  match blocks with
  | [] => (body e, true, out)
  | names :: rest =>
      let s := snap_start names file refresh complete e in
      if s_ok s then
        let '(e1, ok1, out1) := nested_env rest file refresh complete body (s_env s) out in
        let (e2, ok2) := snap_leave (s_old s) e1 in
        (e2, ok1 && ok2, if ok2 then Some (s_capture s) else out1)
      else (s_env s, false, out)
  end.

(** *** HTTP blocks one after the other. [files]: the recordings; result: what the requests of every block gave, and the file in the
    output directory. None: a block whose responses can not be written raises. *)
Section Http.
  Import HttpModel.
  Variable cc : CharClass.
  Variable sha : obj -> str.
  Variables R X : Type.
  Variable to_disk : R -> option R.
  Variable ign : ignore.
  Variable json_to_hash : option (obj -> str).

  Fixpoint http_blocks (capture : bool) (files : list (entry R)) (refresh hide : bool) (blocks : list (list (key * (R + X))))
    (out : option (list (entry R))) : option (list (list (outcome R X)) * option (list (entry R))) :=
    match blocks with
    | [] => Some ([], out)
    | cs :: rest =>
        let '(reqs, os, _) := send_all cc sha R X capture (load cc sha R ign json_to_hash files refresh) [] cs in
        match stop R to_disk hide reqs [] with
        | None => None
        | Some stored =>
            match http_blocks capture files refresh hide rest (Some stored) with
            | None => None
            | Some (oss, out') => Some (os :: oss, out')
            end
        end
    end.
End Http.

(** *** Blocks of recorded functions one after the other: a file per call, so a block replaces the files of the calls it made and
    leaves the others (functions.py:180-186) *)
Section Func.
  Variables V X : Type.
  Variable to_json : V -> option V.

  Definition write_call (dir : FuncModel.snaps V) (e : str * V) : FuncModel.snaps V :=
    filter (fun f => negb (str_eqb (fst f) (fst e))) dir ++ [e].

  Fixpoint func_blocks (capture : bool) (loaded : FuncModel.snaps V) (blocks : list (list (str * (V + X)))) (dir : FuncModel.snaps V)
    : option (list (list (FuncModel.outcome V X)) * FuncModel.snaps V) :=
    match blocks with
    | [] => Some ([], dir)
    | cs :: rest =>
        let '(calls, os, _) := FuncModel.run_calls V X capture loaded [] cs in
        match FuncModel.store V to_json calls with
        | None => None
        | Some saved =>
            match func_blocks capture loaded rest (fold_left write_call saved dir) with
            | None => None
            | Some (oss, dir') => Some (os :: oss, dir')
            end
        end
    end.
End Func.
