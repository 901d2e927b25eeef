(** booktest/env.py: mocked and recorded environment variables. *)
From Verif Require Export PyStr.

(** os.environ *)
Definition environ := str -> option str.
Definition env_set (e : environ) (n : str) (v : option str) : environ :=
  fun m => if str_eqb m n then v else e m.

(** A dict from names to an optional string, in insertion order. *)
Definition table := list (str * option str).
Fixpoint tget (n : str) (d : table) : option (option str) :=
  match d with
  | [] => None
  | (m, v) :: r => if str_eqb n m then Some v else tget n r
  end.
Fixpoint tput (n : str) (v : option str) (d : table) : table :=
  match d with
  | [] => [(n, v)]
  | (m, w) :: r => if str_eqb n m then (m, v) :: r else (m, w) :: tput n v r
  end.

(** env.py, several places: del os.environ[name], KeyError (None) if it is not set *)
Definition env_del (e : environ) (n : str) : option environ :=
  match e n with Some _ => Some (env_set e n None) | None => None end.

(** ** MockEnv *)

(** env.py:164-173 start, the loop: the environment and what was saved *)
Fixpoint mock_enter (env : table) (e : environ) (old : table) : environ * table :=
  match env with
  | [] => (e, old)
  | (n, v) :: rest =>
      let old' := tput n (e n) old in
      let e' := match v with
                | None => match e n with Some _ => env_set e n None | None => e end
                | Some x => env_set e n (Some x)
                end in
      mock_enter rest e' old'
  end.

(** env.py:175-182 stop *)
Fixpoint mock_leave (old : table) (e : environ) : environ :=
  match old with
  | [] => e
  | (n, v) :: rest =>
      mock_leave rest (match v with
                       | None => match e n with Some _ => env_set e n None | None => e end
                       | Some x => env_set e n (Some x)
                       end)
  end.

(** env.py:153-182: a MockEnv object; its _old_env is None when it is not started *)
Definition mock_start (env : table) (saved : option table) (e : environ) : option (option table * environ) :=
  match saved with
  | Some _ => None                                  (* ValueError *)
  | None => let (e', old) := mock_enter env e [] in Some (Some old, e')
  end.
Definition mock_stop (saved : option table) (e : environ) : option (option table * environ) :=
  match saved with
  | None => None                                    (* 'NoneType' object has no attribute 'items' *)
  | Some old => Some (None, mock_leave old e)
  end.

(** env.py:184-200: with MockEnv(env): body. The body may do anything to the environment and end
    in any way; __exit__ is called in any case. *)
Definition mock_block (env : table) (body : environ -> environ) (e : environ) : environ :=
  match mock_start env None e with
  | Some (saved, e1) =>
      match mock_stop saved (body e1) with Some (_, e2) => e2 | None => body e1 end
  | None => e
  end.

(** ** SnapshotEnv *)

(** state while starting: environment, saved values, captured values; [ok] = no exception *)
Record snap := { s_env : environ; s_old : table; s_capture : table; s_ok : bool }.

(** env.py:36-52 start (the check in 33-34 can not fail). [capturing]: -s or -S *)
Fixpoint snap_enter (names : list str) (snapshots : table) (capturing : bool) (e : environ) (old cap : table) : snap :=
  match names with
  | [] => {| s_env := e; s_old := old; s_capture := cap; s_ok := true |}
  | n :: rest =>
      let old' := tput n (e n) old in
      match tget n snapshots with
      | Some None =>
          match env_del e n with
          | Some e' => snap_enter rest snapshots capturing e' old' (tput n None cap)
          | None => {| s_env := e; s_old := old'; s_capture := cap; s_ok := false |}
          end
      | Some (Some v) => snap_enter rest snapshots capturing (env_set e n (Some v)) old' (tput n (Some v) cap)
      | None =>
          if capturing then snap_enter rest snapshots capturing e old' (tput n (e n) cap)
          else {| s_env := e; s_old := old'; s_capture := cap; s_ok := false |}
      end
  end.

(** env.py:54-59 and 123-128 stop; false: KeyError in the middle *)
Fixpoint snap_leave (old : table) (e : environ) : environ * bool :=
  match old with
  | [] => (e, true)
  | (n, None) :: rest => match env_del e n with Some e' => snap_leave rest e' | None => (e, false) end
  | (n, Some v) :: rest => snap_leave rest (env_set e n (Some v))
  end.

(** env.py:24-30: the snapshots that are loaded; [refresh]: -S *)
Definition snap_load (file : option table) (refresh : bool) : table :=
  match file with Some d => if refresh then [] else d | None => [] end.

Definition snap_start (names : list str) (file : option table) (refresh complete : bool) (e : environ) : snap :=
  snap_enter names (snap_load file refresh) (complete || refresh) e [] [].

(** env.py:54-91: with SnapshotEnv(t, names): body. Result: the environment afterwards, whether
    start and stop succeeded, and the .env.json that was written, if any. If __enter__ raises,
    neither the body nor __exit__ runs. (The output of t_snapshots, 64-67, is not modelled.) *)
Definition snap_block (names : list str) (file : option table) (refresh complete : bool)
  (body : environ -> environ) (e : environ) : environ * bool * option table :=
  let s := snap_start names file refresh complete e in
  if s_ok s then
    let (e', ok) := snap_leave (s_old s) (body (s_env s)) in
    (e', ok, if ok then Some (s_capture s) else None)
  else (s_env s, false, None).

(** ** MockMissingEnv *)

(** env.py:108-121 start; note that _do_mock (106) is not used *)
Fixpoint missing_enter (env : table) (e : environ) (old : table) : environ * table * bool :=
  match env with
  | [] => (e, old, true)
  | (n, v) :: rest =>
      let old' := tput n (e n) old in
      match e n with
      | Some _ => missing_enter rest e old'
      | None =>
          match v with
          | None => (e, old', false)                (* del: KeyError *)
          | Some x => missing_enter rest (env_set e n (Some x)) old'
          end
      end
  end.

(** env.py:102-106: the flag computed by __init__ *)
Definition do_mock (refresh complete : bool) : bool := negb (refresh || complete).

(** env.py:123-150 *)
Definition missing_block (env : table) (body : environ -> environ) (e : environ) : environ * bool :=
  match missing_enter env e [] with
  | (e1, old, true) => snap_leave old (body e1)
  | (e1, _, false) => (e1, false)
  end.
