(** The JSON files of functions.py and env.py: what is hashed, written and read. *)
From Verif Require Export JsonModel.
From Verif Require FuncModel EnvModel.

(** d[key] of a dict that was read; None: KeyError (or not a dict) *)
Fixpoint dict_get (k : str) (d : list (jkey * jv)) : option jv :=
  match d with
  | [] => None
  | (JKStr j, v) :: r => if str_eqb j k then Some v else dict_get k r
  | _ :: r => dict_get k r
  end.
Definition field (k : str) (v : jv) : option jv := match v with JDict d => dict_get k d | _ => None end.

Section Functions.
  Variable sha1 : str -> str.                (* the hexadecimal SHA-1 of the text *)
  Variable refloat : str -> str.

  (** functions.py:45-49 from_properties *)
  Definition call_entries (qualname : str) (args : list jv) (kwargs : list (str * jv)) : list (jkey * jv) :=
    [(JKStr (lit "func"), JStr qualname); (JKStr (lit "args"), JList args);
     (JKStr (lit "kwargs"), JDict (map (fun kv => (JKStr (fst kv), snd kv)) kwargs))].
  (** functions.py:15-26: the hash of a call; None: the arguments can not be dumped (TypeError) *)
  Definition call_key (qualname : str) (args : list jv) (kwargs : list (str * jv)) : option str :=
    option_map sha1 (dumps None 0 (JDict (call_entries qualname args kwargs))).

  (** FunctionCallSnapshot: the call, its hash and the result *)
  Record snapped := { sn_name : str; sn_args : list jv; sn_kwargs : list (str * jv); sn_hash : str; sn_result : jv }.
  (** functions.py:72-77 json_object; the call has its "hash" since line 24 *)
  Definition snapped_object (s : snapped) : jv :=
    JDict [(JKStr (lit "call"), JDict (call_entries (sn_name s) (sn_args s) (sn_kwargs s) ++ [(JKStr (lit "hash"), JStr (sn_hash s))]));
           (JKStr (lit "result"), sn_result s)].
  (** functions.py:185-186: the file that is written *)
  Definition snapped_file (s : snapped) : option str := dumps (Some 4) 0 (snapped_object s).
  (** functions.py:159-162, 67-70, 15-26: a file that is read: the hash of its call, and the result. A hash that is missing or
      null is computed; a hash of another type can not come from a written file and is not modelled (None, like KeyError). *)
  Definition read_snapped (file : str) : option (str * jv) :=
    match loads refloat (univ_newlines file) with
    | None => None
    | Some v =>
        match field (lit "call") v, field (lit "result") v with
        | Some c, Some r =>
            match field (lit "hash") c with
            | Some (JStr h) => Some (h, r)
            | Some JNone | None => match dumps None 0 c with Some t => Some (sha1 t, r) | None => None end
            | _ => None
            end
        | _, _ => None
        end
    end.
End Functions.

(** ** .env.json *)
Section Env.
  Variable refloat : str -> str.
  Definition env_value (v : option str) : jv := match v with Some s => JStr s | None => JNone end.
  (** env.py:61-62 *)
  Definition env_file (d : EnvModel.table) : option str := dumps (Some 4) 0 (JDict (map (fun nv => (JKStr (fst nv), env_value (snd nv))) d)).
  (** env.py:29-30; None: not a dict of texts and nulls *)
  Definition read_env (file : str) : option EnvModel.table :=
    match loads refloat (univ_newlines file) with
    | Some (JDict d) =>
        all_of (map (fun kv => match kv with
                               | (JKStr n, JStr s) => Some (n, Some s)
                               | (JKStr n, JNone) => Some (n, None)
                               | _ => None
                               end) d)
    | _ => None
    end.
End Env.
