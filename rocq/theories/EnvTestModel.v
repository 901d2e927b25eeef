(** env.py:10-91: a whole test inside snapshot_env: what it reads, what it writes and what it leaves in its directory. *)
From Verif Require Export RunCaseModel JsonFilesModel.
From Verif Require Import EnvModel.

(** The code of a test: what it does with this environment, and the environment that it leaves *)
Definition env_test : Type := environ -> body_run * environ.

Section EnvTest.
  Variable refloat : str -> str.
  Variable names : list str.

  (** env.py:24-30 and 27-30: the recordings; None: the file cannot be read. (A file that is not an object of texts and nulls is not
      modelled.) *)
  Definition recorded_env (refresh : bool) (file : option str) : option (option table) :=
    if refresh then Some None else match file with None => Some None | Some t => option_map Some (read_env refloat t) end.
  (** env.py:64-67 t_snapshots *)
  Definition env_lines (d : table) : list str :=
    map (fun nv : str * option str => lit " * " ++ fst nv ++ lit "=" ++ match snd nv with Some v => v | None => lit "None" end) d.
  (** env.py:54-62, 72-74: __exit__ writes the file and prints the list, also when the test raised *)
  Definition with_env (b : body_run) (d : table) (file : str) : body_run :=
    {| b_ops := b_ops b ++ OH 1 (lit "env snaphots:") :: map OTln (env_lines d); b_exc := b_exc b; b_files := b_files b ++ [(lit ".env.json", file)];
       b_tmp := b_tmp b; b_log := b_log b; b_value := b_value b |}.
  (** One run of the test in which neither start nor stop raises. [e]: the environment before, [e']: after. *)
  Definition env_run (refresh complete : bool) (file : option str) (T : env_test) (e : environ) (b : body_run) (e' : environ) : Prop :=
    exists loaded d text,
      recorded_env refresh file = Some loaded /\
      snap_block names loaded refresh complete (fun x => snd (T x)) e = (e', true, Some d) /\
      env_file d = Some text /\
      b = with_env (fst (T (s_env (snap_start names loaded refresh complete e)))) d text.
End EnvTest.
