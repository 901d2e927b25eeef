(** booktest/testcaserun.py:97-104 and 127-156: the directory and the temporary directory of a test case, and the calls that hand out paths in them.
    The file system is the [tree] of ShellModel: files and directories. *)
From Verif Require Export ShellModel.

(** os.path.exists *)
Definition there (p : str) (t : tree) : bool := is_file p (t_files t) || str_mem p (t_dirs t).
(** a directory that something can be made in; "" is the working directory *)
Definition is_directory (d : str) (t : tree) : bool := match d with [] => true | _ => str_mem d (t_dirs t) end.
(** os.mkdir; None: FileExistsError or FileNotFoundError *)
Definition os_mkdir (p : str) (t : tree) : option tree :=
  if there p t || negb (is_directory (fst (path_split p)) t) then None
  else Some {| t_files := t_files t; t_dirs := p :: t_dirs t |}.
(** open(p, "w") and write; None: IsADirectoryError or FileNotFoundError *)
Definition os_write (p c : str) (t : tree) : option tree :=
  if str_mem p (t_dirs t) || negb (is_directory (fst (path_split p)) t) then None
  else Some {| t_files := write_file p c (t_files t); t_dirs := t_dirs t |}.

(** testcaserun.py:97-104: [if path.exists(p): shutil.rmtree(p)]; None: NotADirectoryError *)
Definition purge_dir (p : str) (t : tree) : option tree :=
  if there p t then (if str_mem p (t_dirs t) then Some (remove_all p t) else None) else Some t.

Section Tmp.
  Variables base name : str.   (* self.out_base_dir and self.name *)
  (** testcaserun.py:61-62 *)
  Definition out_dir_name : str := path_join base name.
  Definition out_tmp_dir_name : str := path_join base (name ++ lit ".tmp").

  (** the end of __init__ *)
  Definition purge_case (t : tree) : option tree :=
    match purge_dir out_dir_name t with Some t1 => purge_dir out_tmp_dir_name t1 | None => None end.

  (** testcaserun.py:127-135 tmp_path, 137-140 tmp_dir, 142-143 tmp_file, 145-156 file; None: an exception *)
  Definition tmp_path (n : str) (t : tree) : option (str * tree) :=
    match (if there out_tmp_dir_name t then Some t else os_mkdir out_tmp_dir_name t) with
    | Some t1 => Some (path_join out_tmp_dir_name n, t1)
    | None => None
    end.
  Definition tmp_dir (n : str) (t : tree) : option (str * tree) :=
    match tmp_path n t with
    | Some (p, t1) => match os_mkdir p t1 with Some t2 => Some (p, t2) | None => None end
    | None => None
    end.
  Definition tmp_file (n : str) (t : tree) : option (str * tree) := tmp_path n t.
  Definition case_file (n : str) (t : tree) : option (str * tree) :=
    match (if there out_dir_name t then Some t else os_mkdir out_dir_name t) with
    | Some t1 => Some (path_join out_dir_name n, t1)
    | None => None
    end.

  (** what a test does with them: make a directory, or write a text to the path it gets. An exception may be caught by the test; the first part of
      what raised stays done. *)
  Inductive tcall := TmpDir (n : str) | TmpFile (n c : str) | CaseFile (n c : str).
  Definition and_write (c : str) (x : option (str * tree)) (t : tree) : option str * tree :=
    match x with
    | Some (p, t1) => match os_write p c t1 with Some t2 => (Some p, t2) | None => (None, t1) end
    | None => (None, t)
    end.
  Definition do_call (x : tcall) (t : tree) : option str * tree :=
    match x with
    | TmpDir n =>
        match tmp_dir n t with
        | Some (p, t1) => (Some p, t1)
        | None => (None, match tmp_path n t with Some (_, t1) => t1 | None => t end)
        end
    | TmpFile n c => and_write c (tmp_file n t) t
    | CaseFile n c => and_write c (case_file n t) t
    end.
  Fixpoint do_calls (xs : list tcall) (t : tree) : list (option str) * tree :=
    match xs with
    | [] => ([], t)
    | x :: r => let (p, t1) := do_call x t in let (ps, t2) := do_calls r t1 in (p :: ps, t2)
    end.
  (** a test case: __init__, then the test *)
  Definition tmp_run (xs : list tcall) (t : tree) : option (list (option str) * tree) :=
    match purge_case t with Some t1 => Some (do_calls xs t1) | None => None end.
End Tmp.
