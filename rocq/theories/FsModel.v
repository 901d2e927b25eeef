(** The file system as far as booktest uses it: regular files with their text; a directory
    exists iff some file lies below it. Simplifications: empty directories do not exist,
    parent directories always exist (the code runs "mkdir -p" before writing), no links, no
    permissions, a file's content is a [str]. *)
From Verif Require Export PyStr.

Definition fs := list (str * str).

(** content of the file [p] *)
Fixpoint lookup (p : str) (f : fs) : option str :=
  match f with
  | [] => None
  | (q, c) :: f' => if str_eqb p q then Some c else lookup p f'
  end.

(** [p] lies below directory [d] *)
Definition below (d p : str) : bool := starts_with (d ++ [SLASH]) p.

Definition is_file (p : str) (f : fs) : bool := match lookup p f with Some _ => true | None => false end.
Definition is_dir (d : str) (f : fs) : bool := existsb (fun e => below d (fst e)) f.

(** os.path.exists *)
Definition path_exists (p : str) (f : fs) : bool := is_file p f || is_dir p f.

(** open(p, "w"), write c, close *)
Definition write_file (p c : str) (f : fs) : fs :=
  (p, c) :: filter (fun e => negb (str_eqb p (fst e))) f.

(** os.remove (of an existing file) *)
Definition remove_file (p : str) (f : fs) : fs :=
  filter (fun e => negb (str_eqb p (fst e))) f.

(** Outcome of an operation: the resulting file system, and whether it raised. *)
Inductive io (A : Type) := Ret (a : A) (f : fs) | Raise (f : fs).
Arguments Ret {A}. Arguments Raise {A}.

(** shutil.rmtree of an existing path; a regular file raises *)
Definition rmtree (d : str) (f : fs) : io unit :=
  if is_dir d f then Ret tt (filter (fun e => negb (below d (fst e))) f) else Raise f.

(** os.rename of a file *)
Definition rename_file (a b : str) (f : fs) : io unit :=
  match lookup a f with
  | None => Raise f                                   (* FileNotFoundError *)
  | Some c => if is_dir b f then Raise f              (* IsADirectoryError *)
              else Ret tt (write_file b c (remove_file a f))
  end.

(** the path [p] below [a] moved below [b] *)
Definition rebase (a b p : str) : str := if below a p then b ++ skipn (length a) p else p.

(** os.rename of a path that is a directory or a file *)
Definition rename_path (a b : str) (f : fs) : io unit :=
  if is_file a f then rename_file a b f
  else if path_exists b f || below a b then Raise f   (* ENOTEMPTY, ENOTDIR, EINVAL *)
  else Ret tt (map (fun e => (rebase a b (fst e), snd e)) f).

Definition io_bind {A B} (x : io A) (k : A -> fs -> io B) : io B :=
  match x with Ret a f => k a f | Raise f => Raise f end.

(** os.path.join (posixpath) of two parts *)
Definition path_join (a b : str) : str :=
  if starts_with [SLASH] b then b
  else if match a with [] => true | _ => ends_with [SLASH] a end then a ++ b
  else a ++ [SLASH] ++ b.

(** os.path.split (posixpath): head and what follows the last slash; trailing slashes of the
    head are dropped unless it consists of slashes only *)
Definition path_split (p : str) : str * str :=
  let r := rev p in
  let (tail, headr) := span (fun c => negb (N.eqb c SLASH)) r in
  let stripped := lstrip (N.eqb SLASH) headr in
  (rev (match stripped with [] => headr | _ => stripped end), rev tail).
