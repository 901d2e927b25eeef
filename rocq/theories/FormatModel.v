(** testcaserun.py rel_path, the index and cleaning. *)
From Verif Require Export FsModel.

(** ** rel_path *)

(** posixpath.normpath *)
Fixpoint norm_parts (absolute : bool) (parts acc : list str) : list str :=   (* acc: reversed *)
  match parts with
  | [] => rev acc
  | p :: rest =>
      if match p with [] => true | _ => false end || str_eqb p (lit ".") then norm_parts absolute rest acc
      else if str_eqb p (lit "..") then
        match acc with
        | [] => if absolute then norm_parts absolute rest acc else norm_parts absolute rest (p :: acc)
        | q :: acc' => if str_eqb q (lit "..") then norm_parts absolute rest (p :: acc) else norm_parts absolute rest acc'
        end
      else norm_parts absolute rest (p :: acc)
  end.
Definition initial_slashes (p : str) : str :=
  if starts_with (lit "//") p && negb (starts_with (lit "///") p) then lit "//"
  else if starts_with (lit "/") p then lit "/" else [].
Definition normpath (p : str) : str :=
  match p with
  | [] => lit "."
  | _ => let init := initial_slashes p in
         let parts := norm_parts (match init with [] => false | _ => true end) (split_on SLASH p) [] in
         match init ++ join_with [SLASH] parts with [] => lit "." | q => q end
  end.
(** os.path.abspath; [cwd]: os.getcwd() *)
Definition abspath (cwd p : str) : str :=
  normpath (if starts_with [SLASH] p then p else path_join cwd p).

(** testcaserun.py:177-187 *)
Definition rel_path (cwd out_base_dir file : str) : option str :=
  let abs_file := abspath cwd file in
  let abs_out := abspath cwd out_base_dir in
  if str_eqb (firstn (length abs_out) abs_file) abs_out then Some (skipn (length abs_out + 1) abs_file) else None.

(** ** review.py:244-272 create_index *)

Definition indent (n : nat) : str := repeat SP (4 * n).

(** review.py:258-262: the number of leading parts in common *)
Fixpoint common (a b : list str) : nat :=
  match a, b with
  | x :: a', y :: b' => if str_eqb x y then S (common a' b') else 0
  | _, _ => 0
  end.
(** review.py:265-266 *)
Fixpoint headings (i : nat) (parts : list str) : str :=
  match parts with
  | [] => []
  | p :: rest => indent i ++ lit " * " ++ p ++ [NL] ++ headings (S i) rest
  end.
Definition parts_eqb (a b : list str) : bool := if list_eq_dec (list_eq_dec N.eq_dec) a b then true else false.

Fixpoint index_body (domain : list str) (names : list str) : str :=
  match names with
  | [] => []
  | name :: rest =>
      let parts := split_on SLASH name in
      let name_domain := firstn (length parts - 1) parts in
      let leaf := nth (length parts - 1) parts [] in
      (if parts_eqb name_domain domain then []
       else [NL] ++ headings (common name_domain domain) (skipn (common name_domain domain) name_domain))
      ++ indent (length name_domain) ++ lit " * [" ++ leaf ++ lit "](" ++ name ++ lit ".md)" ++ [NL]
      ++ index_body name_domain rest
  end.
Definition index_text (names : list str) : str := lit "# Books overview:" ++ [NL] ++ index_body [] names ++ [NL].

(** ** tests.py:406-426 and 476-480: garbage and clean *)

Definition is_garbage (not_garbage : list str) (file : str) : bool :=
  negb (existsb (fun ng => str_eqb ng file || (ends_with [SLASH] ng && starts_with ng file)) not_garbage).
(** the names of live files and directories; exp_dir is root_dir *)
Definition live (root : str) (names : list str) : list str :=
  flat_map (fun n => [path_join root (n ++ lit ".md"); path_join root (n ++ lit "/")]) names ++ [path_join root (lit "index.md")].
(** os.walk(root_dir): the files below the root, in some order ([f] in the order of its listing) *)
Definition walk_files (root : str) (f : fs) : list str := map fst (filter (fun e => below root (fst e)) f).
Definition garbage (root : str) (names : list str) (f : fs) : list str :=
  filter (is_garbage (live root names)) (walk_files root f).
Definition clean (root : str) (names : list str) (f : fs) : fs :=
  fold_left (fun f p => remove_file p f) (garbage root names f) f.
