(** os.system with the commands that booktest composes from paths: "mkdir -p DIR" (testcaserun.py:48, 59; testrun.py:125; runs.py:313)
    and "rm -rf DIR" (runs.py:39). The path is put into the command line as it is. *)
From Verif Require Export FsModel.

(** files with their texts, and directories; relative paths are those of the working directory. Paths are compared as texts. *)
Record tree := { t_files : fs; t_dirs : list str }.

(** characters that the shell takes literally wherever they stand: letters, digits and _ - . / , + : @ % *)
Definition literal (c : char) : bool :=
  in_range 48 57 c || in_range 65 90 c || in_range 97 122 c || existsb (N.eqb c) (lit "_-./,+:@%").
Definition blank (c : char) : bool := N.eqb c SP || N.eqb c 9%N.
Definition SEMI : char := 59%N.

(** the words of a command: maximal runs without blanks *)
Fixpoint sh_words_from (cur s : str) : list str :=
  match s with
  | [] => match cur with [] => [] | _ => [rev cur] end
  | c :: r => if blank c then match cur with [] => sh_words_from [] r | _ => rev cur :: sh_words_from [] r end else sh_words_from (c :: cur) r
  end.
Definition sh_words (s : str) : list str := sh_words_from [] s.

(** the commands of a command line that has no other characters than literal ones, blanks and ";" ; [None]: not interpreted here *)
Definition sh_parse (s : str) : option (list (list str)) :=
  if forallb (fun c => literal c || blank c || N.eqb c SEMI) s then Some (map sh_words (split_on SEMI s)) else None.

(** a path and the directories above it, outermost first *)
Definition above_end (pre : str) : list str := match pre with [] => [] | c :: _ => if N.eqb c SLASH then [] else [rev pre] end.
Fixpoint above_from (pre s : str) : list str :=
  match s with
  | [] => above_end pre
  | c :: r => if N.eqb c SLASH then above_end pre ++ above_from (c :: pre) r else above_from (c :: pre) r
  end.
Definition above (p : str) : list str := above_from [] p.

(** mkdir -p: the missing ones are made, until a file is in the way *)
Fixpoint make_all (ps : list str) (t : tree) : tree :=
  match ps with
  | [] => t
  | p :: r => if is_file p (t_files t) then t
              else make_all r {| t_files := t_files t; t_dirs := if str_mem p (t_dirs t) then t_dirs t else p :: t_dirs t |}
  end.
(** rm -rf *)
Definition remove_all (p : str) (t : tree) : tree :=
  {| t_files := filter (fun e => negb (str_eqb p (fst e) || below p (fst e))) (t_files t);
     t_dirs := filter (fun d => negb (str_eqb p d || below p d)) (t_dirs t) |}.

Section Shell.
  (** any other command, and what the shell does with command lines that are not interpreted here *)
  Variable other_command : list str -> tree -> tree.
  Variable other_line : str -> tree -> tree.

  Definition operands_ok (ws : list str) : bool := forallb (fun w => negb (starts_with (lit "-") w)) ws.
  Definition sh_command (ws : list str) (t : tree) : tree :=
    match ws with
    | cmd :: opt :: ps =>
        if str_eqb cmd (lit "mkdir") && str_eqb opt (lit "-p") && operands_ok ps then fold_left (fun t p => make_all (above p) t) ps t
        else if str_eqb cmd (lit "rm") && str_eqb opt (lit "-rf") && operands_ok ps then fold_left (fun t p => remove_all p t) ps t
        else other_command ws t
    | _ => other_command ws t
    end.
  Definition os_system (line : str) (t : tree) : tree :=
    match sh_parse line with
    | Some cmds => fold_left (fun t ws => sh_command ws t) cmds t
    | None => other_line line t
    end.

  (** testcaserun.py:45-59: the directories of a case, whose names relative_dir comes from *)
  Definition case_dirs (exp_dir out_dir relative_dir : str) (t : tree) : tree :=
    os_system (lit "mkdir -p " ++ path_join out_dir relative_dir) (os_system (lit "mkdir -p " ++ path_join exp_dir relative_dir) t).

  (** runs.py:22-40 prepare_batch_dir; [None]: ValueError. The last step: os.makedirs *)
  Definition prepare_batch_dir (out_dir : str) (t : tree) : option tree :=
    if length out_dir <? 4 then None
    else
      let d := path_join out_dir (lit ".batches") in
      if is_file d (t_files t) || str_mem d (t_dirs t) then Some (make_all (above d) (os_system (lit "rm -rf " ++ d) t)) else Some t.
End Shell.
