(** booktest/testcaserun.py:145-175, 682-687: images named after their content. *)
From Verif Require Export FormatModel.

(** os.path.basename, and the root of os.path.splitext for a name without slash *)
Definition basename (p : str) : str := snd (path_split p).
Definition DOT : char := 46%N.
Definition splitext_root (b : str) : str :=
  let '(_, rest) := span (fun c => negb (N.eqb c DOT)) (rev b) in
  match rest with
  | [] => b
  | _ :: before => if forallb (N.eqb DOT) before then b else rev before
  end.

Section Image.
  Variable sha : str -> str.          (* hexdigest of the content of a file *)
  Variable cwd : str.
  Variable out_base_dir name : str.   (* testcaserun.py:58-61: the directory of the case's output, and the last part of its name *)

  (** testcaserun.py:145-156 *)
  Definition case_file (filename : str) : str := path_join (path_join out_base_dir name) filename.

  (** testcaserun.py:158-175 rename_file_to_hash *)
  Definition rename_file_to_hash (file postfix : str) (f : fs) : io str :=
    match lookup file f with
    | None => Raise f
    | Some c =>
        let new := path_join (fst (path_split file)) (sha c ++ postfix) in
        io_bind (rename_file file new f) (fun _ f' => Ret new f')
    end.

  (** testcaserun.py:682-687: the line that timage writes *)
  Definition timage_line (file : str) (alt_text : option str) : str :=
    lit "![" ++ match alt_text with Some a => a | None => splitext_root (basename file) end ++ lit "](" ++
    match rel_path cwd out_base_dir file with Some r => r | None => lit "None" end ++ lit ")".

  (** what a test does: it writes a line, or it saves an image to t.file(filename), renames it to its hash and shows it *)
  Inductive shown_item := Line (text : str) | Image (filename postfix : str) (alt_text : option str) (content : str).
  Definition show_item (i : shown_item) (f : fs) : io str :=
    match i with
    | Line text => Ret text f
    | Image filename postfix alt c =>
        io_bind (rename_file_to_hash (case_file filename) postfix (write_file (case_file filename) c f))
          (fun new f' => Ret (timage_line new alt) f')
    end.
  Fixpoint show_items (items : list shown_item) (f : fs) : io (list str) :=
    match items with
    | [] => Ret [] f
    | i :: r => io_bind (show_item i f) (fun l f1 => io_bind (show_items r f1) (fun ls f2 => Ret (l :: ls) f2))
    end.
End Image.
