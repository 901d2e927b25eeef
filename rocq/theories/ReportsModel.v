(** booktest/reports.py: line files and case reports. *)
From Verif Require Export PyStr CaseRunModel.

(** reports.py:38-41 write_lines: the text written *)
Definition write_lines (lines : list str) : str := join_with [NL] lines ++ [NL].

(** reports.py:44-57 read_lines: [None] = the file does not exist *)
Definition read_lines (file : option str) : list str :=
  match file with
  | None => []
  | Some text =>
      let rv := split_on NL (univ_newlines text) in
      match last rv [] with
      | [] => removelast rv
      | _ => rv
      end
  end.

(** reports.py:13-16 the names of the results *)
Definition result_name (r : result) : str :=
  match r with OK => lit "OK" | FAIL => lit "FAIL" | DIFF => lit "DIFF" end.

(** reports.py:139-146 *)
Definition result_of_name (s : str) : option result :=
  if str_eqb s (lit "OK") then Some OK
  else if str_eqb s (lit "DIFF") then Some DIFF
  else if str_eqb s (lit "FAIL") then Some FAIL
  else None.

Definition is_ok (r : result) : bool := match r with OK => true | _ => false end.

(** Durations are floats: [D], printed by [show_dur] (f"{duration}") and read by [parse_dur]
    (float(), None = ValueError). [sp] is str.isspace of a character. *)
Section Reports.
Context {D : Type} (show_dur : D -> str) (parse_dur : str -> option D) (sp : char -> bool).

(** a record (case_name, result, duration) *)
Definition case_rec : Type := str * result * D.
Definition rec_name (c : case_rec) : str := fst (fst c).
Definition rec_result (c : case_rec) : result := snd (fst c).
Definition rec_dur (c : case_rec) : D := snd c.

(** reports.py:157-164 write_case *)
Definition case_line (c : case_rec) : str :=
  rec_name c ++ [TAB] ++ result_name (rec_result c) ++ [TAB] ++ show_dur (rec_dur c) ++ [NL].

(** reports.py:176-182 to_file *)
Definition report_text (cases : list case_rec) : str := flat_map case_line cases.

(** reports.py:133-153: one line of the report; a line that cannot be parsed is logged and
    skipped *)
Definition parse_case (j : str) : option case_rec :=
  match strip sp j with
  | [] => None
  | _ =>
      match split_on TAB j with
      | name :: res :: dur :: _ =>
          match result_of_name res, parse_dur dur with
          | Some r, Some d => Some (name, r, d)
          | _, _ => None
          end
      | _ => None
      end
  end.

(** reports.py:130-155 of_file *)
Definition of_file (file : option str) : list case_rec :=
  flat_map (fun j => match parse_case j with Some c => [c] | None => [] end) (read_lines file).

(** reports.py:101-108 passed, failed, by_name *)
Definition passed (cases : list case_rec) : list str :=
  map rec_name (filter (fun c => is_ok (rec_result c)) cases).
Definition failed (cases : list case_rec) : list str :=
  map rec_name (filter (fun c => negb (is_ok (rec_result c))) cases).
Definition by_name (name : str) (cases : list case_rec) : list case_rec :=
  filter (fun c => str_eqb (rec_name c) name) cases.

(** reports.py:110-123 cases_to_done_and_todo *)
Fixpoint done_and_todo (old : list case_rec) (cases : list str) : list case_rec * list str :=
  match cases with
  | [] => ([], [])
  | i :: cases' =>
      let (done, todo) := done_and_todo old cases' in
      match by_name i old with
      | r :: _ => if is_ok (rec_result r) then (r :: done, todo) else (done, i :: todo)
      | [] => (done, i :: todo)
      end
  end.
Definition cases_to_done_and_todo (old : list case_rec) (cont : bool) (cases : list str)
  : list case_rec * list str :=
  if cont then done_and_todo old cases else ([], cases).

(** tests.py:491-494 --forget *)
Definition forget (cases : list str) (old : list case_rec) : list case_rec :=
  filter (fun c => negb (str_mem (rec_name c) cases)) old.

End Reports.
Arguments case_rec D : clear implicits.
