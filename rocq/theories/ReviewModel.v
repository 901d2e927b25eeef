(** booktest/review.py: interactive review, accepting snapshots, --review. *)
From Verif Require Export FsModel ReportsModel.

(** reports.py:26-29 UserRequest *)
Inductive request := NONE | ABORT | FREEZE.

(** the configuration keys read by the review (and the test run); any Python value is taken
    for its truth value *)
Record config := {
  always_interactive : bool; interactive : bool; update : bool; accept : bool;
  cont : bool; fail_fast : bool; point_error_pos : bool
}.

Definition is_fail (r : result) : bool := match r with FAIL => true | _ => false end.

(** review.py:28-82 interact: reads answers until one decides. [None]: the input ended
    (EOFError). The viewers and diff tools that v, l, d, D start are assumed to change no
    file of the project. *)
Fixpoint interact (res : result) (answers : list str) : option (request * list str) :=
  match answers with
  | [] => None
  | a :: rest =>
      if str_eqb a (lit "a") && negb (is_fail res) then Some (FREEZE, rest)
      else if str_eqb a (lit "c") then Some (NONE, rest)
      else if str_eqb a (lit "q") then Some (ABORT, rest)
      else interact res rest
  end.

(** review.py:85-98 freeze_case *)
Definition freeze_case (exp_dir out_dir name : str) (f : fs) : io unit :=
  let exp_dir_name := path_join exp_dir name in
  let exp_file_name := path_join exp_dir (name ++ lit ".md") in
  let out_dir_name := path_join out_dir name in
  let out_file_name := path_join out_dir (name ++ lit ".md") in
  io_bind (if path_exists exp_dir_name f then rmtree exp_dir_name f else Ret tt f) (fun _ f1 =>
  io_bind (rename_file out_file_name exp_file_name f1) (fun _ f2 =>
  if path_exists out_dir_name f2 then rename_path out_dir_name exp_dir_name f2 else Ret tt f2)).

(** review.py:101-125 case_review *)
Definition case_review (exp_dir out_dir name : str) (res : result) (c : config)
  (answers : list str) (f : fs) : io (result * request * list str) :=
  let do_interact := always_interactive c || (negb (is_ok res) && interactive c) in
  let i := if do_interact then interact res answers else Some (NONE, answers) in
  match i with
  | None => Raise f
  | Some (req, rest) =>
      if match req with FREEZE => true | _ => false end
         || (is_ok res && update c)
         || (match res with DIFF => true | _ => false end && accept c)
      then io_bind (freeze_case exp_dir out_dir name f) (fun _ f' => Ret (OK, req, rest) f')
      else Ret (res, req, rest) f
  end.

Section Review.
Context {D : Type} (show_dur : D -> str) (parse_dur : str -> option D) (sp : char -> bool).

Definition is_abort (r : request) : bool := match r with ABORT => true | _ => false end.

(** review.py:296-321: the loop over the recorded cases. [passed] is the list of names that -c
    leaves out. Result: exit code is 0 iff the boolean is true, and the new records. Printing
    is not modelled. *)
Fixpoint review_loop (exp_dir out_dir : str) (c : config) (passed : list str)
  (cases : option (list str)) (records : list (case_rec D)) (abort : bool)
  (answers : list str) (f : fs) : io (bool * list (case_rec D)) :=
  match records with
  | [] => Ret (true, []) f
  | (name, res, dur) :: rest =>
      let chosen := match cases with None => true | Some cs => str_mem name cs end
                    && (negb (cont c) || negb (str_mem name passed)) in
      if negb abort && chosen then
        io_bind (case_review exp_dir out_dir name res c answers f) (fun x f1 =>
          let '(res', req, answers') := x in
          let abort' := is_abort req || (fail_fast c && negb (is_ok res')) in
          io_bind (review_loop exp_dir out_dir c passed cases rest abort' answers' f1) (fun y f2 =>
            Ret (is_ok res' && fst y, (name, res', dur) :: snd y) f2))
      else
        io_bind (review_loop exp_dir out_dir c passed cases rest abort answers f) (fun y f2 =>
          Ret (is_ok res && fst y, (name, res, dur) :: snd y) f2)
  end.

(** review.py:275-331 review; [passed_arg] None as called by --review. True = exit code 0.
    The metrics file must exist (json content not modelled). *)
Definition review (exp_dir out_dir : str) (c : config) (passed_arg : option (list str))
  (cases : option (list str)) (answers : list str) (f : fs) : io bool :=
  if is_file (path_join out_dir (lit "metrics.json")) f then
    let report_txt := path_join out_dir (lit "cases.txt") in
    let records := of_file parse_dur sp (lookup report_txt f) in
    let p := match passed_arg with Some p => p | None => passed records end in
    io_bind (review_loop exp_dir out_dir c p cases records false answers f) (fun y f1 =>
      Ret (fst y) (write_file report_txt (report_text show_dur (snd y)) f1))
  else Raise f.

End Review.
