(** What booktest prints: review.py and the printing in testcaserun.py, testrun.py. What the code of the tests and the tools
    started from the prompt print themselves is left out. *)
From Verif Require Export RunCaseModel.

(** the configuration keys that matter only for printing, and the tools (review.py:16-25), by name *)
Record shown := { verbose : bool; print_logs : bool; tool : str -> option str }.

(** review.py:128-131 start_report *)
Definition start_text : str := [NL] ++ lit "# test results:" ++ [NL] ++ [NL].

(** review.py:134-144 report_case_begin; the title is "test" everywhere *)
Definition begin_text (v : bool) (name : str) : str :=
  if v then lit "test " ++ name ++ lit "..." ++ [NL] ++ [NL] else lit "  " ++ name ++ lit "..".

(** review.py:147-167 report_case_result; [ms]: the number int(took_ms) as printed *)
Definition result_text (v : bool) (name : str) (res : result) (ms : str) : str :=
  (if v then [NL] ++ name ++ lit " " else []) ++
  match res with
  | OK => if v then lit "ok in " ++ ms ++ lit " ms." else ms ++ lit " ms"
  | DIFF => lit "DIFFERED in " ++ ms ++ lit " ms"
  | FAIL => lit "FAILED in " ++ ms ++ lit " ms"
  end ++ [NL].

(** review.py:169-188 maybe_print_logs; [lines]: the lines of the log file *)
Definition logs_text (sh : shown) (name : str) (lines : list str) : str :=
  if print_logs sh then
    match lines with
    | [] => []
    | _ =>
        if verbose sh then [NL] ++ name ++ lit " logs:" ++ [NL] ++ [NL] ++ flat_map (fun l => lit "  " ++ l ++ [NL]) lines
        else [NL] ++ flat_map (fun l => lit "    log: " ++ l ++ [NL]) lines ++ lit "  " ++ name ++ lit ".."
    end
  else [].

(** review.py:36-55: the prompt *)
Definition prompt (v : bool) (res : result) : str :=
  (if v then [] else lit "    ") ++
  (if is_fail res then [] else lit "(a)ccept, ") ++ lit "(c)ontinue, (q)uit, (v)iew, (l)ogs, (d)iff or fast (D)iff".

(** review.py:16-25 run_tool: what it prints itself *)
Definition tool_text (sh : shown) (name upper : str) : str :=
  match tool sh name with
  | Some _ => []
  | None => name ++ lit " is not defined." ++ [NL] ++
            lit "please define it in .booktest file or as env variable BOOKTEST_" ++ upper ++ [NL]
  end.

(** review.py:56-81: the reaction to one answer that does not decide *)
Definition reaction (sh : shown) (a : str) : str :=
  if str_eqb a (lit "v") then tool_text sh (lit "md_viewer") (lit "MD_VIEWER")
  else if str_eqb a (lit "l") then tool_text sh (lit "log_viewer") (lit "LOG_VIEWER")
  else if str_eqb a (lit "d") then tool_text sh (lit "diff_tool") (lit "DIFF_TOOL")
  else if str_eqb a (lit "D") then tool_text sh (lit "fast_diff_tool") (lit "FAST_DIFF_TOOL")
  else [].

(** review.py:28-82 interact: the prompts and reactions until an answer decides *)
Fixpoint interact_text (sh : shown) (res : result) (answers : list str) : str :=
  match answers with
  | [] => prompt (verbose sh) res
  | a :: rest =>
      prompt (verbose sh) res ++
      (if str_eqb a (lit "a") && negb (is_fail res) then []
       else if str_eqb a (lit "c") then []
       else if str_eqb a (lit "q") then []
       else reaction sh a ++ interact_text sh res rest)
  end.

(** review.py:101-112: what case_review prints *)
Definition review_text (sh : shown) (c : config) (res : result) (answers : list str) : str :=
  if always_interactive c || (negb (is_ok res) && interactive c) then interact_text sh res answers else [].

(** review.py:229-241 end_report; [n]: printing of a number, [took]: the milliseconds as printed *)
Definition end_text (n : nat -> str) (fails : list str) (tests : nat) (took : str) : str :=
  [NL] ++
  match fails with
  | [] => n tests ++ lit "/" ++ n tests ++ lit " test succeeded in " ++ took ++ lit " ms" ++ [NL]
  | _ => n (length fails) ++ lit "/" ++ n tests ++ lit " test failed in " ++ took ++ lit " ms:" ++ [NL] ++ [NL] ++
         flat_map (fun x => lit "  " ++ x ++ [NL]) fails
  end ++ [NL].

(** reports.py:71-75 Metrics.to_file: the text of metrics.json *)
Definition metrics_json (took : str) : str := lit "{""tookMs"": " ++ took ++ lit "}".

Section Console.
Context {D : Type} (show_dur : D -> str) (parse_dur : str -> option D) (sp : char -> bool).
(** the text of int(duration); the text of a number; json.load(file)["tookMs"] as printed, None if it raises *)
Variable show_ms : D -> str.
Variable show_nat : nat -> str.
Variable read_took : str -> option str.
Variable sh : shown.

(** ** A sequential run *)
Section Run.
Variable cc : CharClass.
Variable refloat : str -> option str.
Variables exp_dir out_dir report_dir : str.
Variable c : config.
Variable body : str -> fs -> body_run.
Variable dur : str -> D.

(** testcaserun.py:190-201 start, 108-113 report, 222-257 end: as RunCaseModel.run_case, with the printed text *)
Definition run_case_out (name : str) (answers : list str) (f : fs) : run (result * request * list str * str) :=
  Some (case_start exp_dir out_dir name f) >>- fun snapshot f1 =>
  let b := body name f1 in
  match run_body cc refloat snapshot (point_error_pos c) (all_ops b) with
  | None => None
  | Some s =>
      let f2 := case_files out_dir name b s f1 in
      let res := verdict (path_exists (case_path exp_dir name (lit ".md")) f2) s in
      let text := begin_text (verbose sh) name ++ (if verbose sh then rep s else [])
        ++ logs_text sh (snd (path_split name)) (read_lines (lookup (path_join (base_dir out_dir name) (snd (path_split name) ++ lit ".log")) f2))
        ++ result_text (verbose sh) name res (show_ms (dur name))
        ++ review_text sh c res answers ++ (if verbose sh then [NL] else []) in
      Some (case_review (base_dir exp_dir name) (base_dir out_dir name) (snd (path_split name)) res c answers f2) >>- fun x f3 =>
      let '(res', req, answers') := x in
      match res' with
      | FAIL => Some (Ret (x, text) f3)
      | _ => Some (io_bind (save_value out_dir name (match b_exc b with Some _ => None | None => b_value b end) f3) (fun _ f4 => Ret (x, text) f4))
      end
  end.

(** testrun.py:154-179, with the names that failed, their number and the number of tests *)
Fixpoint run_todo_out (todo : list str) (rv : result) (fails : list str) (tests : nat) (recs : list (case_rec D)) (answers : list str) (text : str) (f : fs)
  : run (result * list (case_rec D) * list str * (list str * nat * str)) :=
  match todo with
  | [] => Some (Ret (rv, recs, answers, (fails, tests, text)) f)
  | name :: rest =>
      run_case_out name answers f >>- fun xt f1 =>
      let '(res, req, answers1, t) := xt in
      let recs1 := recs ++ [(name, res, dur name)] in
      let f2 := write_file (report_file report_dir) (report_text show_dur recs1) f1 in
      let rv1 := add_result rv res in
      let fails1 := if is_ok res then fails else fails ++ [name] in
      if is_abort req || (fail_fast c && match fails1 with [] => false | _ => true end)
      then Some (Ret (rv1, recs1, answers1, (fails1, S tests, text ++ t)) f2)
      else run_todo_out rest rv1 fails1 (S tests) recs1 answers1 (text ++ t) f2
  end.

(** testrun.py:112-191 run_async *)
Variable all_names : list str.
Variable took : str.
Definition run_async_out (selected : list str) (answers : list str) (f : fs) : run (result * list (case_rec D) * list str * str) :=
  let old := of_file parse_dur sp (lookup (report_file report_dir) f) in
  let todo := snd (cases_to_done_and_todo old (cont c) selected) in
  let recs := kept old todo in
  run_todo_out todo OK [] 0 recs answers start_text (write_file (report_file report_dir) (report_text show_dur recs) f) >>- fun x f1 =>
  let '(rv, recs', answers', (fails, tests, text)) := x in
  let f2 := write_file (path_join out_dir (lit "metrics.json")) (metrics_json took) f1 in
  Some (Ret (rv, recs', answers', text ++ end_text show_nat fails tests took) (write_file (path_join exp_dir (lit "index.md")) (index_text all_names) f2)).
End Run.

(** ** Review *)

(** review.py:191-226 report_case: what it prints *)
Definition report_case_text (out_dir : str) (c : config) (name : str) (res : result) (d : D) (answers : list str) (f : fs) : str :=
  begin_text (verbose sh) name ++
  (if verbose sh then flat_map (fun l => l ++ [NL]) (read_lines (lookup (path_join out_dir (name ++ lit ".txt")) f)) else []) ++
  logs_text sh name (read_lines (lookup (path_join out_dir (name ++ lit ".log")) f)) ++
  result_text (verbose sh) name res (show_ms d) ++
  review_text sh c res answers ++ (if verbose sh then [NL] else []).

(** review.py:296-321, as ReviewModel.review_loop, with the printed text *)
Fixpoint review_loop_out (exp_dir out_dir : str) (c : config) (passed : list str)
  (cases : option (list str)) (records : list (case_rec D)) (abort : bool)
  (answers : list str) (f : fs) : io (bool * list (case_rec D) * str) :=
  match records with
  | [] => Ret (true, [], []) f
  | (name, res, dur) :: rest =>
      let chosen := match cases with None => true | Some cs => str_mem name cs end
                    && (negb (cont c) || negb (str_mem name passed)) in
      if negb abort && chosen then
        let text := report_case_text out_dir c name res dur answers f in
        io_bind (case_review exp_dir out_dir name res c answers f) (fun x f1 =>
          let '(res', req, answers') := x in
          let abort' := is_abort req || (fail_fast c && negb (is_ok res')) in
          io_bind (review_loop_out exp_dir out_dir c passed cases rest abort' answers' f1) (fun y f2 =>
            Ret (is_ok res' && fst (fst y), (name, res', dur) :: snd (fst y), text ++ snd y) f2))
      else
        io_bind (review_loop_out exp_dir out_dir c passed cases rest abort answers f) (fun y f2 =>
          Ret (is_ok res && fst (fst y), (name, res, dur) :: snd (fst y), snd y) f2)
  end.

(** review.py:275-331 review *)
Definition review_out (exp_dir out_dir : str) (c : config) (passed_arg : option (list str))
  (cases : option (list str)) (answers : list str) (f : fs) : io (bool * str) :=
  match lookup (path_join out_dir (lit "metrics.json")) f with
  | None => Raise f
  | Some m =>
      match read_took m with
      | None => Raise f
      | Some took =>
          let report_txt := path_join out_dir (lit "cases.txt") in
          let records := of_file parse_dur sp (lookup report_txt f) in
          let p := match passed_arg with Some p => p | None => passed records end in
          io_bind (review_loop_out exp_dir out_dir c p cases records false answers f) (fun y f1 =>
            let '(ok, recs, text) := y in
            Ret (ok, start_text ++ text ++ end_text show_nat (failed recs) (length recs) took)
                (write_file report_txt (report_text show_dur recs) f1))
      end
  end.
End Console.
