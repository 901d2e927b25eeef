(** booktest/tests.py exec_parsed: the commands of the command line. Coverage (--cov), --setup and argparse are left out; a
    parallel run is a parameter. *)
From Verif Require Export ConsoleModel SelectModel FormatModel.
From Verif Require ConfigModel.
From Coq Require Import ZArith.

(** the constants of the option dest='cmd', tests.py:256-327; [CRun]: none given *)
Inductive command := CConfig | CGarbage | CPrint | CPath | CView | CClean | CList | CReview | CForget | CRun.

(** config.get(key, False) used as a condition *)
Definition on (key : str) (c : ConfigModel.config) : bool :=
  match ConfigModel.dget key c with Some v => ConfigModel.truthy v | None => false end.

(** the keys read by review.py, testrun.py, testcaserun.py:36-39, reports.py:111 *)
Definition run_config (c : ConfigModel.config) : config :=
  {| always_interactive := on (lit "always_interactive") c; interactive := on (lit "interactive") c; update := on (lit "update") c;
     accept := on (lit "accept") c; cont := on (lit "continue") c; fail_fast := on (lit "fail_fast") c;
     point_error_pos := on (lit "point_error_pos") c |}.
Definition shown_config (show_nat : nat -> str) (c : ConfigModel.config) : shown :=
  {| verbose := on (lit "verbose") c; print_logs := on (lit "print_logs") c;
     tool := fun k => option_map (ConfigModel.show_cval show_nat) (ConfigModel.dget k c) |}.

Definition COMMA : char := 44%N.

(** tests.py:433-436; [None] as argument: no test cases on the command line. [None] as result: AttributeError *)
Definition selection_of (c : ConfigModel.config) (arg : option (list str)) : option (list str) :=
  match arg with
  | Some s => Some s
  | None =>
      match ConfigModel.dget (lit "default_tests") c with
      | None => Some (split_on COMMA (lit "test,book"))
      | Some (ConfigModel.VStr s) => Some (split_on COMMA s)
      | Some _ => None
      end
  end.

Section Commands.
Context {D : Type} (show_dur : D -> str) (parse_dur : str -> option D) (sp : char -> bool).
Variable show_ms : D -> str.
Variable show_nat : nat -> str.
Variable read_took : str -> option str.
Variable cc : CharClass.
Variable refloat : str -> option str.
(** the tests: tests.py:18-20 *)
Variable o : objects.
Variable tests : list (str * meth).
Variable fuel : nat.
(** what the tests do under a configuration, and how long *)
Variable body : ConfigModel.config -> str -> fs -> body_run.
Variable dur : str -> D.
Variable took : str.
(** os.system of a command line: what it prints and its status. It changes no file. *)
Variable shell : str -> fs -> str * Z.
(** runs.py parallel_run_tests *)
Variable parallel_run : ConfigModel.config -> list str -> list str -> fs -> run (option Z * str).
Variable root : str.

(** tests.py:359 *)
Definition out_of_root : str := path_join root (lit ".out").
(** tests.py:107-108 *)
Definition all_names : list str := map fst tests.

(** tests.py:52-56 test_result_exists, 428-431 *)
Definition stored (c : ConfigModel.config) (f : fs) (n : str) : bool :=
  negb (on (lit "refresh_sources") c) && path_exists (path_join out_of_root (n ++ lit ".bin")) f.

(** tests.py:428-441: the selected cases and those to do; the inner None: an exception *)
Definition chosen (c : ConfigModel.config) (arg : option (list str)) (f : fs) : option (option (list str * list str)) :=
  match selection_of c arg with
  | None => Some None
  | Some selection =>
      match selected_names o tests fuel selection (stored c f) with
      | None => None
      | Some cases =>
          let old := of_file parse_dur sp (lookup (report_file out_of_root) f) in
          Some (Some (cases, snd (cases_to_done_and_todo old (cont (run_config c)) cases)))
      end
  end.

Definition says (s : option Z) (text : str) (f : fs) : run (option Z * str) := Some (Ret (s, text) f).
Definition print_lines (l : list str) : str := flat_map (fun x => x ++ [NL]) l.
(** a snapshot, tests.py:456, 462, 468 *)
Definition shot (name : str) : str := path_join root (name ++ lit ".md").

(** review.py:16-25 run_tool *)
Definition run_tool (c : ConfigModel.config) (name upper args : str) (f : fs) : str * Z :=
  match ConfigModel.dget name c with
  | Some v => shell (ConfigModel.show_cval show_nat v ++ [SP] ++ args) f
  | None => (tool_text (shown_config show_nat c) name upper, 1%Z)
  end.

(** tests.py:443-539, and the exit codes of reports.py:19-23, review.py:294-331. The status of --forget is None. *)
Definition exec_parsed (c : ConfigModel.config) (arg : option (list str)) (cmd : command) (answers : list str) (f : fs)
  : run (option Z * str) :=
  match chosen c arg f with
  | None => None
  | Some None => Some (Raise f)
  | Some (Some (cases, todo)) =>
      match cmd with
      | CConfig => says (Some 0%Z) (flat_map (fun kv => fst kv ++ [EQS] ++ ConfigModel.show_cval show_nat (snd kv) ++ [NL]) c) f
      | CGarbage => says (Some 0%Z) (print_lines (garbage root all_names f)) f
      | CPrint => says (Some 0%Z)
          (flat_map (fun n => if path_exists (shot n) f then fst (shell (lit "cat " ++ shot n) f) else []) todo) f
      | CPath => says (Some 0%Z) (print_lines (map shot todo)) f
      | CView =>
          match filter (fun p => path_exists p f) (map shot cases) with
          | [] => says (Some 0%Z) [] f
          | files => let '(t, s) := run_tool c (lit "md_viewer") (lit "MD_VIEWER") (join_with [SP] files) f in says (Some s) t f
          end
      | CClean => says (Some 0%Z) (print_lines (map (fun p => lit "removed " ++ p) (garbage root all_names f))) (clean root all_names f)
      | CList => says (Some 0%Z) (print_lines (map (fun n => lit "  " ++ n) todo)) f
      | CReview =>
          Some (io_bind (review_out show_dur parse_dur sp show_ms show_nat read_took (shown_config show_nat c) root out_of_root (run_config c)
                           None (Some cases) answers f)
                  (fun x f1 => Ret (Some (if fst x then 0 else -1)%Z, snd x) f1))
      | CForget =>
          let old := of_file parse_dur sp (lookup (report_file out_of_root) f) in
          says None [] (write_file (report_file out_of_root) (report_text show_dur (forget cases old)) f)
      | CRun =>
          if ConfigModel.is_parallel c then parallel_run c cases answers f
          else run_async_out show_dur parse_dur sp show_ms show_nat (shown_config show_nat c) cc refloat root out_of_root out_of_root (run_config c)
                 (body c) dur all_names took cases answers f >>- fun x f1 =>
               let '(rv, _, _, text) := x in Some (Ret (Some (if is_ok rv then 0 else -1)%Z, text) f1)
      end
  end.

(** tests.py:369-404 before it; [None] for the configuration: reading it raised *)
Definition invoke (global : option ConfigModel.config) (environ : list (str * str)) (extra : list (str * ConfigModel.cval)) (p : ConfigModel.flags)
  (arg : option (list str)) (cmd : command) (answers : list str) (f : fs) : run (option Z * str) :=
  match ConfigModel.exec_config cc global f environ extra p with
  | None => Some (Raise f)
  | Some c => exec_parsed c arg cmd answers f
  end.
End Commands.
