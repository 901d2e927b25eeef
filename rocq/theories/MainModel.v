(** booktest/cli.py main, __main__.py and the console script booktest: from the command line to the exit status of the process. *)
From Verif Require Export CommandsModel CliModel.
From Verif Require ConfigModel.
From Coq Require Import ZArith.

(** sys.exit(main()), __main__.py:4 and the script of pyproject.toml: None is 0, an int is cut to 8 bits by the operating system *)
Definition exit_status (s : option Z) : Z := match s with None => 0 | Some z => z mod 256 end%Z.

Section Main.
Context {D : Type} (show_dur : D -> str) (parse_dur : str -> option D) (sp : char -> bool).
Variable show_ms : D -> str.
Variable show_nat : nat -> str.
Variable read_took : str -> option str.
Variable cc : CharClass.
Variable refloat : str -> option str.
Variable o : objects.
Variable fuel : nat.
Variable body : ConfigModel.config -> str -> fs -> body_run.
Variable dur : str -> D.
Variable took : str.
Variable shell : str -> fs -> str * Z.
(** runs.py parallel_run_tests, for these tests and this root directory *)
Variable parallel_run : list (str * meth) -> str -> ConfigModel.config -> list str -> list str -> fs -> run (option Z * str).
(** what is found below a path, cli.py:31-32 *)
Context {G : Type}.
Variable walk : str -> walked meth G.

(** cli.py:38; None: os.path.join raises TypeError (tests.py:359) *)
Definition books_dir (c : ConfigModel.config) : option str :=
  match ConfigModel.dget (lit "books_path") c with
  | None => Some (lit "books")
  | Some (ConfigModel.VStr s) => Some s
  | Some _ => None
  end.

(** cli.py:47-60 main, in a new process. [args]: the test cases on the command line, [p] and [cmd]: its options; arguments that argparse
    rejects by itself, -h and argcomplete are not modelled. An exception ends the process with status 1, argparse's error with 2 (both print to stderr; what was printed before an
    exception is not modelled). None: the process does not end. *)
Definition main (environ : list (str * str)) (p : ConfigModel.flags) (args : list str) (cmd : command) (answers : list str) (f : fs) : option (Z * str * fs) :=
  match ConfigModel.get_default_config cc None f environ with
  | None => Some (1%Z, [], f)
  | Some c0 =>
      match setup_test_suite cc c0 walk with
      | None => Some (1%Z, [], f)
      | Some (tests, _) =>
          if forallb (fun a => str_mem a (ConfigModel.test_choices (map fst tests))) args then
            match books_dir c0 with
            | None => Some (1%Z, [], f)
            | Some root =>
                match invoke show_dur parse_dur sp show_ms show_nat read_took cc refloat o tests fuel body dur took shell (parallel_run tests root) root
                        (Some c0) environ [] p (match args with [] => None | _ => Some args end) cmd answers f with
                | None => None
                | Some (Raise g) => Some (1%Z, [], g)
                | Some (Ret (s, text) g) => Some (exit_status s, text, g)
                end
            end
          else Some (2%Z, [], f)
      end
  end.
End Main.
