(** booktest/cli.py and the rest of detection.py: which tests and which setup the command booktest works with. *)
From Verif Require Export SuiteModel.
From Verif Require ConfigModel CommandsModel.

Section Cli.
  Variable cc : CharClass.
  Context {M G : Type}.          (* test functions; generator functions that set up and tear down *)

  (** a member of a module __booktest__.py, as far as parse_booktest_setup tells them apart *)
  Inductive setup_member := SFunc (needed : nat) (g : G) | SOther.

  (** detection.py:35-57 parse_booktest_setup: [None]: the exception; the inner [None]: the empty setup *)
  Fixpoint parse_booktest_setup (members : list (str * setup_member)) : option (option G) :=
    match members with
    | [] => Some None
    | (name, m) :: r =>
        if str_eqb name (lit "process_setup_teardown") then
          match m with
          | SFunc 0 g => match parse_booktest_setup r with Some None => Some (Some g) | x => x end
          | SFunc (S _) _ => None
          | SOther => parse_booktest_setup r
          end
        else parse_booktest_setup r
    end.

  (** what os.walk lists below a path (nothing if the path does not exist): directories with their files; a file with the members of
      its module, as a test file and as a setup file *)
  Definition walked := list (str * list (str * (list (str * mod_member M) * list (str * setup_member)))).
  Definition test_files (w : walked) : list (str * list (str * list (str * mod_member M))) :=
    map (fun d => (fst d, map (fun f => (fst f, fst (snd f))) (snd d))) w.

  (** detection.py:100-108 detect_setup: the last one that is found; [None]: an exception; the inner [None]: no setup file *)
  Definition detect_setup_in (files : list (str * (list (str * mod_member M) * list (str * setup_member)))) (acc : option (option (option G)))
    : option (option (option G)) :=
    fold_left (fun acc f =>
      match acc with
      | None => None
      | Some s =>
          if str_eqb (fst f) (lit "__booktest__.py") then
            match parse_booktest_setup (snd (snd f)) with Some x => Some (Some x) | None => None end
          else Some s
      end) files acc.
  Definition detect_setup (w : walked) : option (option (option G)) :=
    fold_left (fun acc d => detect_setup_in (snd d) acc) w (Some None).

  (** cli.py:24; [None]: the AttributeError of split *)
  Definition test_paths (c : ConfigModel.config) : option (list str) :=
    match ConfigModel.dget (lit "test_paths") c with
    | None => Some (split_on CommandsModel.COMMA (lit "test,book,run"))
    | Some (ConfigModel.VStr s) => Some (split_on CommandsModel.COMMA s)
    | Some _ => None
    end.

  (** cli.py:28-36: the tests and the setup *)
  Fixpoint collect (walk : str -> walked) (paths : list str) (setup : option (option G)) : option (list (tests M) * option (option G)) :=
    match paths with
    | [] => Some ([], setup)
    | p :: r =>
        match detect_setup (walk p) with
        | None => None
        | Some s =>
            match collect walk r (match s with Some x => Some x | None => setup end) with
            | None => None
            | Some (t, s') => Some (detect_tests cc (test_files (walk p)) ++ t, s')
            end
        end
    end.
  Definition setup_test_suite (c : ConfigModel.config) (walk : str -> walked) : option (cases M * option (option G)) :=
    match test_paths c with
    | None => None
    | Some paths => match collect walk paths None with Some (t, s) => Some (merge_tests (Several t), s) | None => None end
    end.

  (** tests.py:366-367: without a setup file an empty setup is used *)
  Definition process_setup (s : option (option G)) : option G := match s with Some x => x | None => None end.
End Cli.
Arguments SFunc {G}. Arguments SOther {G}.
Arguments setup_member : clear implicits. Arguments walked : clear implicits.
