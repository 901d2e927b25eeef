(** booktest/tests.py:125-344 setup_parser and cli.py:50-63 main: the words of the command line. What argparse does with them follows
    Lib/argparse.py of CPython 3.11 (the line numbers "argparse:" below). *)
From Verif Require Export MainModel.
From Coq Require Import ZArith.
Import ConfigModel.

(** What an option does: help, set an attribute of the parsed arguments to a constant (store_true, store_const), or to its value, which may
    have to be a number. *)
Inductive act := Help | Const (dest : str) (v : cval) | Val (dest : str) (int : bool).
Definition takes_value (a : act) : bool := match a with Val _ _ => true | _ => false end.

(** tests.py:126-326, after the -h of argparse, in the order of the calls *)
Definition on_off (k : string) : str * act := (lit "-" ++ lit k, Const (lit k) (VBool true)).
Definition option_strings : list (str * act) :=
  [(lit "-h", Help); (lit "--help", Help);
   on_off "i"; on_off "I"; on_off "v"; on_off "L"; on_off "f"; on_off "c"; on_off "r"; on_off "u"; on_off "a"; on_off "p";
   (lit "-p1", Const (lit "p") (VInt 1)); (lit "-p2", Const (lit "p") (VInt 2)); (lit "-p3", Const (lit "p") (VInt 3));
   (lit "-p4", Const (lit "p") (VInt 4)); (lit "-p6", Const (lit "p") (VInt 6)); (lit "-p8", Const (lit "p") (VInt 8));
   (lit "-p16", Const (lit "p") (VStr (lit "16"))); (lit "--parallel-count", Val (lit "p") true);
   on_off "s"; on_off "S"; (lit "--cov", Const (lit "cov") (VBool true));
   (lit "-md-viewer", Val (lit "md_viewer") false); (lit "-diff-tool", Val (lit "diff_tool") false);
   (lit "-l", Const (lit "cmd") (VStr (lit "-l"))); (lit "--setup", Const (lit "cmd") (VStr (lit "--setup")));
   (lit "--garbage", Const (lit "cmd") (VStr (lit "--garbage"))); (lit "--clean", Const (lit "cmd") (VStr (lit "--clean")));
   (lit "--config", Const (lit "cmd") (VStr (lit "--config"))); (lit "--print", Const (lit "cmd") (VStr (lit "--print")));
   (lit "--view", Const (lit "cmd") (VStr (lit "--view"))); (lit "--path", Const (lit "cmd") (VStr (lit "--path")));
   (lit "--review", Const (lit "cmd") (VStr (lit "--review"))); (lit "-w", Const (lit "cmd") (VStr (lit "--review")));
   (lit "--forget", Const (lit "cmd") (VStr (lit "--forget")))].

Section Args.
(** [int_of]: int() of a text, None: ValueError; numbers below 0 are not modelled. [digit]: \d of a regular expression *)
Variable int_of : str -> option nat.
Variable digit : char -> bool.

(** how a word is read: a name or value, an option (with its name, whether "=" follows it, and the text after it in the word, if any), an
    option that does not exist, or an abbreviation of several *)
Inductive reading := Word | Opt (a : act) (name : str) (eq : bool) (explicit : option str) | Unknown | Ambiguous.

(** str.partition at "=" *)
Definition before_eq (w : str) : str := fst (span (fun c => negb (N.eqb c EQS)) w).
Definition after_eq (w : str) : option str := match snd (span (fun c => negb (N.eqb c EQS)) w) with [] => None | _ :: e => Some e end.

(** argparse:2300-2339 _get_option_tuples *)
Definition get_option_tuples (w : str) : list reading :=
  match w with
  | _ :: c :: _ =>
      if N.eqb c MINUS then
        map (fun oa => Opt (snd oa) (fst oa) (match after_eq w with Some _ => true | None => false end) (after_eq w))
          (filter (fun oa => starts_with (before_eq w) (fst oa)) option_strings)
      else
        flat_map (fun oa => if str_eqb (fst oa) (firstn 2 w) then [Opt (snd oa) (fst oa) false (Some (skipn 2 w))]
                            else if starts_with w (fst oa) then [Opt (snd oa) (fst oa) false None] else []) option_strings
  | _ => []
  end.

(** argparse:1386 the regular expression ^-\d+$|^-\d*\.\d+$ ($ also matches before a line break at the end) *)
Definition negative_number (w : str) : bool :=
  let w := match rev w with c :: r => if N.eqb c NL then rev r else w | [] => w end in
  match w with
  | m :: r =>
      let '(_, rest) := span digit r in
      N.eqb m MINUS &&
      match r, rest with
      | _ :: _, [] => true
      | _, d :: ((_ :: _) as fraction) => N.eqb d 46 && forallb digit fraction
      | _, _ => false
      end
  | [] => false
  end.

(** argparse:2243-2298 _parse_optional *)
Definition parse_optional (w : str) : reading :=
  match w with
  | [] => Word
  | m :: t =>
      if negb (N.eqb m MINUS) then Word
      else match dget w option_strings with
      | Some a => Opt a w false None
      | None =>
          match t with
          | [] => Word
          | _ =>
              match after_eq w, dget (before_eq w) option_strings with
              | Some e, Some a => Opt a (before_eq w) true (Some e)
              | _, _ =>
                  match get_option_tuples w with
                  | [x] => x
                  | [] => if negative_number w then Word else if existsb (N.eqb SP) w then Word else Unknown
                  | _ => Ambiguous
                  end
              end
          end
      end
  end.

(** argparse:1936-1959: what every word is; None: an ambiguous option. [PDash]: the first "--" *)
Inductive piece := PArg (w : str) | PDash | POpt (a : act) (name : str) (eq : bool) (explicit : option str) | PUnknown.
Fixpoint pieces (l : list str) : option (list piece) :=
  match l with
  | [] => Some []
  | w :: r =>
      if str_eqb w (lit "--") then Some (PDash :: map PArg r)
      else match parse_optional w, pieces r with
           | Word, Some ps => Some (PArg w :: ps)
           | Opt a o eq e, Some ps => Some (POpt a o eq e :: ps)
           | Unknown, Some ps => Some (PUnknown :: ps)
           | _, _ => None
           end
  end.

(** argparse:1986-2062 consume_optional, for an option with a text after it in its word. [GErr]: an error; [GDone]: the actions to take, and
    whether the rest of the word is left over; [GOpen]: actions to take, and an option at the end of the word *)
Inductive grouped := GErr | GDone (acts : list (act * option str)) (extra : bool) | GOpen (acts : list (act * option str)) (last : act).
Definition also (a : act) (g : grouped) : grouped :=
  match g with GErr => GErr | GDone l x => GDone ((a, None) :: l) x | GOpen l b => GOpen ((a, None) :: l) b end.
Fixpoint group (a : act) (name : str) (eq : bool) (e : str) : grouped :=
  if takes_value a then GDone [(a, Some e)] false
  else match name with
       | _ :: c :: _ =>
           if N.eqb c MINUS then GErr
           else match e with
                | [] => GErr
                | x :: e1 =>
                    if eq || N.eqb x MINUS then GErr
                    else match dget [MINUS; x] option_strings with
                         | None => GDone [(a, None)] true
                         | Some b =>
                             match e1 with
                             | [] => GOpen [(a, None)] b
                             | y :: e2 => also a (if N.eqb y EQS then group b [MINUS; x] true e2 else group b [MINUS; x] false e1)
                             end
                         end
                end
       | _ => GErr
       end.

(** argparse:1986-2069 consume_optional: the actions, whether a text is left over, and the pieces after it; None: an error *)
Definition consume_optional (a : act) (name : str) (eq : bool) (e : option str) (r : list piece) : option (list (act * option str) * bool * list piece) :=
  let open (acts : list (act * option str)) (b : act) :=
    if takes_value b then match r with PArg v :: r' => Some (acts ++ [(b, Some v)], false, r') | _ => None end
    else Some (acts ++ [(b, None)], false, r) in
  match e with
  | None => open [] a
  | Some t => match group a name eq t with GErr => None | GDone acts x => Some (acts, x, r) | GOpen acts b => open acts b end
  end.

(** the parsed arguments: attributes, and the test cases (None: the default "*") *)
Inductive outcome := Parsed (ns : config) (names : option (list str)) | Rejected | Helped | NoFuel.

(** argparse:2475-2560, 1965-1983 take_action for options; None: an error; the inner None: the help is printed *)
Fixpoint take_actions (l : list (act * option str)) (ns : config) : option (option config) :=
  match l with
  | [] => Some (Some ns)
  | (Help, _) :: _ => Some None
  | (Const d v, _) :: r => take_actions r (dput d v ns)
  | (Val d int, Some w) :: r =>
      if int then match int_of w with Some n => take_actions r (dput d (VInt n) ns) | None => None end
      else take_actions r (dput d (VStr w) ns)
  | (Val _ _, None) :: _ => None
  end.

(** the test cases from the words, argparse:2475-2507, 2524-2526; None: an error *)
Variable choices : list str.
Definition take_names (run : list piece) : option (option (list str)) :=
  let ws := flat_map (fun p => match p with PArg w => [w] | _ => [] end) run in
  if forallb (fun w => str_mem w choices) ws then Some (match ws with [] => None | _ => Some ws end) else None.

Definition is_option (p : piece) : bool := match p with POpt _ _ _ _ | PUnknown => true | _ => false end.
Fixpoint span_args (l : list piece) : list piece * list piece :=
  match l with
  | [] => ([], [])
  | p :: r => if is_option p then ([], l) else let (a, b) := span_args r in (p :: a, b)
  end.

(** argparse:2096-2134, 1893-1899. [names]: the test cases, once they were read; [extras]: words were left over *)
Fixpoint parse_loop (fuel : nat) (l : list piece) (names : option (option (list str))) (extras : bool) (ns : config) : outcome :=
  match fuel with
  | 0 => NoFuel
  | S fuel =>
      if existsb is_option l then
        match l with
        | POpt a o eq e :: r =>
            match consume_optional a o eq e r with
            | None => Rejected
            | Some (acts, x, r') =>
                match take_actions acts ns with
                | None => Rejected
                | Some None => Helped
                | Some (Some ns') => parse_loop fuel r' names (extras || x) ns'
                end
            end
        | PUnknown :: r => parse_loop fuel r names true ns
        | _ =>
            let (run, rest) := span_args l in
            match names with
            | None => match take_names run with None => Rejected | Some x => parse_loop fuel rest (Some x) extras ns end
            | Some _ => parse_loop fuel rest names true ns
            end
        end
      else
        match names with
        | None => match take_names l with None => Rejected | Some x => if extras then Rejected else Parsed ns x end
        | Some x => if extras || negb (match l with [] => true | _ => false end) then Rejected else Parsed ns x
        end
  end.

(** cli.py:56 parser.parse_args *)
Definition parse_args (argv : list str) : outcome :=
  match pieces argv with
  | None => Rejected
  | Some l => parse_loop (S (length l)) l None false []
  end.
End Args.

(** the attributes as tests.py:375-404, 443 read them *)
Definition attr_on (k : string) (ns : config) : bool := match dget (lit k) ns with Some v => truthy v | None => false end.
Definition attr_text (k : string) (ns : config) : str := match dget (lit k) ns with Some (VStr s) => s | _ => [] end.
Definition flags_of (ns : config) : flags :=
  {| f_i := attr_on "i" ns; f_I := attr_on "I" ns; f_v := attr_on "v" ns; f_L := attr_on "L" ns; f_f := attr_on "f" ns; f_c := attr_on "c" ns;
     f_r := attr_on "r" ns; f_u := attr_on "u" ns; f_a := attr_on "a" ns;
     f_p := match dget (lit "p") ns with Some v => v | None => VBool false end;
     f_s := attr_on "s" ns; f_S := attr_on "S" ns; f_cov := attr_on "cov" ns;
     f_md_viewer := attr_text "md_viewer" ns; f_diff_tool := attr_text "diff_tool" ns |}.

(** tests.py:443-558: the commands; None: --setup *)
Definition command_of (ns : config) : option command :=
  let c := attr_text "cmd" ns in
  if str_eqb c (lit "--setup") then None
  else Some (if str_eqb c (lit "--config") then CConfig else if str_eqb c (lit "--garbage") then CGarbage
             else if str_eqb c (lit "--print") then CPrint else if str_eqb c (lit "--path") then CPath else if str_eqb c (lit "--view") then CView
             else if str_eqb c (lit "--clean") then CClean else if str_eqb c (lit "-l") then CList else if str_eqb c (lit "--review") then CReview
             else if str_eqb c (lit "--forget") then CForget else CRun).

(** setup.py:73-114 setup_booktest with the configuration [c] (the object that tests.py:369-404 changed): what it prints, without what the
    terminal echoes, and the file; None: EOFError, there are not enough answers *)
Definition setup_prompt (show_nat : nat -> str) (c : config) (key answer : str) : str :=
  flat_map (fun l => l ++ [NL]) (config_comments key) ++ [NL] ++
  lit "specify " ++ key ++ lit " (default '" ++ prompt_value show_nat c key [] ++ lit "'):" ++
  [NL] ++ key ++ [EQS] ++ prompt_value show_nat c key answer ++ [NL; NL].
Definition setup_booktest (show_nat : nat -> str) (c : config) (answers : list str) (f : fs) : io (option Z * str) :=
  if Nat.ltb (length answers) (length setup_keys) then Raise f
  else Ret (Some 0%Z, [NL] ++ lit "setup asks you to specify various tools and paths for booktest" ++ [NL] ++
                      lit "==============================================================" ++ [NL; NL] ++
                      flat_map (fun ka => setup_prompt show_nat c (fst ka) (snd ka)) (combine setup_keys answers) ++
                      lit "updated .booktest" ++ [NL])
           (write_file (lit ".booktest") (setup_file show_nat c answers) f).

Section Main.
Context {D : Type} (show_dur : D -> str) (parse_dur : str -> option D) (sp : char -> bool).
Variable show_ms : D -> str.
Variable show_nat : nat -> str.
Variable read_took : str -> option str.
Variable cc : CharClass.
Variable refloat : str -> option str.
Variable o : objects.
Variable fuel : nat.
Variable body : config -> str -> fs -> body_run.
Variable dur : str -> D.
Variable took : str.
Variable shell : str -> fs -> str * Z.
Variable parallel_run : list (str * meth) -> str -> config -> list str -> list str -> fs -> run (option Z * str).
Context {G : Type}.
Variable walk : str -> walked meth G.
Variable int_of : str -> option nat.
Variable digit : char -> bool.
(** what -h prints *)
Variable help : list str -> str.

(** cli.py:47-63 main, in a new process with the command line [argv]; otherwise as MainModel.main. argcomplete is left out. *)
Definition main_argv (environ : list (str * str)) (argv : list str) (answers : list str) (f : fs) : option (Z * str * fs) :=
  match get_default_config cc None f environ with
  | None => Some (1%Z, [], f)
  | Some c0 =>
      match setup_test_suite cc c0 walk with
      | None => Some (1%Z, [], f)
      | Some (tests, _) =>
          match parse_args int_of digit (test_choices (map fst tests)) argv with
          | NoFuel => None
          | Rejected => Some (2%Z, [], f)
          | Helped => Some (0%Z, help (test_choices (map fst tests)), f)
          | Parsed ns names =>
              match books_dir c0 with
              | None => Some (1%Z, [], f)
              | Some root =>
                  let p := flags_of ns in
                  let r :=
                    match command_of ns with
                    | Some cmd => invoke show_dur parse_dur sp show_ms show_nat read_took cc refloat o tests fuel body dur took shell (parallel_run tests root) root
                                    (Some c0) environ [] p names cmd answers f
                    | None =>
                        match exec_config cc (Some c0) f environ [] p with
                        | None => Some (Raise f)
                        | Some c =>
                            match chosen parse_dur sp o tests fuel root c names f with
                            | None => None
                            | Some None => Some (Raise f)
                            | Some (Some _) => Some (setup_booktest show_nat c answers f)
                            end
                        end
                    end in
                  match r with
                  | None => None
                  | Some (Raise g) => Some (1%Z, [], g)
                  | Some (Ret (s, text) g) => Some (exit_status s, text, g)
                  end
              end
          end
      end
  end.
End Main.
