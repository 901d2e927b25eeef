(** booktest/config.py, setup.py and the configuration part of tests.py exec_parsed. *)
From Verif Require Export FsModel.

(** ** dicts: association lists in insertion order *)
Section Dict.
  Context {V : Type}.
  Fixpoint dget (k : str) (d : list (str * V)) : option V :=
    match d with
    | [] => None
    | (m, v) :: r => if str_eqb k m then Some v else dget k r
    end.
  Fixpoint dput (k : str) (v : V) (d : list (str * V)) : list (str * V) :=
    match d with
    | [] => [(k, v)]
    | (m, w) :: r => if str_eqb k m then (m, v) :: r else (m, w) :: dput k v r
    end.
End Dict.

(** configuration values *)
Inductive cval := VBool (b : bool) | VStr (s : str) | VInt (n : nat).
Definition config := list (str * cval).

(** config.py:11-17 *)
Definition parse_config_value (value : str) : cval :=
  if str_eqb value (lit "1") then VBool true
  else if str_eqb value (lit "0") then VBool false
  else VStr value.

(** [for line in f]: the lines with their line breaks; no last line if the text ends in one *)
Fixpoint file_lines (s : str) : list str :=
  match s with
  | [] => []
  | c :: s' => if N.eqb c NL then [c] :: file_lines s'
               else match file_lines s' with
                    | [] => [[c]]
                    | l :: ls => (c :: l) :: ls
                    end
  end.

(** [s.split('=', 1)] with two parts, None otherwise *)
Definition split_eq (s : str) : option (str * str) :=
  match span (fun c => negb (N.eqb c EQS)) s with
  | (k, _ :: v) => Some (k, v)
  | (_, []) => None
  end.

Section Config.
  Variable cc : CharClass.

  (** config.py:24-27, one line; None: ValueError (not enough values to unpack) *)
  Definition parse_line (line : str) (c : config) : option config :=
    if starts_with [HASH] line || match strip (cc_space cc) line with [] => true | _ => false end then Some c
    else match split_eq (strip (cc_space cc) line) with
         | Some (k, v) => Some (dput k (parse_config_value v) c)
         | None => None
         end.

  Fixpoint parse_lines (lines : list str) (c : config) : option config :=
    match lines with
    | [] => Some c
    | l :: rest => match parse_line l c with Some c' => parse_lines rest c' | None => None end
    end.

  (** config.py:20-27; [file]: the stored text, None if the file does not exist *)
  Definition parse_config_file (file : option str) (c : config) : option config :=
    match file with
    | None => Some c
    | Some text => parse_lines (file_lines (univ_newlines text)) c
    end.

  (** config.py:38-41; [environ]: os.environ.items() *)
  Definition env_prefix : str := lit "BOOKTEST_".              (* review.py:13 *)
  Fixpoint add_env (environ : list (str * str)) (c : config) : config :=
    match environ with
    | [] => c
    | (k, v) :: rest =>
        add_env rest (if starts_with env_prefix k
                      then dput (str_lower cc (skipn (length env_prefix) k)) (parse_config_value v) c else c)
    end.

  (** config.py:30-43; [f]: files by the path given to open(), relative to the working directory.
      open() does not expand "~". *)
  Definition resolve_default_config (f : fs) (environ : list (str * str)) (config_file : str) : option config :=
    match parse_config_file (lookup (lit "~/.booktest") f) [] with
    | None => None
    | Some c =>
        match parse_config_file (lookup config_file f) c with
        | None => None
        | Some c' => Some (add_env environ c')
        end
    end.

  (** config.py:46-50; the state is the global DEFAULT_CONFIG *)
  Definition get_default_config (global : option config) (f : fs) (environ : list (str * str)) : option config :=
    match global with
    | Some c => Some c
    | None => resolve_default_config f environ (lit ".booktest")
    end.
End Config.

(** ** setup.py *)

(** setup.py:4-60 config_comments; every comment is a list of lines starting with '#', here with
    the line breaks left out *)
Definition config_comments (key : str) : list str :=
  if str_eqb key (lit "diff_tool") then
    [lit "#"; lit "# diff_tool is the tool used to see changes in the results"; lit "#";
     lit "# one option is Meld: https://meldmerge.org/"; lit "#";
     lit "# you can install 'meld' in Debian based distros with"; lit "#";
     lit "#   'sudo apt install meld'"; lit "#"]
  else if str_eqb key (lit "fast_diff_tool") then
    [lit "#"; lit "#"; lit "# fast_diff_tool is used to see changes in the results quickly"; lit "#";
     lit "# default option is diff, which should be present in most systems"; lit "#"]
  else if str_eqb key (lit "md_viewer") then
    [lit "#"; lit "# md_viewer is the tool used to view the md content, like tables, lists, links and images"; lit "#";
     lit "# one option is retext, which is an md editor"; lit "#";
     lit "# Retext - https://github.com/retext-project/retext"; lit "#";
     lit "# you can install 'retext' in Debian based distros with"; lit "#";
     lit "#   'sudo apt install retext'"; lit "#"]
  else if str_eqb key (lit "log_viewer") then
    [lit "#"; lit "#"; lit "# log_viewer is used to view the logs"; lit "#";
     lit "# one option is less, which should be present in most systems"; lit "#"]
  else if str_eqb key (lit "test_paths") then
    [lit "#"; lit "# booktest automatically detects tests in the default_tests directories"; lit "#"]
  else if str_eqb key (lit "default_tests") then
    [lit "#"; lit "# booktest will run all default_tests test cases, if no argument is given"; lit "#"]
  else
    [lit "#"; lit "# books_path specifies directory, where results and books are stored"; lit "#"].

(** setup.py:62-70 *)
Definition config_defaults (key : str) : str :=
  if str_eqb key (lit "diff_tool") then lit "meld"
  else if str_eqb key (lit "fast_diff_tool") then lit "diff"
  else if str_eqb key (lit "md_viewer") then lit "retext --preview"
  else if str_eqb key (lit "log_viewer") then lit "less"
  else if str_eqb key (lit "test_paths") then lit "test,book,run"
  else if str_eqb key (lit "default_tests") then lit "test,book"
  else lit "books".

(** setup.py:100-106: the keys asked for, in order *)
Definition setup_keys : list str :=
  [lit "diff_tool"; lit "fast_diff_tool"; lit "md_viewer"; lit "log_viewer"; lit "test_paths"; lit "default_tests";
   lit "books_path"].

(** f"{value}"; [show_nat]: str of a number *)
Definition show_cval (show_nat : nat -> str) (v : cval) : str :=
  match v with
  | VBool true => lit "True"
  | VBool false => lit "False"
  | VStr s => s
  | VInt n => show_nat n
  end.

(** setup.py:73-88 prompt_config: the value that is used, as it is printed *)
Definition prompt_value (show_nat : nat -> str) (c : config) (key answer : str) : str :=
  match answer with
  | [] => match dget key c with Some v => show_cval show_nat v | None => config_defaults key end
  | _ => answer
  end.

(** setup.py:108-111 *)
Definition setup_item (key value : str) : str :=
  flat_map (fun l => l ++ [NL]) (config_comments key) ++ key ++ [EQS] ++ value ++ [NL; NL].
Fixpoint setup_text (items : list (str * str)) : str :=
  match items with
  | [] => []
  | (k, v) :: rest => setup_item k v ++ setup_text rest
  end.
Definition setup_file (show_nat : nat -> str) (c : config) (answers : list str) : str :=
  setup_text (map (fun ka => (fst ka, prompt_value show_nat c (fst ka) (snd ka))) (combine setup_keys answers)).

(** ** tests.py exec_parsed, configuration *)

Definition truthy (v : cval) : bool :=
  match v with VBool b => b | VStr s => match s with [] => false | _ => true end | VInt n => negb (Nat.eqb n 0) end.

(** the parsed command line; [f_p] is parsed.p (False, True, a number or '16') *)
Record flags := {
  f_i : bool; f_I : bool; f_v : bool; f_L : bool; f_f : bool; f_c : bool; f_r : bool; f_u : bool;
  f_a : bool; f_p : cval; f_s : bool; f_S : bool; f_cov : bool; f_md_viewer : str; f_diff_tool : str }.

(** tests.py:375-404 as a list of settings *)
Definition flag_settings (p : flags) : list (str * cval) :=
  let on (b : bool) k := if b then [(lit k, VBool true)] else [] in
  let text (s : str) k := match s with [] => [] | _ => [(lit k, VStr s)] end in
  on (f_i p) "interactive"%string ++ on (f_I p) "always_interactive"%string ++ on (f_v p) "verbose"%string
  ++ on (f_L p) "print_logs"%string ++ on (f_f p) "fail_fast"%string ++ on (f_c p) "continue"%string
  ++ on (f_r p) "refresh_sources"%string ++ on (f_u p) "update"%string ++ on (f_a p) "accept"%string
  ++ (if truthy (f_p p) then [(lit "parallel", f_p p)] else [])
  ++ on (f_s p) "complete_snapshots"%string ++ on (f_S p) "refresh_snapshots"%string ++ on (f_cov p) "coverage"%string
  ++ text (f_md_viewer p) "md_viewer"%string ++ text (f_diff_tool p) "diff_tool"%string.

Definition put_all (settings : list (str * cval)) (c : config) : config :=
  fold_left (fun c kv => dput (fst kv) (snd kv) c) settings c.

(** tests.py:369-404: the configuration an invocation works with. It is the object DEFAULT_CONFIG
    itself, so it is also the global state afterwards. None: reading the configuration raised. *)
Definition exec_config (cc : CharClass) (global : option config) (f : fs) (environ : list (str * str))
  (extra : list (str * cval)) (p : flags) : option config :=
  match get_default_config cc global f environ with
  | None => None
  | Some c => Some (put_all (flag_settings p) (put_all extra c))
  end.

(** invocations one after the other in one process: the configurations they work with *)
Fixpoint exec_many (cc : CharClass) (global : option config) (f : fs) (environ : list (str * str))
  (calls : list (list (str * cval) * flags)) : list (option config) :=
  match calls with
  | [] => []
  | (extra, p) :: rest =>
      let c := exec_config cc global f environ extra p in
      c :: exec_many cc (match c with Some x => Some x | None => global end) f environ rest
  end.

(** runs.py:118-122: the number of processes; [cpus]: os.cpu_count(), [int_of]: int() of a string.
    None: ValueError *)
Definition process_count (cpus : nat) (int_of : str -> option nat) (c : config) : option nat :=
  match dget (lit "parallel") c with
  | None => Some cpus
  | Some (VBool true) => Some cpus
  | Some (VBool false) => Some 0
  | Some (VStr s) => if str_eqb s (lit "True") then Some cpus else int_of s
  | Some (VInt n) => Some n
  end.

(** tests.py:497-498: whether the run is parallel *)
Definition is_parallel (c : config) : bool :=
  match dget (lit "parallel") c with None => false | Some v => truthy v end.

(** ** tests.py:329-339: the arguments the command line accepts *)

(** the inner loop: the prefixes made from the parts of a name *)
Fixpoint prefixes (prefix : str) (parts : list str) : list str :=
  match parts with
  | [] => []
  | p :: rest =>
      let prefix' := (match prefix with [] => [] | _ => prefix ++ [SLASH] end) ++ p in
      prefix' :: prefixes prefix' rest
  end.
Definition add_choice (choices : list str) (prefix : str) : list str :=
  if str_mem prefix choices then choices else choices ++ [prefix; lit "skip:" ++ prefix].
Definition test_choices (names : list str) : list str :=
  fold_left (fun ch name => fold_left add_choice (prefixes [] (split_on SLASH name)) ch) names [lit "*"].
