(** What the commands of the command line may change and what they print. *)
From Verif Require Export CommandsModel ReviewSpec ConsoleSpec RunCaseSpec ReportsSpec SelectSpec.
From Coq Require Import ZArith.

(** the files of the snapshot of a test: root/name.md and everything below root/name/ *)
Definition snapshot_file (root n p : str) : Prop := p = root ++ SLASH :: n ++ lit ".md" \/ exists r, p = root ++ SLASH :: n ++ SLASH :: r.

(** the directory of the outputs *)
Definition outputs (root : str) : str := root ++ SLASH :: lit ".out".

(** the files that a command may change when nothing is accepted *)
Definition may_change (root : str) (names : list str) (cmd : command) (p : str) : Prop :=
  match cmd with
  | CConfig | CGarbage | CPrint | CPath | CView | CList => False
  | CReview | CForget => p = outputs root ++ SLASH :: lit "cases.txt"
  | CClean => path_prefix root p /\ p <> root ++ SLASH :: lit "index.md" /\ forall n, In n names -> ~ snapshot_file root n p
  | CRun => path_prefix (outputs root) p \/ p = root ++ SLASH :: lit "index.md"
  end.

(** nothing is accepted: the user is not asked, -a and -u are not given *)
Definition hands_off (c : config) : Prop := batch c /\ accept c = false /\ update c = false.

(** the options that decide which tests are selected *)
Definition same_selection (c1 c2 : ConfigModel.config) : Prop :=
  forall k, In k [lit "default_tests"; lit "refresh_sources"] -> ConfigModel.dget k c1 = ConfigModel.dget k c2.

(** the lines that -l prints for a list of names *)
Definition listing (names : list str) : str := lines_text (map (fun n => lit "  " ++ n) names).

(** one invocation: the code of the tests as it is then, the configuration, the arguments, the command, the answers *)
Record invocation := { i_body : ConfigModel.config -> str -> fs -> body_run; i_config : ConfigModel.config; i_arg : option (list str); i_cmd : command; i_answers : list str }.

Definition executor := ConfigModel.config -> option (list str) -> command -> list str -> fs -> run (option Z * str).

(** [session exec is f g]: the invocations [is], one after the other, make [g] of [f] *)
Inductive session (exec : (ConfigModel.config -> str -> fs -> body_run) -> executor) : list invocation -> fs -> fs -> Prop :=
| session_nil f : session exec [] f f
| session_cons i is f x g : exec (i_body i) (i_config i) (i_arg i) (i_cmd i) (i_answers i) f = Some x -> session exec is (fs_of x) g -> session exec (i :: is) f g.

(** -l lists the names [L], none of which has a line end *)
Definition lists (exec : executor) (c : ConfigModel.config) (arg : option (list str)) (f : fs) (L : list str) : Prop :=
  Forall (fun n => ~ In NL n) L /\ forall answers, exec c arg CList answers f = Some (Ret (Some 0%Z, listing L) f).

(** a root directory and tests with different names that do not get into each other's way *)
Definition project (root : str) (tests : list (str * meth)) : Prop :=
  plain_dir root /\ separate (map fst tests) /\ NoDup (map fst tests).
