(** Notions for stating properties of whole runs on the file system. *)
From Verif Require Export RunCaseModel ReviewSpec CaseRunSpec RepeatModel.

(** the file system at the end, whether there was an exception or not *)
Definition fs_of {A} (x : io A) : fs := match x with Ret _ f => f | Raise f => f end.

(** a path name of non-empty components, none of them with a slash *)
Definition proper (n : str) : Prop :=
  exists parts, parts <> [] /\ Forall (fun p => p <> [] /\ ~ In SLASH p) parts /\ n = join_with [SLASH] parts.

(** the names of the tests of a project: paths without dots (they come from Python module, class and function names), none of
    which is a directory above another, and not the two names that booktest itself uses *)
Definition case_name (n : str) : Prop := proper n /\ ~ In DOT n /\ n <> lit "cases" /\ n <> lit "index".
Definition separate (names : list str) : Prop :=
  Forall case_name names /\ forall n m, In n names -> In m names -> path_prefix n m -> n = m.

(** the files of the case [n] below [root]: [n].md and so on, and everything below the directories [n] and [n].tmp *)
Definition case_exts : list str := [[]; lit ".md"; lit ".txt"; lit ".log"; lit ".bin"; lit ".tmp"].
Definition area (root n p : str) : Prop := exists x, In x case_exts /\ path_prefix (root ++ SLASH :: n ++ x) p.

(** nothing of the wrong kind (a file for a directory or the other way round) stands where the case [n] has its files *)
Definition ready (E O n : str) (f : fs) : Prop :=
  lookup (E ++ SLASH :: n) f = None /\ is_dir (E ++ SLASH :: n ++ lit ".md") f = false /\
  lookup (O ++ SLASH :: n) f = None /\ lookup (O ++ SLASH :: n ++ lit ".tmp") f = None /\
  forall x, In x [lit ".md"; lit ".txt"; lit ".log"; lit ".bin"] -> is_dir (O ++ SLASH :: n ++ x) f = false.

(** the last text written to [r] *)
Definition last_write (r : str) (files : list (str * str)) : option str := lookup r (rev files).

(** the user is not asked *)
Definition batch (c : config) : Prop := always_interactive c = false /\ interactive c = false.
(** accepted without asking: -u on OK, -a on DIFF *)
Definition auto (c : config) (v : result) : bool := match v with OK => update c | DIFF => accept c | FAIL => false end.

(** [h] is the file system [f] after a run of the case [n] with the code [b], which left the state [s]; [frozen]: its output was
    accepted, [res]: its result *)
Record case_ran (E O n : str) (b : body_run) (s : state) (frozen : bool) (res : result) (f h : fs) : Prop := {
  cr_snapshot : lookup (E ++ SLASH :: n ++ lit ".md") h = if frozen then Some (out s) else lookup (E ++ SLASH :: n ++ lit ".md") f;
  cr_files : forall r, lookup (E ++ SLASH :: n ++ SLASH :: r) h = if frozen then last_write r (b_files b) else lookup (E ++ SLASH :: n ++ SLASH :: r) f;
  cr_md : lookup (O ++ SLASH :: n ++ lit ".md") h = if frozen then None else Some (out s);
  cr_dir : forall r, lookup (O ++ SLASH :: n ++ SLASH :: r) h = if frozen then None else last_write r (b_files b);
  cr_txt : lookup (O ++ SLASH :: n ++ lit ".txt") h = Some (rep s);
  cr_log : lookup (O ++ SLASH :: n ++ lit ".log") h = Some (b_log b);
  cr_tmp : forall r, lookup (O ++ SLASH :: n ++ lit ".tmp" ++ SLASH :: r) h = last_write r (b_tmp b);
  cr_bin : lookup (O ++ SLASH :: n ++ lit ".bin") h =
    if is_fail res then lookup (O ++ SLASH :: n ++ lit ".bin") f else match b_exc b with Some _ => None | None => b_value b end;
  cr_rest : forall p, ~ case_file E n p -> ~ area O n p -> lookup p h = lookup p f
}.

(** Code of a test to which C12 applies: it raises no exception, writes the same whatever the snapshot is, seeks only lines that
    it writes there, and every piece of text that it writes ends on a token boundary. *)
Definition steady (cc : CharClass) (b : body_run) : Prop :=
  b_exc b = None /\ repeatable cc [] (b_ops b) /\ ~ In CR (concat (ops_pieces cc [] (b_ops b))) /\
  exists ts, piece_tokens cc (ops_pieces cc [] (b_ops b)) = Some ts /\ well_pieced cc ts.

(** the output files of the case [n] are the same *)
Definition same_out (O n : str) (f g : fs) : Prop :=
  (forall x, In x [lit ".md"; lit ".txt"; lit ".log"] -> lookup (O ++ SLASH :: n ++ x) f = lookup (O ++ SLASH :: n ++ x) g) /\
  (forall r, lookup (O ++ SLASH :: n ++ SLASH :: r) f = lookup (O ++ SLASH :: n ++ SLASH :: r) g) /\
  (forall r, lookup (O ++ SLASH :: n ++ lit ".tmp" ++ SLASH :: r) f = lookup (O ++ SLASH :: n ++ lit ".tmp" ++ SLASH :: r) g).
