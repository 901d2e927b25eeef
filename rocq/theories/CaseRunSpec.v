(** Specification vocabulary for TestCaseRun: what a snapshot's lines and tokens are, what
    each API call writes, what a finished line's record is. Nothing here refers to the
    reader, the cursor or the bookkeeping of the model. *)
From Verif Require Export PyStr TokenizerModel CaseRunModel.

(** The lines of a snapshot file: what stands before each line end; if text follows the last
    line end, that text without its last character (the code drops a character per line,
    assuming it to be the newline). *)
Definition snapshot_lines (file : str) : list str :=
  let parts := split_on NL (univ_newlines file) in
  removelast parts ++
  match last parts [] with [] => [] | c :: t => [removelast (c :: t)] end.

(** Text of a file with the given lines. *)
Definition lines_text (ls : list str) : str := flat_map (fun l => l ++ [NL]) ls.

(** The [j]-th token of a line, the line end following the last one. *)
Definition line_token (cc : CharClass) (l : str) (j : nat) : str :=
  nth j (fst (tok_iter cc (S j) l)) [NL].

(** The expected token at position [j] of line [n]; None beyond the last line. *)
Definition expected_token (cc : CharClass) (ls : list str) (n j : nat) : option str :=
  option_map (fun l => line_token cc l j) (nth_error ls n).

(** ** What each API call writes *)

(** a cell as shown: line ends become spaces, then leading and trailing white space goes *)
Definition cell_shown (cc : CharClass) (c : str) : str :=
  strip (cc_space cc) (map (fun x => if N.eqb x NL || N.eqb x CR then SP else x) c).
(** the width of a column: the length of its longest entry, the name included *)
Definition col_width (col : str * list str) : nat := list_max (map (@length char) (fst col :: snd col)).

(** the text of a table: heading, rule, rows (testcaserun.py:705-742) *)
Definition table_row (cc : CharClass) (cols : list (str * list str)) (i : nat) : str :=
  bar ++ flat_map (fun col => ljust (col_width col) (cell_shown cc (nth i (snd col) [])) ++ bar) cols
  ++ [NL].
Definition table_text (cc : CharClass) (cols : list (str * list str)) (rows : nat) : str :=
  (bar ++ flat_map (fun col => ljust (col_width col) (fst col) ++ bar) cols ++ [NL]) ++
  (bar ++ flat_map (fun col => repeat MINUS (col_width col) ++ bar) cols ++ [NL]) ++
  flat_map (table_row cc cols) (seq 0 rows).

Definition unit_text (u : option str) : str := match u with Some x => SP :: x | None => [] end.

Definition header_text (started : bool) (h : str) : str :=
  (if started then [NL] else []) ++ h ++ [NL] ++ [NL].

(** the optional " (was 1.234 ms)" *)
Definition was_text (u : option str) (w : str) : Prop :=
  w = [] \/ exists old, w = lit " (was " ++ old ++ unit_text u ++ lit ")".

Definition assert_text (cond : bool) (msg : option str) : str :=
  if cond then lit "ok"
  else match msg with Some (c :: m) => c :: m | _ => lit "FAILED" end.

(** [op_writes cc started o w]: call [o] writes the text [w]; [started] = some line has been
    finished before *)
Definition op_writes (cc : CharClass) (started : bool) (o : op) (w : str) : Prop :=
  match o with
  | OT x | OI x | OAnchor x => w = x
  | OTln x | OIln x | OAnchorln x => w = x ++ [NL]
  | OFail | ODiff | OJump _ | OSeek _ _ _ => w = []
  | OHeader h => w = header_text started h
  | OH level title => w = header_text started (repeat HASH level ++ [SP] ++ title)
  | OKeyvalueln k v => w = k ++ [SP] ++ v ++ [NL]
  | OTlist items p | OTset items p => w = lines_text (map (fun i => p ++ i) items)
  | OTdf cols rows => w = table_text cc cols rows
  | OIfloatln v u => exists was, was_text u was /\ w = v ++ unit_text u ++ was ++ [NL]
  | OTmsln true msg _ => w = msg ++ [NL]
  | OTmsln false _ v =>
      exists was, was_text (Some (lit "ms")) was /\ w = v ++ unit_text (Some (lit "ms")) ++ was ++ [NL]
  | OAssertln c m => w = assert_text c m ++ [NL]
  | OMust t c m => w = lit " * MUST " ++ t ++ lit "..." ++ assert_text c m ++ [NL]
  end.

Definition has_nl (s : str) : bool := existsb (N.eqb NL) s.

(** [written cc a ops b]: starting from the text [a], the calls [ops] bring the text to [b] *)
Inductive written (cc : CharClass) : str -> list op -> str -> Prop :=
| written_nil a : written cc a [] a
| written_cons a o ops w b :
    op_writes cc (has_nl a) o w -> written cc (a ++ w) ops b -> written cc a (o :: ops) b.

(** calls whose text does not depend on the snapshot *)
Definition snapshot_free (o : op) : bool :=
  match o with OIfloatln _ _ | OTmsln false _ _ => false | _ => true end.

(** ** Finished lines *)
Record line_rec := {
  lr_text : str;               (* the line *)
  lr_exp : option str;         (* the snapshot line it was compared with *)
  lr_diff : option nat;        (* column of the first difference, if any *)
  lr_err : option nat          (* column of the first failure, if any *)
}.

Definition marked (o : option nat) : bool := match o with Some _ => true | None => false end.

Definition rec_differs (r : line_rec) : bool := marked (lr_diff r).
Definition rec_fails (r : line_rec) : bool := marked (lr_err r).

(** The report entry of a line: "  text", or flagged with the expected line, and with
    [point] a second line pointing at the column. *)
Definition entry_text (point : bool) (r : line_rec) : str :=
  if rec_differs r || rec_fails r then
    (if rec_fails r then lit "!" else lit "?") ++ [SP] ++ ljust 60 (lr_text r) ++ lit " | " ++
    match lr_exp r with Some l => l | None => lit "EOF" end ++ [NL] ++
    (if point then lit "  " ++
       repeat SP (match lr_err r, lr_diff r with Some p, _ => p | None, Some p => p | None, None => 0 end)
       ++ lit "^" ++ [NL]
     else [])
  else lit "  " ++ lr_text r ++ [NL].

(** [s] is what remains of a run that finished the lines [recs] *)
Record accounts (recs : list line_rec) (s : state) : Prop := {
  acc_out : out s = lines_text (map lr_text recs);
  acc_rep : rep s = flat_map (entry_text (point_pos s)) recs;
  acc_diffs : diffs s = length (filter rec_differs recs);
  acc_errors : errors s = length (filter rec_fails recs);
  acc_number : line_number s = length recs;
  acc_no_nl : Forall (fun r => ~ In NL (lr_text r)) recs /\ ~ In NL (out_line s)
}.

(** ** Token lines of tests that only use t, tln, i, iln *)
Definition simple (o : op) : bool :=
  match o with OT _ | OTln _ | OI _ | OIln _ => true | _ => false end.

(** the tokens one call feeds, with their checked flag; None = does not terminate *)
Definition op_tokens (cc : CharClass) (o : op) : option (list (bool * str)) :=
  let feed c x := option_map (map (fun t => (c, t))) (tokenize cc x) in
  match o with
  | OT x => feed true x
  | OTln x => option_map (fun ts => ts ++ [(true, [NL])]) (feed true x)
  | OI x => feed false x
  | OIln x => option_map (fun ts => ts ++ [(false, [NL])]) (feed false x)
  | _ => None
  end.

Fixpoint ops_tokens (cc : CharClass) (ops : list op) : option (list (bool * str)) :=
  match ops with
  | [] => Some []
  | o :: ops' =>
      match op_tokens cc o, ops_tokens cc ops' with
      | Some a, Some b => Some (a ++ b)
      | _, _ => None
      end
  end.

(** cut a token list into finished lines, each with its final newline token; the tokens after
    the last newline are dropped *)
Fixpoint token_lines_aux (cur : list (bool * str)) (ts : list (bool * str))
  : list (list (bool * str)) :=
  match ts with
  | [] => []
  | (c, t) :: ts' =>
      if str_eqb t [NL] then (cur ++ [(c, t)]) :: token_lines_aux [] ts'
      else token_lines_aux (cur ++ [(c, t)]) ts'
  end.
Definition token_lines (ts : list (bool * str)) : list (list (bool * str)) :=
  token_lines_aux [] ts.

(** line [n], made of tokens [toks], differs from the snapshot with lines [ls] *)
Definition line_differs (cc : CharClass) (ls : list str) (n : nat) (toks : list (bool * str)) : Prop :=
  exists j t, nth_error toks j = Some (true, t) /\ expected_token cc ls n j <> Some t.

(** the first difference of the line is at column [p] *)
Definition first_difference (cc : CharClass) (ls : list str) (n : nat) (toks : list (bool * str))
  (p : nat) : Prop :=
  exists j t, nth_error toks j = Some (true, t) /\ expected_token cc ls n j <> Some t /\
    (forall i u, i < j -> nth_error toks i = Some (true, u) -> expected_token cc ls n i = Some u) /\
    p = length (concat (map snd (firstn j toks))).

(** ** Seeking *)

(** from line [k], an unbounded search for [ok] ends on line [k']: the first match from [k] on,
    else the first match before [k], else [k] itself *)
Definition seek_spec (ok : str -> bool) (ls : list str) (k k' : nat) : Prop :=
  let hit i := exists l, nth_error ls i = Some l /\ ok l = true in
  (k <= k' /\ hit k' /\ forall i, k <= i < k' -> ~ hit i) \/
  (k' < k /\ hit k' /\ (forall i, k <= i -> ~ hit i) /\ forall i, i < k' -> ~ hit i) \/
  (k' = k /\ forall i, ~ hit i).

(** the texts a call passes on *)
Definition op_texts (o : op) : list str :=
  match o with
  | OT x | OTln x | OI x | OIln x | OAnchor x | OAnchorln x | OHeader x | OH _ x => [x]
  | OKeyvalueln k v => [k; v]
  | OTlist l p | OTset l p => p :: l
  | OTdf cols _ => flat_map (fun col => fst col :: snd col) cols
  | OIfloatln v (Some u) => [v; u]
  | OIfloatln v None => [v]
  | OTmsln _ m v => [m; v]
  | OAssertln _ (Some m) => [m]
  | OMust t _ (Some m) => [t; m]
  | OMust t _ None => [t]
  | OFail | ODiff | OJump _ | OSeek _ _ _ | OAssertln _ None => []
  end.

Definition nul_free (x : str) : Prop := ~ In NUL x.
