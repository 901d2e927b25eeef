(** Model of booktest/testcaserun.py, class TestCaseRun: the snapshot reader, the output
    stream, the difference and error bookkeeping, and the test API on top of them.

    A test body is the list of API calls it makes ([list op]); every run of a Python test
    body makes some such list of calls. Files are texts; the snapshot file is not modified
    while the test runs. Not modelled: stdout echo in verbose mode, stderr and logging
    redirection (see LifeModel), timing, tmp files (see RunCaseModel). Direct calls of the internal methods
    [feed_token], [write_line], [commit_line] and [reset_exp_reader] by a test are not
    among the API calls. *)
From Verif Require Export PyStr TokenizerModel.

(** ** The snapshot reader: attributes exp*, testcaserun.py:46-55 *)
Record reader := {
  r_text : option str;      (* text of the snapshot as open(.., "r") delivers it;
                               None = not self.exp_file_exists *)
  r_rest : option str;      (* self.exp: None = closed, Some = what readline() has left *)
  r_line : option str;      (* self.exp_line *)
  r_num : nat;              (* self.exp_line_number *)
  r_tok : option bufiter    (* self.exp_tokens *)
}.

(** [file.readline()] on the remaining text: the line including its newline, and the rest *)
Fixpoint readline (s : str) : str * str :=
  match s with
  | [] => ([], [])
  | c :: s' => if N.eqb c NL then ([c], s') else let (l, r) := readline s' in (c :: l, r)
  end.

(** [line[0:len(line)-1]] *)
Definition drop_last (l : str) : str := firstn (length l - 1) l.

Section CaseRun.
Variable cc : CharClass.

(** testcaserun.py:318-337 next_exp_line; [lc] is self.last_checked *)
Definition next_exp_line (lc : bool) (r : reader) : reader :=
  match r_text r with
  | None => r
  | Some _ =>
      match r_rest r with
      | Some s =>
          let (line, s') := readline s in
          match line with
          | [] => {| r_text := r_text r; r_rest := None; r_line := None;
                     r_num := S (r_num r); r_tok := None |}
          | _ :: _ => {| r_text := r_text r; r_rest := Some s';
                         r_line := Some (drop_last line); r_num := S (r_num r);
                         r_tok := Some (bi_init cc (drop_last line)) |}
          end
      | None =>
          if lc then {| r_text := r_text r; r_rest := None; r_line := None;
                        r_num := r_num r; r_tok := None |}
          else r
      end
  end.

(** testcaserun.py:115-125 reset_exp_reader *)
Definition reset_exp_reader (lc : bool) (r : reader) : reader :=
  next_exp_line lc
    {| r_text := r_text r; r_rest := r_text r; r_line := None; r_num := 0; r_tok := None |}.

(** A loop [while self.exp_line is not None and cond: self.next_exp_line()] with fuel;
    [None] = out of fuel. [cond line number] is the loop condition. *)
Fixpoint next_while (fuel : nat) (cond : str -> nat -> bool) (lc : bool) (r : reader)
  : option reader :=
  match r_line r with
  | None => Some r
  | Some l =>
      if cond l (r_num r) then
        match fuel with
        | O => None
        | S f => next_while f cond lc (next_exp_line lc r)
        end
      else Some r
  end.

(** fuel for the loops: longer than the snapshot has lines *)
Definition reader_fuel (r : reader) : nat :=
  match r_text r with None => 0 | Some t => S (length t) end.

(** testcaserun.py:339-353 jump *)
Definition jump (lc : bool) (n : nat) (r : reader) : option reader :=
  match r_text r with
  | None => Some r
  | Some _ =>
      let r1 := if Nat.ltb n (r_num r) then reset_exp_reader lc r else r in
      next_while (reader_fuel r) (fun _ k => Nat.ltb k n) lc r1
  end.

(** [n < end] where [None] is sys.maxsize (no file has that many lines) *)
Definition before_end (n : nat) (e : option nat) : bool :=
  match e with None => true | Some m => Nat.ltb n m end.

(** testcaserun.py:355-385 seek *)
Definition seek (lc : bool) (ok : str -> bool) (bgn : nat) (e : option nat) (r : reader)
  : option reader :=
  match r_text r with
  | None => Some r
  | Some _ =>
      let at_num := r_num r in
      match next_while (reader_fuel r) (fun l k => negb (ok l) && before_end k e) lc r with
      | None => None
      | Some r1 =>
          match r_line r1 with
          | Some _ => Some r1
          | None =>
              match jump lc bgn r1 with
              | None => None
              | Some r2 =>
                  next_while (reader_fuel r)
                    (fun l k => negb (ok l) && Nat.ltb k at_num) lc r2
              end
          end
      end
  end.

(** testcaserun.py:465-475 head_exp_token *)
Definition head_exp_token (r : reader) : option str :=
  match r_tok r with
  | None => None
  | Some b => match bi_head b with Some t => Some t | None => Some [NL] end
  end.

(** testcaserun.py:477-488 next_exp_token *)
Definition next_exp_token (r : reader) : option str * reader :=
  match r_tok r with
  | None => (None, r)
  | Some b =>
      match bi_next cc b with
      | Some (t, b') =>
          (Some t, {| r_text := r_text r; r_rest := r_rest r; r_line := r_line r;
                      r_num := r_num r; r_tok := Some b' |})
      | None => (Some [NL], r)
      end
  end.

(** ** The whole test case state: testcaserun.py:23-104 *)
Record state := {
  rd : reader;
  point_pos : bool;          (* config point_error_pos, line 39 *)
  out : str;                 (* text written to the output file so far *)
  out_line : str;
  rep : str;                 (* text written to the report file so far *)
  line_diff : option nat;
  line_error : option nat;
  line_number : nat;
  diffs : nat;
  errors : nat;
  last_checked : bool
}.

Definition set_rd (r : reader) (s : state) : state :=
  {| rd := r; point_pos := point_pos s; out := out s; out_line := out_line s; rep := rep s;
     line_diff := line_diff s; line_error := line_error s; line_number := line_number s;
     diffs := diffs s; errors := errors s; last_checked := last_checked s |}.
Definition set_line_diff (d : option nat) (s : state) : state :=
  {| rd := rd s; point_pos := point_pos s; out := out s; out_line := out_line s; rep := rep s;
     line_diff := d; line_error := line_error s; line_number := line_number s;
     diffs := diffs s; errors := errors s; last_checked := last_checked s |}.
Definition set_line_error (e : option nat) (s : state) : state :=
  {| rd := rd s; point_pos := point_pos s; out := out s; out_line := out_line s; rep := rep s;
     line_diff := line_diff s; line_error := e; line_number := line_number s;
     diffs := diffs s; errors := errors s; last_checked := last_checked s |}.
Definition set_out_line (l : str) (s : state) : state :=
  {| rd := rd s; point_pos := point_pos s; out := out s; out_line := l; rep := rep s;
     line_diff := line_diff s; line_error := line_error s; line_number := line_number s;
     diffs := diffs s; errors := errors s; last_checked := last_checked s |}.
Definition set_last_checked (c : bool) (s : state) : state :=
  {| rd := rd s; point_pos := point_pos s; out := out s; out_line := out_line s; rep := rep s;
     line_diff := line_diff s; line_error := line_error s; line_number := line_number s;
     diffs := diffs s; errors := errors s; last_checked := c |}.
Definition add_counts (d e : nat) (s : state) : state :=
  {| rd := rd s; point_pos := point_pos s; out := out s; out_line := out_line s; rep := rep s;
     line_diff := line_diff s; line_error := line_error s; line_number := line_number s;
     diffs := diffs s + d; errors := errors s + e; last_checked := last_checked s |}.

(** testcaserun.py:109-113 report: one line in the report file (stdout echo not modelled) *)
Definition report (l : str) (s : state) : state :=
  {| rd := rd s; point_pos := point_pos s; out := out s; out_line := out_line s;
     rep := rep s ++ l ++ [NL];
     line_diff := line_diff s; line_error := line_error s; line_number := line_number s;
     diffs := diffs s; errors := errors s; last_checked := last_checked s |}.

(** testcaserun.py:417-426 write_line *)
Definition write_line (s : state) : state :=
  {| rd := next_exp_line (last_checked s) (rd s); point_pos := point_pos s;
     out := out s ++ out_line s ++ [NL]; out_line := []; rep := rep s;
     line_diff := line_diff s; line_error := line_error s; line_number := S (line_number s);
     diffs := diffs s; errors := errors s; last_checked := last_checked s |}.

(** testcaserun.py:450-454: the flagged report line *)
Definition flagged_line (symbol : str) (s : state) : str :=
  symbol ++ [SP] ++ ljust 60 (out_line s) ++ lit " | " ++
  match r_line (rd s) with Some l => l | None => lit "EOF" end.

(** testcaserun.py:428-463 commit_line *)
Definition commit_line (s : state) : state :=
  match line_error s, line_diff s with
  | None, None => write_line (report (lit "  " ++ out_line s) s)
  | e, d =>
      let symbol := match e with Some _ => lit "!" | None => lit "?" end in
      let pos := match e, d with Some p, _ => p | None, Some p => p | None, None => 0 end in
      let s1 := add_counts (match d with Some _ => 1 | None => 0 end)
                           (match e with Some _ => 1 | None => 0 end) s in
      let s2 := report (flagged_line symbol s1) s1 in
      let s3 := if point_pos s then report (lit "  " ++ repeat SP pos ++ lit "^") s2 else s2 in
      set_line_diff None (set_line_error None (write_line s3))
  end.

(** testcaserun.py:549-553 diff, 555-559 fail *)
Definition do_diff (s : state) : state :=
  match line_diff s with None => set_line_diff (Some (length (out_line s))) s | Some _ => s end.
Definition do_fail (s : state) : state :=
  match line_error s with None => set_line_error (Some (length (out_line s))) s | Some _ => s end.

(** [token != exp_token] where exp_token may be None *)
Definition token_differs (t : str) (e : option str) : bool :=
  match e with None => true | Some x => negb (str_eqb t x) end.

(** testcaserun.py:490-513 feed_token *)
Definition feed_token (check : bool) (s : state) (t : str) : state :=
  let (e, r) := next_exp_token (rd s) in
  let s1 := set_last_checked check (set_rd r s) in
  let s2 := if match r_text r with Some _ => true | None => false end
               && token_differs t e && check
            then do_diff s1 else s1 in
  if str_eqb t [NL] then commit_line s2 else set_out_line (out_line s2 ++ t) s2.

(** testcaserun.py:523-547 test_feed ([check] true) and feed ([check] false);
    [None] = the tokenizer never ends *)
Definition feed (check : bool) (text : str) (s : state) : option state :=
  match tokenize cc text with
  | None => None
  | Some ts => Some (fold_left (feed_token check) ts s)
  end.

(** sequencing of steps that may diverge *)
Definition bind {A B} (x : option A) (f : A -> option B) : option B :=
  match x with None => None | Some a => f a end.
Local Notation "x >>= f" := (bind x f) (at level 50, left associativity).

(** testcaserun.py:873-878 t, 907-913 tln (the second definition wins over 891-896),
    915-922 i, 924-932 iln *)
Definition op_t (text : str) (s : state) : option state := feed true text s.
Definition op_tln (text : str) (s : state) : option state := feed true text s >>= feed true [NL].
Definition op_i (text : str) (s : state) : option state := feed false text s.
Definition op_iln (text : str) (s : state) : option state := feed false text s >>= feed false [NL].

(** testcaserun.py:339-415 on the whole state: jump, seek, seek_line, seek_prefix *)
Definition with_reader (f : bool -> reader -> option reader) (s : state) : option state :=
  match f (last_checked s) (rd s) with None => None | Some r => Some (set_rd r s) end.
Definition op_jump (n : nat) : state -> option state := with_reader (fun lc => jump lc n).
Definition op_seek (ok : str -> bool) (b : nat) (e : option nat) : state -> option state :=
  with_reader (fun lc => seek lc ok b e).
Definition op_seek_line (a : str) (b : nat) (e : option nat) : state -> option state :=
  op_seek (fun x => str_eqb x a) b e.
Definition op_seek_prefix (p : str) : state -> option state :=
  op_seek (fun x => starts_with p x) 0 None.

(** testcaserun.py:561-571 anchor, 573-583 anchorln *)
Definition op_anchor (a : str) (s : state) : option state := op_seek_prefix a s >>= op_t a.
Definition op_anchorln (a : str) (s : state) : option state :=
  op_seek_line a 0 None s >>= op_tln a.

(** testcaserun.py:585-597 header *)
Definition op_header (h : str) (s : state) : option state :=
  let s1 := if Nat.ltb 0 (line_number s)
            then feed_token (last_checked s &&
                             match r_line (rd s) with Some _ => true | None => false end) s [NL]
            else s in
  op_anchorln h s1 >>= op_tln [].

(** testcaserun.py:653-680 h, h1, h2, h3 *)
Definition op_h (level : nat) (title : str) : state -> option state :=
  op_header (repeat HASH level ++ [SP] ++ title).

(** testcaserun.py:599-616 ifloatln. [value] is the text [f"{value:.3f}"], [unit] the unit;
    [refloat tok] is [f"{float(tok):.3f}"], None when float() raises ValueError. *)
Definition op_ifloatln (refloat : str -> option str) (value : str) (unit : option str)
  (s : state) : option state :=
  let old := match head_exp_token (rd s) with None => None | Some t => refloat t end in
  let postfix := match unit with Some u => [SP] ++ u | None => [] end in
  op_i (value ++ postfix) s >>=
  (match old with
   | Some o => op_iln (lit " (was " ++ o ++ postfix ++ lit ")")
   | None => op_iln []
   end).

(** testcaserun.py:618-639 tmsln: [over] = the measured time exceeds max_ms, [msg] the text
    printed then, [value] the formatted time. imsln (641-651) is the case [over = false]. *)
Definition op_tmsln (refloat : str -> option str) (over : bool) (msg value : str)
  (s : state) : option state :=
  if over then op_tln msg (do_fail s) else op_ifloatln refloat value (Some (lit "ms")) s.

(** run a list of steps *)
Fixpoint steps (l : list (state -> option state)) (s : state) : option state :=
  match l with [] => Some s | f :: l' => f s >>= steps l' end.

(** testcaserun.py:744-762 tlist *)
Definition op_tlist (items : list str) (prefix : str) : state -> option state :=
  steps (map (fun i => op_tln (prefix ++ i)) items).

(** testcaserun.py:705-742 tdf; a data frame is its list of columns (name, cells as text) and
    its number of rows. [str.strip] uses the table's white space. ttable (689-703) builds a
    data frame and calls tdf. *)
Definition cell_text (c : str) : str :=
  strip (cc_space cc)
    (map (fun x => if N.eqb x NL then SP else x) (map (fun x => if N.eqb x CR then SP else x) c)).
Definition col_pad (col : str * list str) : nat :=
  fold_left (fun m c => Nat.max m (length c)) (snd col) (length (fst col)).
Definition bar : str := lit "|".
Definition op_tdf (cols : list (str * list str)) (rows : nat) (s : state) : option state :=
  op_iln (bar ++ flat_map (fun col => ljust (col_pad col) (fst col) ++ bar) cols) s >>=
  op_tln (bar ++ flat_map (fun col => repeat MINUS (col_pad col) ++ bar) cols) >>=
  steps (map (fun i =>
    steps ([op_t bar] ++
           flat_map (fun col =>
             let buf := cell_text (nth i (snd col) []) in
             [op_t buf; op_i (repeat SP (col_pad col - length buf)); op_t bar]) cols ++
           [op_tln []])) (seq 0 rows)).

(** testcaserun.py:775-782 of tset: collect the listed items, moving the reader *)
Fixpoint tset_scan (fuel : nat) (prefix : str) (lc : bool) (r : reader) (compare : list str)
  : option (list str * reader) :=
  match r_line r with
  | None => Some (compare, r)
  | Some l =>
      if starts_with prefix l then
        match fuel with
        | O => None
        | S f =>
            let x := skipn (length prefix) l in
            tset_scan f prefix lc (next_exp_line lc r)
              (if str_mem x compare then compare else x :: compare)
        end
      else Some (compare, r)
  end.

(** [compare.remove(x)] *)
Definition set_remove (x : str) (l : list str) : list str :=
  filter (fun y => negb (str_eqb x y)) l.

(** testcaserun.py:784-793 of tset: the items; [cmp] is [compare] with begin and end *)
Fixpoint tset_items (items : list str) (prefix : str) (cmp : option (list str * (nat * nat)))
  (s : state) : option (option (list str * (nat * nat)) * state) :=
  match items with
  | [] => Some (cmp, s)
  | i :: items' =>
      let line := prefix ++ i in
      match cmp with
      | None => op_iln line s >>= tset_items items' prefix None
      | Some (compare, (b, e)) =>
          if str_mem i compare then
            op_seek_line line b (Some e) s >>= op_iln line >>=
            tset_items items' prefix (Some (set_remove i compare, (b, e)))
          else
            op_iln line (do_diff s) >>=
            tset_items items' prefix (Some (compare, (b, e)))
      end
  end.

(** testcaserun.py:764-798 tset *)
Definition op_tset (items : list str) (prefix : str) (s : state) : option state :=
  match r_line (rd s) with
  | None => tset_items items prefix None s >>= (fun x => Some (snd x))
  | Some _ =>
      let b := r_num (rd s) in
      tset_scan (reader_fuel (rd s)) prefix (last_checked s) (rd s) [] >>=
      (fun cr =>
         let (compare, r) := cr in
         let e := r_num r in
         tset_items items prefix (Some (compare, (b, e))) (set_rd r s) >>=
         (fun x =>
            match fst x with
            | None => Some (snd x)
            | Some (rest, _) =>
                op_jump e (match rest with [] => snd x | _ :: _ => do_diff (snd x) end)
            end))
  end.

(** testcaserun.py:800-818 assertln; [msg] is error_message (None or empty: "FAILED") *)
Definition op_assertln (cond : bool) (msg : option str) (s : state) : option state :=
  if cond then op_iln (lit "ok") s
  else op_iln (match msg with Some (c :: m) => c :: m | _ => lit "FAILED" end) (do_fail s).

(** testcaserun.py:820-858 must_apply; must_contain, must_equal and must_be_a call it with
    a title and the value of the condition *)
Definition op_must (title : str) (cond : bool) (msg : option str) (s : state) : option state :=
  op_i (lit " * MUST " ++ title ++ lit "...") s >>= op_assertln cond msg.

(** testcaserun.py:898-905 keyvalueln *)
Definition op_keyvalueln (key value : str) (s : state) : option state :=
  op_anchor key s >>= op_tln ([SP] ++ value).

(** ** The test API as data *)
Inductive op :=
| OT (text : str)
| OTln (text : str)
| OI (text : str)
| OIln (text : str)
| OFail
| ODiff
| OAnchor (a : str)
| OAnchorln (a : str)
| OHeader (h : str)
| OH (level : nat) (title : str)
| OKeyvalueln (key value : str)
| OTlist (items : list str) (prefix : str)
| OTset (items : list str) (prefix : str)
| OTdf (cols : list (str * list str)) (rows : nat)
| OIfloatln (value : str) (unit : option str)
| OTmsln (over : bool) (msg value : str)
| OAssertln (cond : bool) (msg : option str)
| OMust (title : str) (cond : bool) (msg : option str)
| OJump (n : nat)
| OSeek (ok : str -> bool) (b : nat) (e : option nat).

Variable refloat : str -> option str.

Definition exec (o : op) : state -> option state :=
  match o with
  | OT x => op_t x
  | OTln x => op_tln x
  | OI x => op_i x
  | OIln x => op_iln x
  | OFail => fun s => Some (do_fail s)
  | ODiff => fun s => Some (do_diff s)
  | OAnchor a => op_anchor a
  | OAnchorln a => op_anchorln a
  | OHeader h => op_header h
  | OH l x => op_h l x
  | OKeyvalueln k v => op_keyvalueln k v
  | OTlist l p => op_tlist l p
  | OTset l p => op_tset l p
  | OTdf c n => op_tdf c n
  | OIfloatln v u => op_ifloatln refloat v u
  | OTmsln b m v => op_tmsln refloat b m v
  | OAssertln c m => op_assertln c m
  | OMust t c m => op_must t c m
  | OJump n => op_jump n
  | OSeek ok b e => op_seek ok b e
  end.

Definition exec_all (ops : list op) : state -> option state := steps (map exec ops).

(** testcaserun.py:23-104 and 189-201: the state after __init__ and start; [file] is the
    snapshot file as stored, if it exists *)
Definition start (file : option str) (point : bool) : state :=
  {| rd := reset_exp_reader false
             {| r_text := option_map univ_newlines file; r_rest := None; r_line := None;
                r_num := 0; r_tok := None |};
     point_pos := point; out := []; out_line := []; rep := []; line_diff := None;
     line_error := None; line_number := 0; diffs := 0; errors := 0; last_checked := false |}.

(** a test body run from the start; [None] = does not return *)
Definition run_body (file : option str) (point : bool) (ops : list op) : option state :=
  exec_all ops (start file point).

End CaseRun.

(** testrun.py:97-99: the calls made when the test body raises an Exception; [msg] is the
    formatted first line, [tb] the formatted traceback *)
Definition exception_ops (msg tb : str) : list op := [OIln []; OFail; OIln msg; OIln tb].

(** reports.py:13-16 TestResult *)
Inductive result := OK | FAIL | DIFF.

(** testcaserun.py:234-239 of end(); [exists_now] = path.exists(self.exp_file_name) then.
    close() (292-316) discards a last line that was not ended. *)
Definition verdict (exists_now : bool) (s : state) : result :=
  if negb (Nat.eqb (errors s) 0) then FAIL
  else if negb (Nat.eqb (diffs s) 0) || negb exists_now then DIFF
  else OK.
