(** booktest/testcaserun.py and booktest/testrun.py: what happens when a test writes a character that the files cannot hold
    (a lone surrogate cannot be encoded in UTF-8, and fewer characters can be in other locales). The output file and the report
    are opened in text mode (testcaserun.py:269-273), so writing such a character raises UnicodeEncodeError. CaseRunModel leaves
    this out; here every write may raise.

    Simplified: the calls of a test are the primitive ones (t, i, fail, diff, jump, seek; tln x is t x and then t of a newline,
    and so on, as in CaseRunModel); a text with a NUL character is cut short as in CaseRunModel ([None]). The file keeps the text
    that was written before the character (the writes are buffered, which is not modelled). The echo of the report to the
    terminal in verbose mode comes after the write to the report and is not modelled. *)
From Verif Require Export CaseRunModel.

(** what a call ends with: it returns, or it raises and leaves the object in a state *)
Inductive outcome := Done (s : state) | Raised (s : state).

Definition andthen (o : outcome) (k : state -> outcome) : outcome :=
  match o with Done s => k s | Raised s => Raised s end.

Inductive call :=
| CT (text : str)
| CI (text : str)
| CFail
| CDiff
| CJump (n : nat)
| CSeek (ok : str -> bool) (b : nat) (e : option nat).

Section Encode.
Variable cc : CharClass.
(** the characters that the encoding of the files has *)
Variable enc : char -> bool.

(** testcaserun.py:109-113 report *)
Definition report_e (l : str) (s : state) : outcome := if forallb enc l then Done (report l s) else Raised s.

(** testcaserun.py:417-426 write_line *)
Definition write_line_e (s : state) : outcome :=
  if forallb enc (out_line s) then Done (write_line cc s) else Raised s.

(** testcaserun.py:428-463 commit_line *)
Definition commit_line_e (s : state) : outcome :=
  match line_error s, line_diff s with
  | None, None => andthen (report_e (lit "  " ++ out_line s) s) write_line_e
  | e, d =>
      let symbol := match e with Some _ => lit "!" | None => lit "?" end in
      let pos := match e, d with Some p, _ => p | None, Some p => p | None, None => 0 end in
      let s1 := add_counts (match d with Some _ => 1 | None => 0 end)
                           (match e with Some _ => 1 | None => 0 end) s in
      andthen (report_e (flagged_line symbol s1) s1) (fun s2 =>
      andthen (if point_pos s then report_e (lit "  " ++ repeat SP pos ++ lit "^") s2 else Done s2) (fun s3 =>
      andthen (write_line_e s3) (fun s4 => Done (set_line_diff None (set_line_error None s4)))))
  end.

(** testcaserun.py:490-513 feed_token *)
Definition feed_token_e (check : bool) (s : state) (t : str) : outcome :=
  let (e, r) := next_exp_token cc (rd s) in
  let s1 := set_last_checked check (set_rd r s) in
  let s2 := if match r_text r with Some _ => true | None => false end
               && token_differs t e && check
            then do_diff s1 else s1 in
  if str_eqb t [NL] then commit_line_e s2 else Done (set_out_line (out_line s2 ++ t) s2).

Fixpoint feed_tokens_e (check : bool) (ts : list str) (s : state) : outcome :=
  match ts with
  | [] => Done s
  | t :: ts' => andthen (feed_token_e check s t) (feed_tokens_e check ts')
  end.

(** testcaserun.py:523-547 test_feed and feed *)
Definition feed_e (check : bool) (text : str) (s : state) : option outcome :=
  match tokenize cc text with None => None | Some ts => Some (feed_tokens_e check ts s) end.

Definition call_e (c : call) (s : state) : option outcome :=
  match c with
  | CT x => feed_e true x s
  | CI x => feed_e false x s
  | CFail => Some (Done (do_fail s))
  | CDiff => Some (Done (do_diff s))
  | CJump n => option_map Done (op_jump cc n s)
  | CSeek ok b e => option_map Done (op_seek cc ok b e s)
  end.

Fixpoint calls_e (l : list call) (s : state) : option outcome :=
  match l with
  | [] => Some (Done s)
  | c :: l' =>
      match call_e c s with
      | None => None
      | Some (Raised s') => Some (Raised s')
      | Some (Done s') => calls_e l' s'
      end
  end.

(** testrun.py:97-99: the calls made when the test raises an Exception; [msg] is the first line, [tb] the traceback *)
Definition handler_calls (msg tb : str) : list call :=
  [CI []; CI [NL]; CFail; CI msg; CI [NL]; CI tb; CI [NL]].

(** testrun.py:91-100 of run_case: a test that makes the calls [l] and then raises [exc], if any; [msg], [tb]: what is printed of
    the exception of a write. [Raised]: the exception leaves run_case, and so the run: testrun.py:112-191 does not catch it, and
    end() (line 102) is not reached. *)
Definition test_e (file : option str) (point : bool) (l : list call) (exc : option (str * str)) (msg tb : str) : option outcome :=
  match calls_e l (start cc file point) with
  | None => None
  | Some (Done s) =>
      match exc with
      | None => Some (Done s)
      | Some (m, t) => calls_e (handler_calls m t) s
      end
  | Some (Raised s) => calls_e (handler_calls msg tb) s
  end.

(** testrun.py:154-179: the loop over the cases. A case is given by its run; [verdict_of] is its result. The answer is the list
    of the results recorded, and whether the loop came to its end. *)
Fixpoint loop_e (verdict_of : state -> result) (cases : list (option outcome)) : option (list result * bool) :=
  match cases with
  | [] => Some ([], true)
  | None :: _ => None
  | Some (Raised _) :: _ => Some ([], false)
  | Some (Done s) :: rest =>
      option_map (fun x => (verdict_of s :: fst x, snd x)) (loop_e verdict_of rest)
  end.
End Encode.

(** the same calls in CaseRunModel *)
Definition call_op (c : call) : op :=
  match c with
  | CT x => OT x | CI x => OI x | CFail => OFail | CDiff => ODiff
  | CJump n => OJump n | CSeek ok b e => OSeek ok b e
  end.
