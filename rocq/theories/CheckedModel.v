(** Vocabulary for C72-C74: which texts a call passes on, which of them are compared with the snapshot, and where calls that
    move the cursor stand. Nothing here refers to the reader, the cursor or the bookkeeping of CaseRunModel. *)
From Verif Require Export CaseRunModel CaseRunSpec.

Section Checked.
Variable cc : CharClass.

(** the texts a call passes to test_feed (true: compared) or info_feed (false), in order (testcaserun.py:523-547); [begun] = some
    line was finished before *)
Definition line_feed (c : bool) (x : str) : list (bool * str) := [(c, x); (c, [NL])].
Definition header_feed (begun : bool) (h : str) (p : list (bool * str)) : Prop :=
  exists c, p = (if begun then [(c, [NL])] else []) ++ line_feed true h ++ line_feed true [].
Definition float_feed (v : str) (u : option str) (p : list (bool * str)) : Prop :=
  exists was, was_text u was /\ p = (false, v ++ unit_text u) :: line_feed false was.
Definition row_feed (cols : list (str * list str)) (i : nat) : list (bool * str) :=
  [(true, bar)] ++
  flat_map (fun col => let buf := cell_shown cc (nth i (snd col) []) in
              [(true, buf); (false, repeat SP (col_width col - length buf)); (true, bar)]) cols ++
  line_feed true [].
Definition op_feeds (begun : bool) (o : op) (p : list (bool * str)) : Prop :=
  match o with
  | OT x | OAnchor x => p = [(true, x)]
  | OTln x | OAnchorln x => p = line_feed true x
  | OI x => p = [(false, x)]
  | OIln x => p = line_feed false x
  | OFail | ODiff | OJump _ | OSeek _ _ _ => p = []
  | OHeader h => header_feed begun h p
  | OH level title => header_feed begun (repeat HASH level ++ [SP] ++ title) p
  | OKeyvalueln k v => p = (true, k) :: line_feed true ([SP] ++ v)
  | OTlist items pre => p = flat_map (fun i => line_feed true (pre ++ i)) items
  | OTset items pre => p = flat_map (fun i => line_feed false (pre ++ i)) items
  | OTdf cols rows =>
      p = line_feed false (bar ++ flat_map (fun col => ljust (col_width col) (fst col) ++ bar) cols) ++
          line_feed true (bar ++ flat_map (fun col => repeat MINUS (col_width col) ++ bar) cols) ++
          flat_map (row_feed cols) (seq 0 rows)
  | OIfloatln v u => float_feed v u p
  | OTmsln true msg _ => p = line_feed true msg
  | OTmsln false _ v => float_feed v (Some (lit "ms")) p
  | OAssertln c m => p = line_feed false (assert_text c m)
  | OMust t c m => p = (false, lit " * MUST " ++ t ++ lit "...") :: line_feed false (assert_text c m)
  end.

(** the tokens of texts *)
Fixpoint feed_tokens (p : list (bool * str)) : option (list (bool * str)) :=
  match p with
  | [] => Some []
  | (c, x) :: r =>
      match tokenize cc x, feed_tokens r with
      | Some ts, Some us => Some (map (fun t => (c, t)) ts ++ us)
      | _, _ => None
      end
  end.

(** what stands after the last line end; whether a line was finished *)
Fixpoint open_aux (cur ts : list (bool * str)) : list (bool * str) :=
  match ts with
  | [] => cur
  | (c, t) :: r => if str_eqb t [NL] then open_aux [] r else open_aux (cur ++ [(c, t)]) r
  end.
Definition open_tokens (ts : list (bool * str)) : list (bool * str) := open_aux [] ts.
Definition begun (ts : list (bool * str)) : bool := existsb (fun x => str_eqb (snd x) [NL]) ts.

(** all tokens that the calls feed; [a]: the tokens fed before *)
Inductive ops_feed : list (bool * str) -> list op -> list (bool * str) -> Prop :=
| feed_nil a : ops_feed a [] a
| feed_cons a o r p ts b : op_feeds (begun a) o p -> feed_tokens p = Some ts -> ops_feed (a ++ ts) r b -> ops_feed a (o :: r) b.
End Checked.

(** Calls that move the cursor stand at the start of a line. [at_start]: so far every line is finished, [begun]: there is one. *)
Definition ends_line (x : str) : bool := match rev x with c :: _ => N.eqb c NL | [] => false end.
Definition start_after (at_start : bool) (o : op) : bool :=
  match o with
  | OT x | OI x | OAnchor x => match x with [] => at_start | _ => ends_line x end
  | OFail | ODiff | OJump _ | OSeek _ _ _ | OTlist [] _ | OTset [] _ => at_start
  | _ => true
  end.
Definition begun_after (begun : bool) (o : op) : bool :=
  match o with
  | OT x | OI x | OAnchor x => begun || has_nl x
  | OFail | ODiff | OJump _ | OSeek _ _ _ | OTlist [] _ | OTset [] _ => begun
  | _ => true
  end.
Definition placed_op (at_start begun : bool) (o : op) : bool :=
  match o with
  | OAnchor _ | OAnchorln _ | OKeyvalueln _ _ | OTset _ _ | OJump _ | OSeek _ _ _ => at_start
  | OHeader _ | OH _ _ => at_start || begun
  | _ => true
  end.
Fixpoint placed (at_start begun : bool) (ops : list op) : bool :=
  match ops with
  | [] => true
  | o :: r => placed_op at_start begun o && placed (start_after at_start o) (begun_after begun o) r
  end.

(** what the finished line [r], made of the tokens [l], owes to a snapshot with the lines [ls] *)
Definition line_compared (cc : CharClass) (ls : list str) (r : line_rec) (l : list (bool * str)) : Prop :=
  lr_text r ++ [NL] = concat (map snd l) /\
  exists k, lr_exp r = nth_error ls k /\
    (rec_differs r = false -> forall j t, nth_error l j = Some (true, t) -> expected_token cc ls k j = Some t).
