(** Vocabulary for C12 (a test repeated against its own output). The calls are those of CaseRunModel; here is which texts
    they pass to the tokenizer one by one, and for which calls the property is proved. *)
From Verif Require Export CaseRunModel CaseRunSpec.

Section Repeat.
Variable cc : CharClass.

Definition line_pieces (x : str) : list str := [x; [NL]].
Definition row_pieces (cols : list (str * list str)) (i : nat) : list str :=
  [bar] ++ flat_map (fun col => let buf := cell_shown cc (nth i (snd col) []) in
                                [buf; repeat SP (col_width col - length buf); bar]) cols ++ line_pieces [].

(** the texts that a call feeds (test_feed, feed; testcaserun.py:523-547), in order; [started] = a line was finished before *)
Definition op_pieces (started : bool) (o : op) : list str :=
  match o with
  | OT x | OI x | OAnchor x => [x]
  | OTln x | OIln x | OAnchorln x => line_pieces x
  | OHeader h => (if started then [[NL]] else []) ++ line_pieces h ++ line_pieces []
  | OH l t => (if started then [[NL]] else []) ++ line_pieces (repeat HASH l ++ [SP] ++ t) ++ line_pieces []
  | OKeyvalueln k v => [k] ++ line_pieces ([SP] ++ v)
  | OTlist items p | OTset items p => flat_map (fun i => line_pieces (p ++ i)) items
  | OTdf cols rows =>
      line_pieces (bar ++ flat_map (fun col => ljust (col_width col) (fst col) ++ bar) cols) ++
      line_pieces (bar ++ flat_map (fun col => repeat MINUS (col_width col) ++ bar) cols) ++
      flat_map (row_pieces cols) (seq 0 rows)
  | OAssertln true _ => line_pieces (lit "ok")
  | OMust t true _ => [lit " * MUST " ++ t ++ lit "..."] ++ line_pieces (lit "ok")
  | _ => []
  end.

(** all pieces of a test; [a] is the text written so far *)
Fixpoint ops_pieces (a : str) (ops : list op) : list str :=
  match ops with
  | [] => []
  | o :: r => op_pieces (has_nl a) o ++ ops_pieces (a ++ concat (op_pieces (has_nl a) o)) r
  end.

(** the tokens of the pieces *)
Fixpoint piece_tokens (ps : list str) : option (list str) :=
  match ps with
  | [] => Some []
  | p :: r => match tokenize cc p, piece_tokens r with Some a, Some b => Some (a ++ b) | _, _ => None end
  end.

(** Lines of a text: how many are ended, what the last one has, what the first one has, and all that are ended *)
Definition newlines (a : str) : nat := length (filter (N.eqb NL) a).
Fixpoint head_line (s : str) : str := match s with [] => [] | c :: r => if N.eqb c NL then [] else c :: head_line r end.
Definition tail_line (a : str) : str := rev (head_line (rev a)).
Fixpoint ended_lines (cur s : str) : list str :=
  match s with [] => [] | c :: r => if N.eqb c NL then cur :: ended_lines [] r else ended_lines (cur ++ [c]) r end.

(** Calls that can be repeated after the text [a] and before the text [next]: they write the same whatever the snapshot is,
    mark nothing by themselves, and where they seek a line, they do so at its start and then write it. An explicit seek or jump
    has to lead to the line that is being written (a seek may also find nothing, or have its end before that line), unless that line is never ended. *)
Definition line_start (a : str) : Prop := a = [] \/ exists x, a = x ++ [NL].
Definition repeatable_op (a : str) (o : op) (next : str) : Prop :=
  match o with
  | OT _ | OTln _ | OI _ | OIln _ | OTlist _ _ | OTdf _ _ | OAssertln true _ | OMust _ true _ => True
  | OAnchor _ | OAnchorln _ | OKeyvalueln _ _ => line_start a
  | OHeader _ | OH _ _ => line_start a \/ has_nl a = true
  | OTset items p => line_start a /\ NoDup items /\ ~ In NL p /\ ~ In NUL p /\ Forall (fun i => ~ In NL i) items /\ ~ (exists r, next = p ++ r)
  | OJump n => has_nl next = true -> n = S (newlines a) \/ (a = [] /\ n = 0)
  | OSeek ok b e => has_nl next = true ->
      ok (tail_line a ++ head_line next) = true \/ (exists m, e = Some m /\ m <= S (newlines a)) \/
      (line_start a /\ b <= S (newlines a) /\ e = None /\ Forall (fun l => ok l = false) (ended_lines [] (a ++ next)))
  | _ => False
  end.
Fixpoint repeatable (a : str) (ops : list op) : Prop :=
  match ops with
  | [] => True
  | o :: r =>
      let b := a ++ concat (op_pieces (has_nl a) o) in
      repeatable_op a o (concat (ops_pieces b r)) /\ repeatable b r
  end.

(** up to every line end, the text has exactly the tokens of its pieces *)
Definition well_pieced (ts : list str) : Prop :=
  forall p q, ts = p ++ [NL] :: q -> tokenize cc (concat (p ++ [[NL]])) = Some (p ++ [[NL]]).
End Repeat.
