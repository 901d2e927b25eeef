(** Model of booktest/tokenizer.py.

    The tokenizer object is a pair (buf, at); only the suffix [buf[at:]] matters, so the
    model works on that suffix and a call of [__next__] returns the token
    [buf[begin:at]] together with the new suffix. *)
From Verif Require Export PyStr.

Section Tokenizer.
Variable cc : CharClass.

(** tokenizer.py:30-31, [c == " " or c == "\t"] *)
Definition is_blank (c : char) : bool := N.eqb c SP || N.eqb c TAB.

(** tokenizer.py:36, [c == '+' or c == '-'] *)
Definition is_sign (c : char) : bool := N.eqb c PLUS || N.eqb c MINUS.

(** tokenizer.py:43-48, the optional fraction after the digits *)
Definition scan_fraction (r : str) : str * str :=
  match r with
  | p :: d :: r' =>
      if N.eqb p DOT && cc_numeric cc d then
        let (fs, r2) := span (cc_numeric cc) (d :: r') in (p :: fs, r2)
      else ([], r)
  | _ => ([], r)
  end.

(** tokenizer.py:35-50, a number at the front, or [None] to fall through *)
Definition scan_number (s : str) : option (str * str) :=
  let (sg, r) := match s with
                 | c :: r => if is_sign c then ([c], r) else ([], s)
                 | [] => ([], s)
                 end in
  match span (cc_numeric cc) r with
  | ([], _) => None
  | (ds, r1) => let (fr, r2) := scan_fraction r1 in Some (sg ++ ds ++ fr, r2)
  end.

(** tokenizer.py:25-57, [__next__]: [None] is StopIteration, [Some (token, rest)] a token.
    The loops of lines 31 and 53 stop at the end of the buffer because [peek] then answers
    NUL, which is neither blank nor alphanumeric. Line 55: at a NUL the position is not
    advanced and an empty token is returned. *)
Definition tok_step (s : str) : option (str * str) :=
  match s with
  | [] => None
  | c :: s' =>
      if is_blank c then Some (span is_blank s)
      else
        match (if is_sign c || cc_numeric cc c then scan_number s else None) with
        | Some r => Some r
        | None =>
            if cc_alnum cc c then Some (span (cc_alnum cc) s)
            else if negb (N.eqb c NUL) then Some ([c], s')
            else Some ([], s)
        end
  end.

(** The first [n] calls of [next()]: tokens so far and what is left; stops early at the end. *)
Fixpoint tok_iter (n : nat) (s : str) : list str * str :=
  match n with
  | O => ([], s)
  | S n' => match tok_step s with
            | None => ([], s)
            | Some (t, r) => let (ts, r') := tok_iter n' r in (t :: ts, r')
            end
  end.

(** [list(TestTokenizer(s))] with fuel; [None] means the iteration has not ended. *)
Fixpoint tok_all (fuel : nat) (s : str) : option (list str) :=
  match tok_step s with
  | None => Some []
  | Some (t, r) => match fuel with
                   | O => None
                   | S f => option_map (cons t) (tok_all f r)
                   end
  end.

(** [list(TestTokenizer(s))]; [None] = does not terminate (TokenizerProofs shows that the
    fuel [length s] decides termination). *)
Definition tokenize (s : str) : option (list str) := tok_all (length s) s.

(** tokenizer.py:60-84, BufferIterator over a TestTokenizer: the buffered head
    ([None] = exhausted, [has_head] false) and the tokenizer's remaining text. *)
Record bufiter := { bi_head : option str; bi_rest : str }.

(** tokenizer.py:74-84 lines 78-83 *)
Definition bi_advance (r : str) : bufiter :=
  match tok_step r with
  | Some (t, r') => {| bi_head := Some t; bi_rest := r' |}
  | None => {| bi_head := None; bi_rest := r |}
  end.

(** tokenizer.py:61-66 *)
Definition bi_init (s : str) : bufiter := bi_advance s.

(** tokenizer.py:74-84: [None] is StopIteration *)
Definition bi_next (b : bufiter) : option (str * bufiter) :=
  match bi_head b with
  | None => None
  | Some t => Some (t, bi_advance (bi_rest b))
  end.

End Tokenizer.
