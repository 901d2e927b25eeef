(** Independent description of tokens: what the documentation of the tokenizer says
    ("tokenizes whitespaces, words and numbers"), without its control flow. *)
From Verif Require Export PyStr.

(** What is assumed of Python's Unicode tables: digits are alphanumeric, and the control,
    blank and punctuation characters the code tests for are not. *)
Record TokClassOK (cc : CharClass) : Prop := {
  tco_numeric_alnum : forall c, cc_numeric cc c = true -> cc_alnum cc c = true;
  tco_nul : cc_alnum cc NUL = false;
  tco_tab : cc_alnum cc TAB = false;
  tco_nl : cc_alnum cc NL = false;
  tco_sp : cc_alnum cc SP = false;
  tco_plus : cc_alnum cc PLUS = false;
  tco_minus : cc_alnum cc MINUS = false;
  tco_dot : cc_alnum cc DOT = false
}.

Section Spec.
Variable cc : CharClass.

Definition blank (c : char) : Prop := c = SP \/ c = TAB.
Definition sign (c : char) : Prop := c = PLUS \/ c = MINUS.
Definition digit (c : char) : Prop := cc_numeric cc c = true.
Definition alnum (c : char) : Prop := cc_alnum cc c = true.

(** the text does not start with a character satisfying [P] *)
Definition not_at (P : char -> Prop) (s : str) : Prop :=
  match s with [] => True | c :: _ => ~ P c end.
(** the text starts with a fraction: a dot and a digit *)
Definition fraction_at (s : str) : Prop := exists d r, s = DOT :: d :: r /\ digit d.

(** [token t r]: [t] is the token that the text [t ++ r] starts with *)
Inductive token : str -> str -> Prop :=
| tok_blanks t r :
    t <> [] -> Forall blank t -> not_at blank r -> token t r
| tok_integer sg ds r :
    (sg = [] \/ exists c, sign c /\ sg = [c]) ->
    ds <> [] -> Forall digit ds -> not_at digit r -> ~ fraction_at r ->
    token (sg ++ ds) r
| tok_decimal sg ds fs r :
    (sg = [] \/ exists c, sign c /\ sg = [c]) ->
    ds <> [] -> Forall digit ds -> fs <> [] -> Forall digit fs -> not_at digit r ->
    token (sg ++ ds ++ DOT :: fs) r
| tok_word c w r :
    ~ digit c -> Forall alnum (c :: w) -> not_at alnum r -> token (c :: w) r
| tok_other c r :
    ~ blank c -> ~ alnum c -> c <> NUL -> (sign c -> not_at digit r) -> token [c] r.

(** [tokenization s ts]: the text splits into these tokens *)
Inductive tokenization : str -> list str -> Prop :=
| tkz_nil : tokenization [] []
| tkz_cons t r ts : token t r -> tokenization r ts -> tokenization (t ++ r) (t :: ts).

End Spec.
