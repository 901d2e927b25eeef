(** Vocabulary for C91 (information may change from run to run). The calls are those of CaseRunModel; here is when two lists of
    calls check the same and differ only in the information that they write. *)
From Verif Require Export RepeatModel.

(** text of one line that the tokenizer accepts *)
Definition one_line (x : str) : Prop := ~ In NL x /\ ~ In NUL x.

(** calls that write information up to the end of the line: any number of [i], then [iln], [ifloatln], [tmsln] below its limit
    ([imsln] always is) or an assertion that holds (testcaserun.py:599-651, 800-822, 915-932) *)
Definition ends_info_line (o : op) : Prop :=
  match o with
  | OIln x => one_line x
  | OIfloatln v u => one_line (v ++ unit_text u)
  | OTmsln false _ v => one_line v
  | OAssertln true _ => True
  | _ => False
  end.
Definition info_line (l : list op) : Prop :=
  exists xs o, l = map OI xs ++ [o] /\ Forall one_line xs /\ ends_info_line o.

Section Info.
Variable cc : CharClass.

(** two lists of calls that check the same: call for call the same, but a piece of information may be replaced by another one
    with as many tokens, and information at the end of a line by any information *)
Inductive alike : list op -> list op -> Prop :=
| alike_nil : alike [] []
| alike_same o l m : alike l m -> alike (o :: l) (o :: m)
| alike_info x y tx ty l m : one_line x -> one_line y -> tokenize cc x = Some tx -> tokenize cc y = Some ty -> length tx = length ty ->
    alike l m -> alike (OI x :: l) (OI y :: m)
| alike_line f g l m : info_line f -> info_line g -> alike l m -> alike (f ++ l) (g ++ m).
End Info.

(** calls of a run with the floats written out as [i] and [iln]: the value and what it was before *)
Inductive written_out : list op -> list op -> Prop :=
| out_nil : written_out [] []
| out_same o l m : (match o with OIfloatln _ _ | OTmsln false _ _ => False | _ => True end) ->
    written_out l m -> written_out (o :: l) (o :: m)
| out_float v u w l m : was_text u w -> one_line w -> written_out l m ->
    written_out (OIfloatln v u :: l) (OI (v ++ unit_text u) :: OIln w :: m)
| out_ms g v w l m : was_text (Some (lit "ms")) w -> one_line w -> written_out l m ->
    written_out (OTmsln false g v :: l) (OI (v ++ unit_text (Some (lit "ms"))) :: OIln w :: m).
