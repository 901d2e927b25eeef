(** The command lines that are accepted, and what they say: a grammar. *)
From Verif Require Export ArgsModel ConfigModel.

Definition begins (a b : str) : Prop := exists t, b = a ++ t.

(** the option [w], written out or shortened as far as it stays unique *)
Definition names_option (w : str) (a : act) : Prop :=
  In (w, a) option_strings \/
  exists o, In (o, a) option_strings /\ begins w o /\ forall o' a', In (o', a') option_strings -> begins w o' -> o' = o.

(** [w] asks for help: -h, --help or an abbreviation of it, or letters with h among them *)
Definition asks_help (w : str) : Prop := names_option w Help \/ exists cs, w = MINUS :: cs /\ In 104%N cs.

Section Spec.
Variable int_of : str -> option nat.
Variable digit : char -> bool.

(** a number below zero, as it is written: "-5", "-.5", "-1.5"; a line break may follow *)
Definition negative (w : str) : Prop :=
  exists a b e, w = MINUS :: a ++ b ++ e /\ Forall (fun c => digit c = true) a /\ (e = [] \/ e = [NL]) /\
    ((b = [] /\ a <> []) \/ exists d, b = 46%N :: d /\ d <> [] /\ Forall (fun c => digit c = true) d).

(** [w] looks like an option: it is one, shortened or not, or one with "=" after it, or it begins with an option of one letter *)
Definition option_like (w : str) : Prop :=
  exists o a, In (o, a) option_strings /\
    (begins w o \/ begins (o ++ [EQS]) w \/ (length o = 2 /\ begins o w) \/
     exists p t, w = p ++ EQS :: t /\ begins (lit "--") w /\ begins p o).

(** a name or a value *)
Definition word (w : str) : Prop :=
  hd_error w <> Some MINUS \/ w = [MINUS] \/ (~ option_like w /\ (negative w \/ In SP w)).

Definition value (int : bool) (w : str) (v : cval) : Prop := if int then exists n, int_of w = Some n /\ v = VInt n else v = VStr w.

(** some words at the front, and the settings they make *)
Inductive item : list str -> list (str * cval) -> Prop :=
| I_flag w d v : names_option w (Const d v) -> item [w] [(d, v)]
| I_value w d int x v : names_option w (Val d int) -> word x -> value int x v -> item [w; x] [(d, v)]
| I_equals w d int x v : names_option w (Val d int) -> In (w, Val d int) option_strings \/ begins (lit "--") w -> value int x v ->
    item [w ++ EQS :: x] [(d, v)]
| I_letters cs l : 2 <= length cs -> Forall2 (fun c dv => In ([MINUS; c], Const (fst dv) (snd dv)) option_strings) cs l -> item [MINUS :: cs] l.

Inductive items : list str -> list (str * cval) -> Prop :=
| Is_nil : items [] []
| Is_cons a l b r : item a l -> items b r -> items (a ++ b) (l ++ r).

Variable choices : list str.
Definition named (ws : list str) : option (list str) := match ws with [] => None | _ => Some ws end.

(** options, test names, options; or options, test names and, after "--", further test names *)
Inductive line : list str -> list (str * cval) -> option (list str) -> Prop :=
| L_names a l ws b r : items a l -> Forall word ws -> Forall (fun w => In w choices) ws -> items b r -> line (a ++ ws ++ b) (l ++ r) (named ws)
| L_dashes a l ws vs : items a l -> Forall word ws -> Forall (fun w => In w choices) (ws ++ vs) -> line (a ++ ws ++ lit "--" :: vs) l (named (ws ++ vs)).
End Spec.
