(** Python strings and the few [str] methods the code uses.

    A Python [str] is a sequence of Unicode code points: [list N].
    The Unicode tables behind [isnumeric], [isalnum], [isspace], [isupper] and
    [lower] are a parameter ([CharClass]); what is assumed of them is stated as an
    explicit hypothesis of the theorems that need it. *)
From Coq Require Export Ascii String List NArith Arith Bool.
Export Init.Datatypes ListNotations.
Open Scope list_scope.
Open Scope nat_scope.

Definition char := N.
Definition str := list char.

(** Code point of an ASCII literal, and ASCII literals as [str]. *)
Definition ch (a : ascii) : char := N_of_ascii a.
Definition lit (s : string) : str := map N_of_ascii (list_ascii_of_string s).

Definition NUL : char := 0%N.
Definition TAB : char := 9%N.
Definition NL : char := 10%N.
Definition CR : char := 13%N.
Definition SP : char := 32%N.
Definition HASH : char := 35%N.
Definition PLUS : char := 43%N.
Definition MINUS : char := 45%N.
Definition DOT : char := 46%N.
Definition SLASH : char := 47%N.
Definition EQS : char := 61%N.
Definition USCORE : char := 95%N.

(** Python's character tables. [cc_lower c] is [c.lower()] of a one-character string,
    which may be several characters long. *)
Record CharClass := {
  cc_numeric : char -> bool;   (* c.isnumeric() *)
  cc_alnum : char -> bool;     (* c.isalnum() *)
  cc_space : char -> bool;     (* c.isspace(), the characters str.strip() removes *)
  cc_upper : char -> bool;     (* c.isupper() *)
  cc_lower : char -> str       (* c.lower() *)
}.

(** [a == b] *)
Fixpoint str_eqb (a b : str) : bool :=
  match a, b with
  | [], [] => true
  | x :: a', y :: b' => N.eqb x y && str_eqb a' b'
  | _, _ => false
  end.

(** [s.startswith(p)] *)
Fixpoint starts_with (p s : str) : bool :=
  match p, s with
  | [], _ => true
  | x :: p', y :: s' => N.eqb x y && starts_with p' s'
  | _ :: _, [] => false
  end.

(** [s.endswith(p)] *)
Definition ends_with (p s : str) : bool :=
  Nat.leb (length p) (length s) && str_eqb (skipn (length s - length p) s) p.

(** [x in l] for a list of strings *)
Definition str_mem (x : str) (l : list str) : bool := existsb (str_eqb x) l.

(** [s.split(sep)] for a one-character separator; never empty *)
Fixpoint split_on (sep : char) (s : str) : list str :=
  match s with
  | [] => [[]]
  | c :: s' =>
      if N.eqb c sep then [] :: split_on sep s'
      else match split_on sep s' with
           | [] => [[c]]   (* unreachable: split_on is never empty *)
           | w :: ws => (c :: w) :: ws
           end
  end.

(** [sep.join(parts)] *)
Fixpoint join_with (sep : str) (parts : list str) : str :=
  match parts with
  | [] => []
  | [p] => p
  | p :: ps => p ++ sep ++ join_with sep ps
  end.

(** longest prefix satisfying [f], and the rest *)
Fixpoint span (f : char -> bool) (s : str) : str * str :=
  match s with
  | [] => ([], [])
  | c :: s' => if f c then let (a, b) := span f s' in (c :: a, b) else ([], s)
  end.

(** [s.strip()] : [lstrip], then [rstrip] by reversing *)
Definition lstrip (sp : char -> bool) (s : str) : str := snd (span sp s).
Definition rstrip (sp : char -> bool) (s : str) : str := rev (lstrip sp (rev s)).
Definition strip (sp : char -> bool) (s : str) : str := rstrip sp (lstrip sp s).

(** [s.lower()]; simplification: the context rule for a final capital sigma is ignored *)
Definition str_lower (cc : CharClass) (s : str) : str := flat_map (cc_lower cc) s.

(** [s.replace(c, "")] for a one-character [c] *)
Definition remove_char (c : char) (s : str) : str := filter (fun x => negb (N.eqb x c)) s.

(** What [open(f, "r")] makes of the stored text: universal newlines turn
    "\r\n" and a lone "\r" into "\n". (Writing in text mode on Linux changes nothing.) *)
Fixpoint univ_newlines (s : str) : str :=
  match s with
  | [] => []
  | c :: s' =>
      if N.eqb c CR then
        match s' with
        | d :: s'' => if N.eqb d NL then NL :: univ_newlines s''
                      else NL :: univ_newlines s'
        | [] => [NL]
        end
      else c :: univ_newlines s'
  end.

(** [f"{s:60s}"]: pad with blanks on the right *)
Definition ljust (n : nat) (s : str) : str := s ++ repeat SP (n - length s).

(** an ASCII instance of the tables, used in examples *)
Definition in_range (a b c : N) : bool := N.leb a c && N.leb c b.
Definition ascii_class : CharClass := {|
  cc_numeric := in_range 48 57;
  cc_alnum := fun c => in_range 48 57 c || in_range 65 90 c || in_range 97 122 c;
  cc_space := fun c => in_range 9 13 c || in_range 28 32 c;
  cc_upper := in_range 65 90;
  cc_lower := fun c => if in_range 65 90 c then [(c + 32)%N] else [c]
|}.
