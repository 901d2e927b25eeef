(** Notions for stating properties of parallel runs. *)
From Verif Require Export ParModel RunCaseSpec ReportsSpec.

(** the files in which booktest itself notes what it does, apart from the table of contents *)
Definition bookkeeping (O p : str) : Prop :=
  path_prefix (O ++ SLASH :: lit ".batches") p \/ In p [O ++ SLASH :: lit "cases.txt"; O ++ SLASH :: lit "metrics.json"; O ++ SLASH :: lit "output.txt"].

(** every test comes after those of the selected tests that it depends on *)
Definition deps_first (deps : str -> list str) (l : list str) : Prop :=
  forall a n b, l = a ++ n :: b -> forall d, In d (deps n) -> In d l -> In d a.

(** the code of [n] reads nothing but the files of [n] and the values of the tests it depends on *)
Definition reads_deps (E O : str) (deps : str -> list str) (n : str) (body : fs -> body_run) : Prop :=
  forall f g, (forall p, area E n p \/ area O n p -> lookup p f = lookup p g) ->
    (forall d, In d (deps n) -> lookup (O ++ SLASH :: d ++ lit ".bin") f = lookup (O ++ SLASH :: d ++ lit ".bin") g) -> body f = body g.
