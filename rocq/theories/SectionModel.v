(** Vocabulary for C14: tests and snapshots made of sections. No code of its own: the calls are those of CaseRunModel. *)
From Verif Require Export CaseRunModel CaseRunSpec.

Record section := { sec_head : str; sec_checked : list str; sec_free : list str }.
(** what the test calls for a section *)
Definition section_ops (x : section) : list op := OHeader (sec_head x) :: map OTln (sec_checked x) ++ map OIln (sec_free x).
(** the lines that it writes, without the separating empty line *)
Definition section_lines (x : section) : list str := sec_head x :: [] :: sec_checked x ++ sec_free x.
(** the lines of the whole output *)
Definition layout (xs : list section) : list str :=
  match xs with
  | [] => []
  | x :: r => section_lines x ++ flat_map (fun y => [] :: section_lines y) r
  end.
Definition plain_line (l : str) : Prop := ~ In NL l /\ ~ In NUL l /\ ~ In CR l.
