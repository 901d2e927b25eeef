(** Specification vocabulary for case reports. *)
From Verif Require Export ReportsModel.

(** texts that can be stored in a field of the report *)
Definition field_ok (s : str) : Prop := ~ In TAB s /\ ~ In NL s /\ ~ In CR s.

(** the float printing and reading used by the report: reading gives back what was printed,
    and the printed text fits into a field *)
Definition durations_ok {D} (show_dur : D -> str) (parse_dur : str -> option D) : Prop :=
  forall d, parse_dur (show_dur d) = Some d /\ field_ok (show_dur d).

(** printable ASCII characters are not white space *)
Definition space_ok (sp : char -> bool) : Prop :=
  forall c : char, (33 <= c <= 126)%N -> sp c = false.

Definition names_ok {D} (cases : list (case_rec D)) : Prop :=
  Forall (fun c => field_ok (rec_name c)) cases.
