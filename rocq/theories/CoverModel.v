(** booktest/tests.py:494-543: the end of exec_parsed, with --cov. *)
From Verif Require Export FsModel.
From Coq Require Import ZArith.

(** os.remove: raises for a directory and for what does not exist *)
Definition os_remove (p : str) (f : fs) : io unit := if is_file p f then Ret tt (remove_file p f) else Raise f.

(** tests.py:520-522 *)
Fixpoint remove_old (names : list str) (f : fs) : io unit :=
  match names with
  | [] => Ret tt f
  | i :: rest =>
      if starts_with (lit ".coverage.") i then io_bind (os_remove i f) (fun _ g => remove_old rest g)
      else remove_old rest f
  end.

Section Cover.
(** os.listdir("."), in the order of the operating system *)
Variable listdir : fs -> list str.
(** cov.start(); cov.stop() to cov.xml_report(...); cov.report(): the library coverage *)
Variables cov_start cov_end cov_report : fs -> io unit.
(** run() (495-512): the runner that the options ask for *)
Variable run : fs -> io Z.

(** tests.py:514-543 *)
Definition with_coverage (f : fs) : io Z :=
  io_bind (if path_exists (lit ".coverage") f then os_remove (lit ".coverage") f else Ret tt f) (fun _ f1 =>
  io_bind (remove_old (listdir f1) f1) (fun _ f2 =>
  io_bind (cov_start f2) (fun _ f3 =>
  match run f3 with
  | Ret rv f4 => io_bind (cov_end f4) (fun _ f5 => io_bind (cov_report f5) (fun _ f6 => Ret rv f6))
  | Raise f4 => match cov_end f4 with Ret _ f5 => Raise f5 | Raise f5 => Raise f5 end
  end))).
Definition run_covered (coverage : bool) (f : fs) : io Z := if coverage then with_coverage f else run f.
End Cover.
