(** requests.py:370-373, httpx.py:311-314 t_snapshots: the list of requests printed at the end of a test. *)
From Verif Require Export HttpModel.
From Verif Require Import HttpFilesModel.

(** key=lambda i: (i.request.url(), i.hash()), compared as tuples of texts *)
Definition list_key {R} (s : snap R) : str * str := (o_url (k_obj (fst s)), k_hash (fst s)).
Definition pair_less (a b : str * str) : bool :=
  str_less (fst a) (fst b) || (str_eqb (fst a) (fst b) && str_less (snd a) (snd b)).
(** sorted, stable *)
Fixpoint insert_by {A} (key : A -> str * str) (x : A) (l : list A) : list A :=
  match l with
  | [] => [x]
  | y :: r => if pair_less (key y) (key x) then y :: insert_by key x r else x :: l
  end.
Definition sorted_by {A} (key : A -> str * str) (l : list A) : list A := fold_right (insert_by key) [] l.
(** the lines passed to tln *)
Definition snapshot_lines {R} (requests : list (snap R)) : list str :=
  map (fun s => lit " * " ++ o_url (k_obj (fst s)) ++ lit " - " ++ k_hash (fst s)) (sorted_by list_key requests).
