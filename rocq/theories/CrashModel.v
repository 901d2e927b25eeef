(** The process dies while review.py accepts an output. *)
From Verif Require Export ReviewModel.

(** [g] may be found after the process died in freeze_case (review.py:85-98) begun on [f]. rmtree removes file after file, in any
    order: [keep] are the paths not yet removed. A rename is done or not done. *)
Inductive freeze_killed (exp_dir out_dir name : str) (f : fs) : fs -> Prop :=
| killed_before : freeze_killed exp_dir out_dir name f f
| killed_removing keep : is_dir (path_join exp_dir name) f = true ->
    freeze_killed exp_dir out_dir name f (filter (fun e => negb (below (path_join exp_dir name) (fst e)) || keep (fst e)) f)
| killed_moving g h :
    (if path_exists (path_join exp_dir name) f then rmtree (path_join exp_dir name) f else Ret tt f) = Ret tt g ->
    rename_file (path_join out_dir (name ++ lit ".md")) (path_join exp_dir (name ++ lit ".md")) g = Ret tt h ->
    freeze_killed exp_dir out_dir name f h
| killed_after h : freeze_case exp_dir out_dir name f = Ret tt h -> freeze_killed exp_dir out_dir name f h.
