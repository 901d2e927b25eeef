(** tests.py:496-505 with -p: parallel_run_tests as a part of the command, which MainModel takes as a parameter. *)
From Verif Require Export MainModel ParConsoleModel.
From Verif Require ConfigModel.
From Coq Require Import ZArith.

(** runs.py:154-158: tests.method_dependencies without a directory of results, so all dependencies that are tests *)
Definition case_deps (o : objects) (tests : list (str * meth)) (cases : list str) (n : str) : list str :=
  match get_case tests n with
  | None => []
  | Some m => method_dependencies o tests m cases (fun _ => false)
  end.

(** runs.py:311, 351-352, 417 *)
Definition par_code {R} (x : bool * R * str) : option Z * str := (Some (if fst (fst x) then 0 else -1)%Z, snd x).

Section ParMain.
Context {D : Type} (show_dur : D -> str) (parse_dur : str -> option D) (sp : char -> bool).
Variable show_ms : D -> str.
Variable show_nat : nat -> str.
Variable cc : CharClass.
Variable refloat : str -> option str.
Variable o : objects.
Variable body : ConfigModel.config -> str -> fs -> body_run.
Variable dur : str -> D.
Variables printed metrics_of : str -> str.
Variable took : str.

(** [v] is what some call of parallel_run_tests comes to: any interleaving of the workers, any order in which they end. As in ParModel
    nothing aborts the run. *)
Definition parallel_call (tests : list (str * meth)) (root : str) (c : ConfigModel.config) (cases : list str) (f : fs) (v : io (option Z * str)) : Prop :=
  let deps := case_deps o tests (par_todo (out_of_root root) (run_config c) parse_dur sp cases f) in
  exists x, parallel_run_out cc refloat root (out_of_root root) (run_config c) (body c) show_dur parse_dur sp show_ms show_nat (shown_config show_nat c)
              dur (all_names tests) printed metrics_of took deps cases f x /\
    v = match x with Raise g => Raise g | Ret y g => Ret (par_code y) g end.

(** one of them: each worker runs from its start to its end, in the order of the tests *)
Definition one_by_one (tests : list (str * meth)) (root : str) (c : ConfigModel.config) (cases : list str) (f : fs) : io (option Z * str) :=
  let R := run_config c in let O := out_of_root root in
  let todo := par_todo O R parse_dur sp cases f in
  let g := fst (in_turn (worker cc refloat root O R (body c) show_dur parse_dur sp dur (all_names tests) printed metrics_of) todo
                        (par_prepare O R show_dur parse_dur sp cases f)) in
  match par_finish_out root O R show_dur parse_dur sp show_ms show_nat (shown_config show_nat c) (all_names tests) took
          (par_kept O R parse_dur sp cases f) todo todo g with
  | Raise h => Raise h
  | Ret y h => Ret (par_code y) h
  end.
End ParMain.
