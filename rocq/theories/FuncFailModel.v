(** functions.py:175-204: the end of a snapshot_functions block in which a recorded result cannot be written as JSON (bytes, a set, an object
    of a class, a coroutine): json.dump raises TypeError inside __exit__, which is an exception of the test (testrun.py:92-100). *)
From Verif Require Export FuncTestModel.
From Verif Require Import FuncModel.

Section FuncFail.
  Variable sha1 refloat : str -> str.
  Variable X : Type.

  (** functions.py:180-186: the files of the calls before the bad one are complete; the file of the bad call is open and has some beginning of
      its text ([begun]); those after it are not written. *)
  Definition stop_raises (calls : list (str * held)) (files : list (str * str)) : Prop :=
    exists pre h e post earlier begun,
      calls = pre ++ (h, e) :: post /\ stored pre = Some earlier /\ held_file e = None /\
      files = earlier ++ [(lit ".functions/" ++ h ++ lit ".json", begun)].

  (** functions.py:202-204: the list is printed before the files are written; the exception of __exit__ replaces that of the block *)
  Definition with_raise (b : body_run) (lines : list str) (files : list (str * str)) (exc : str * str) : body_run :=
    {| b_ops := b_ops (with_calls b lines files); b_exc := Some exc; b_files := b_files (with_calls b lines files);
       b_tmp := b_tmp b; b_log := b_log b; b_value := b_value b |}.

  (** as [func_run], with the message and the traceback [exc] of the TypeError *)
  Definition func_run_raises (capture refresh : bool) (listing : list (str * str)) (T : func_test X) (cs : list (fcall * (jv + X)))
      (os : list (outcome jv X)) (b : body_run) (used : list bool) (exc : str * str) : Prop :=
    exists loaded ks calls hos lines files,
      read_all sha1 refloat refresh listing = Some loaded /\
      all_of (map (hashed sha1 X) cs) = Some ks /\
      run_calls held X capture loaded [] ks = (calls, hos, used) /\
      os = map (result_of X) hos /\
      calling T (map fst cs) os /\
      listed_lines calls = Some lines /\
      stop_raises calls files /\
      b = with_raise (f_does T os) lines files exc.
End FuncFail.
