(** functions.py:109-230: a whole test inside snapshot_functions: what it reads, which functions it calls, what it writes and what it
    leaves in its directory. *)
From Verif Require Export RunCaseModel JsonFilesModel.
From Verif Require Import FuncModel.

(** a call: the __qualname__ of the function, the arguments and the keyword arguments *)
Definition fcall : Type := str * list jv * list (str * jv).
(** The code of a test: the next call of a recorded function depends on what the earlier ones returned or raised, and so does what
    the test does on its TestCaseRun. It does not change arguments or results after the call (see FuncHeapModel). *)
Record func_test (X : Type) := { f_next : list (outcome jv X) -> option fcall; f_does : list (outcome jv X) -> body_run }.
Arguments f_next {X}.
Arguments f_does {X}.
(** the test makes exactly these calls if they end in [os] *)
Definition calling {X} (T : func_test X) (qs : list fcall) (os : list (outcome jv X)) : Prop :=
  length qs = length os /\ (forall i q, nth_error qs i = Some q -> f_next T (firstn i os) = Some q) /\ f_next T os = None.

Section FuncTest.
  Variable sha1 refloat : str -> str.
  Variable X : Type.

  (** a FunctionCallSnapshot: the json_object of its call, which has a "hash", and the result *)
  Definition held : Type := list (jkey * jv) * jv.

  Definition key_of (q : fcall) : option str := let '(name, args, kwargs) := q in call_key sha1 name args kwargs.
  (** functions.py:15-26, 44-50 *)
  Definition call_object (q : fcall) (h : str) : list (jkey * jv) :=
    let '(name, args, kwargs) := q in call_entries name args kwargs ++ [(JKStr (lit "hash"), JStr h)].

  (** functions.py:22-24: self.json_object["hash"] = hash_code *)
  Fixpoint set_hash (h : str) (d : list (jkey * jv)) : list (jkey * jv) :=
    match d with
    | [] => [(JKStr (lit "hash"), JStr h)]
    | (JKStr k, v) :: r => if str_eqb k (lit "hash") then (JKStr k, JStr h) :: r else (JKStr k, v) :: set_hash h r
    | e :: r => e :: set_hash h r
    end.
  (** functions.py:159-162, 67-70, 15-26: a file that is read. A call that is not a dict, or whose hash is neither a text, nor null nor missing,
      cannot come from a written file and is not modelled (None, like an exception). *)
  Definition read_held (file : str) : option (str * held) :=
    match loads refloat (univ_newlines file) with
    | None => None
    | Some v =>
        match field (lit "call") v, field (lit "result") v with
        | Some (JDict c), Some r =>
            match dict_get (lit "hash") c with
            | Some (JStr h) => Some (h, (c, r))
            | Some JNone | None => match dumps None 0 (JDict c) with Some t => Some (sha1 t, (set_hash (sha1 t) c, r)) | None => None end
            | _ => None
            end
        | _, _ => None
        end
    end.
  (** functions.py:157-162; [listing]: the files of the directory .functions among the snapshots, in the order of os.listdir. None: one of
      them cannot be read. *)
  Definition read_all (refresh : bool) (listing : list (str * str)) : option (list (str * held)) :=
    if refresh then Some [] else all_of (map read_held (map snd listing)).

  (** functions.py:72-77, 185-186: the file that is written *)
  Definition held_file (e : held) : option str := dumps (Some 4) 0 (JDict [(JKStr (lit "call"), JDict (fst e)); (JKStr (lit "result"), snd e)]).
  (** functions.py:180-186 stop: the files, in the directory of the test; None: TypeError *)
  Definition stored (calls : list (str * held)) : option (list (str * str)) :=
    all_of (map (fun e : str * held => option_map (fun t => (lit ".functions/" ++ fst e ++ lit ".json", t)) (held_file (snd e))) calls).
  (** functions.py:192-195 t_snapshots; None: the call has no "func" (KeyError), or it is not a text (not modelled) *)
  Definition listed_lines (calls : list (str * held)) : option (list str) :=
    all_of (map (fun e : str * held => match dict_get (lit "func") (fst (snd e)) with
                          | Some (JStr name) => Some (lit " * " ++ name ++ lit " - " ++ fst e)
                          | _ => None
                          end) calls).
  (** functions.py:202-204: __exit__ prints the list and writes the files, also when the test raised *)
  Definition with_calls (b : body_run) (lines : list str) (files : list (str * str)) : body_run :=
    {| b_ops := b_ops b ++ OH 1 (lit "function call snapshots:") :: map OTln lines; b_exc := b_exc b; b_files := b_files b ++ files;
       b_tmp := b_tmp b; b_log := b_log b; b_value := b_value b |}.

  (** what the test gets *)
  Definition result_of (o : outcome held X) : outcome jv X :=
    match o with Returned e => Returned (snd e) | Missing => Missing | Raised x => Raised x end.
  (** a call as [FuncModel.run_calls] wants it: its hash, and what is kept if the function is called now *)
  Definition hashed (c : fcall * (jv + X)) : option (str * (held + X)) :=
    option_map (fun h => (h, match snd c with inl v => inl (call_object (fst c) h, v) | inr x => inr x end)) (key_of (fst c)).

  (** One run of the test. [listing]: the recordings in the snapshot directory; [cs]: its calls, each with what the function would
      return or raise; [os]: what each of them returned or raised; [used]: which of them called the function. *)
  Definition func_run (capture refresh : bool) (listing : list (str * str)) (T : func_test X) (cs : list (fcall * (jv + X)))
      (os : list (outcome jv X)) (b : body_run) (used : list bool) : Prop :=
    exists loaded ks calls hos lines files,
      read_all refresh listing = Some loaded /\
      all_of (map hashed cs) = Some ks /\
      run_calls held X capture loaded [] ks = (calls, hos, used) /\
      os = map result_of hos /\
      calling T (map fst cs) os /\
      listed_lines calls = Some lines /\
      stored calls = Some files /\
      b = with_calls (f_does T os) lines files.
End FuncTest.
