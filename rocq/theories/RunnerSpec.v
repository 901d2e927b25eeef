(** Specification vocabulary for sequential runs and histories of runs. *)
From Verif Require Export RunnerModel ReportsSpec.

Section Spec.
Context {D W : Type} (exec : str -> W -> result * request * D * W).

(** [executions w l w']: the cases of [l] were executed one after the other, leading from
    world [w] to [w'] *)
Inductive executions : W -> list (case_rec D * request) -> W -> Prop :=
| ex_nil w : executions w [] w
| ex_cons name res req dur w w1 l w2 :
    exec name w = (res, req, dur, w1) -> executions w1 l w2 ->
    executions w (((name, res, dur), req) :: l) w2.

(** nothing is run after this case *)
Definition stops (ff : bool) (x : case_rec D * request) : Prop :=
  snd x = ABORT \/ (ff = true /\ rec_result (fst x) <> OK).
End Spec.

(** ** Histories *)

(** What can happen to the report file. Each event may be cut short by a crash, leaving the
    first [k] characters of what was to be written ([k] large: no crash). *)
Inductive event (D : Type) :=
| ERun (with_c : bool) (selected : list str) (executed : list (case_rec D)) (k : nat)
| EReview (reviews : list (case_rec D * case_rec D)) (k : nat)   (* old and new record *)
| EForget (cases : list str) (k : nat).
Arguments ERun {D}. Arguments EReview {D}. Arguments EForget {D}.

Section History.
Context {D : Type} (show_dur : D -> str) (parse_dur : str -> option D) (sp : char -> bool).

Let read := of_file parse_dur sp.
Let save (k : nat) (recs : list (case_rec D)) : option str := Some (firstn k (report_text show_dur recs)).

(** [step file e file']: event [e] takes the report file from [file] to [file'].
    A run may end at any case: [executed] are those it finished, each once and each to be run. *)
Inductive step : option str -> event D -> option str -> Prop :=
| step_run file with_c selected executed k todo :
    todo = snd (cases_to_done_and_todo (read file) with_c selected) ->
    NoDup (map rec_name executed) -> incl (map rec_name executed) todo ->
    Forall field_ok selected ->
    step file (ERun with_c selected executed k) (save k (kept (read file) todo ++ executed))
| step_review file reviews k :
    map fst reviews = read file ->
    Forall (fun x => rec_name (snd x) = rec_name (fst x) /\
       (rec_result (snd x) = rec_result (fst x) \/
        (rec_result (fst x) = DIFF /\ rec_result (snd x) = OK))) reviews ->
    step file (EReview reviews k) (save k (map snd reviews))
| step_forget file cases k :
    step file (EForget cases k) (save k (forget cases (read file))).

Inductive history : list (event D) -> option str -> Prop :=
| hist_nil : history [] None
| hist_snoc h e file file' : history h file -> step file e file' -> history (h ++ [e]) file'.

(** the result case [n] got in event [e], if it was executed, or changed by a review *)
Definition gets (e : event D) (n : str) (r : result) : Prop :=
  match e with
  | ERun _ _ executed _ => exists d, In (n, r, d) executed
  | EReview reviews _ => exists o d, In (o, (n, r, d)) reviews /\ rec_result o <> r
  | EForget _ _ => False
  end.

(** [r] is the latest result case [n] got in the history [h] *)
Definition latest (h : list (event D)) (n : str) (r : result) : Prop :=
  exists h1 e h2, h = h1 ++ e :: h2 /\ gets e n r /\ forall e' r', In e' h2 -> ~ gets e' n r'.

(** with [-c] case [n] is skipped by a run that finds the report [file] *)
Definition skipped (file : option str) (with_c : bool) (selected : list str) (n : str) : Prop :=
  In n selected /\ ~ In n (snd (cases_to_done_and_todo (read file) with_c selected)).
End History.
