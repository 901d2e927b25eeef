(** Specification vocabulary for reviewing and accepting. *)
From Verif Require Export FsModel ReviewModel.

(** [a] is [b] or a directory above [b] (whole path components) *)
Definition path_prefix (a b : str) : Prop := b = a \/ exists r, b = a ++ SLASH :: r.

(** the files below root directory [root] that belong to the case [name]: its .md file and
    everything in its directory *)
Definition case_file (root name p : str) : Prop :=
  p = root ++ SLASH :: name ++ lit ".md" \/ exists r, p = root ++ SLASH :: name ++ SLASH :: r.

(** a directory or case name as the code gets it: not empty, no slash at either end *)
Definition plain (d : str) : Prop := d <> [] /\ starts_with [SLASH] d = false /\ ends_with [SLASH] d = false.
Definition plain_dir (d : str) : Prop := d <> [] /\ ends_with [SLASH] d = false.

(** [f'] is [f] with the output of case [n] below [out] accepted as its snapshot below [exp] *)
Record accepted (exp out n : str) (f f' : fs) : Prop := {
  acc_md : lookup (exp ++ SLASH :: n ++ lit ".md") f' = lookup (out ++ SLASH :: n ++ lit ".md") f;
  acc_files : forall r, lookup (exp ++ SLASH :: n ++ SLASH :: r) f' =
                        lookup (out ++ SLASH :: n ++ SLASH :: r) f;
  acc_moved : forall p, case_file out n p -> lookup p f' = None;
  acc_rest : forall p, ~ case_file exp n p -> ~ case_file out n p -> lookup p f' = lookup p f
}.

(** The answers that end an interactive review. *)
Definition decides (res : result) (a : str) (r : request) : Prop :=
  (a = lit "a" /\ res <> FAIL /\ r = FREEZE) \/ (a = lit "c" /\ r = NONE) \/ (a = lit "q" /\ r = ABORT).

(** the user's answers [answers] decide [r], leaving [rest] unread *)
Definition decision (res : result) (answers : list str) (r : request) (rest : list str) : Prop :=
  exists before a, answers = before ++ a :: rest /\ decides res a r /\
    forall b r', In b before -> ~ decides res b r'.

(** is the user asked *)
Definition asked (c : config) (res : result) : Prop :=
  always_interactive c = true \/ (res <> OK /\ interactive c = true).

(** accepted without asking: -u on OK, -a on DIFF *)
Definition automatic (c : config) (res : result) : Prop :=
  (res = OK /\ update c = true) \/ (res = DIFF /\ accept c = true).

(** the request a review ends with *)
Definition reviewed (c : config) (res : result) (answers : list str) (r : request) (rest : list str) : Prop :=
  (asked c res /\ decision res answers r rest) \/ (~ asked c res /\ r = NONE /\ rest = answers).

(** the paths an acceptance of case [n] may touch below [root]: n.md, n itself, n/... *)
Definition case_area (root n p : str) : Prop :=
  p = path_join root (n ++ lit ".md") \/ p = path_join root n \/ below (path_join root n) p = true.

(** ** --review *)

(** what happened to one recorded case in --review: passed over, or reviewed with a request *)
Definition outcome := option request.

(** one recorded case under --review; [chosen] = selected and not left out by -c *)
Definition reviewed_as {D} (c : config) (chosen : str -> bool) (old new : case_rec D) (o : outcome) : Prop :=
  rec_name new = rec_name old /\ rec_dur new = rec_dur old /\
  match o with
  | None => rec_result new = rec_result old
  | Some r =>
      chosen (rec_name old) = true /\
      ((rec_result new = OK /\ (r = FREEZE \/ automatic c (rec_result old)) /\ rec_result old <> FAIL) \/
       (rec_result new = rec_result old /\ r <> FREEZE /\ ~ automatic c (rec_result old)))
  end.

(** this review stops the review of further cases *)
Definition stops_review {D} (c : config) (new : case_rec D) (o : outcome) : Prop :=
  match o with
  | None => False
  | Some r => r = ABORT \/ (fail_fast c = true /\ rec_result new <> OK)
  end.

Inductive review_trace {D} (c : config) (chosen : str -> bool)
  : bool -> list (case_rec D) -> list (case_rec D) -> list outcome -> Prop :=
| rt_nil st : review_trace c chosen st [] [] []
| rt_stopped old olds news os :
    review_trace c chosen true olds news os ->
    review_trace c chosen true (old :: olds) (old :: news) (None :: os)
| rt_passed old olds news os :
    chosen (rec_name old) = false ->
    review_trace c chosen false olds news os ->
    review_trace c chosen false (old :: olds) (old :: news) (None :: os)
| rt_reviewed old new r st olds news os :
    reviewed_as c chosen old new (Some r) ->
    (st = true <-> stops_review c new (Some r)) ->
    review_trace c chosen st olds news os ->
    review_trace c chosen false (old :: olds) (new :: news) (Some r :: os).
