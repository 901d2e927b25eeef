(** What a test execution does to the logger and to sys.stderr (testcaserun.py), and setup and
    teardown around tests (utils.py). *)
From Coq Require Export List Arith Bool.
Export ListNotations.

(** ** The logger and stderr *)

(** Objects are numbers: files, and list objects holding handlers. *)
Record world := {
  stderr : option nat;               (* sys.stderr: None or a file object *)
  handlers : nat;                    (* logging.getLogger().handlers: a list object *)
  lists : nat -> list nat;           (* what list objects contain: handlers, each named after its file *)
  closed : nat -> bool;              (* files that were closed *)
  fresh : nat                        (* all objects are below *)
}.
(** the fields of TestCaseRun concerned *)
Record tcr := { orig_err : option nat; orig_handlers : option nat; err : option nat; log : option nat }.

(** testcaserun.py:71-81 in __init__ *)
Definition tcr_init (w : world) : tcr * world :=
  let e := None in                                             (* self.err *)
  ({| orig_err := stderr w; orig_handlers := None; err := e; log := None |},
   {| stderr := e; handlers := handlers w; lists := lists w; closed := closed w; fresh := fresh w |}).

(** testcaserun.py:269-289 open (the files .md and .txt left out) *)
Definition tcr_open (t : tcr) (w : world) : tcr * world :=
  let e := fresh w in
  let l := S (fresh w) in
  ({| orig_err := stderr w; orig_handlers := Some (handlers w); err := Some e; log := Some e |},
   {| stderr := Some e; handlers := l;
      lists := fun x => if x =? l then [e] else lists w x;
      closed := closed w; fresh := S (S (fresh w)) |}).

(** testcaserun.py:292-316 close; None: self.err is None (AttributeError) *)
Definition tcr_close (t : tcr) (w : world) : option (tcr * world) :=
  match err t with
  | None => None
  | Some e =>
      Some ({| orig_err := None; orig_handlers := None; err := None; log := None |},
            {| stderr := match orig_err t with Some o => Some o | None => stderr w end;
               handlers := match orig_handlers t with Some o => o | None => handlers w end;
               lists := lists w;
               closed := fun x => if x =? e then true else closed w x;
               fresh := fresh w |})
  end.

(** how the code of a test ends: it returns, it raises an Exception, or something else is raised
    (KeyboardInterrupt, SystemExit) *)
Inductive ending := Returns | Raises | Interrupts.
Definition body := world -> world * ending.

(** testrun.py:88-107 run_case, as far as it concerns the logger and stderr; false: the exception goes on.
    Reporting and review (in end) don't touch them. *)
Definition run_case (b : body) (w : world) : world * bool :=
  let (t0, w0) := tcr_init w in
  let (t1, w1) := tcr_open t0 w0 in
  let (w2, e) := b w1 in
  match e with
  | Interrupts => (w2, false)
  | _ => match tcr_close t1 w2 with Some (_, w3) => (w3, true) | None => (w2, false) end
  end.

Fixpoint run_all (bs : list body) (w : world) : world * bool :=
  match bs with
  | [] => (w, true)
  | b :: r => match run_case b w with
              | (w', true) => run_all r w'
              | x => x
              end
  end.

(** ** Setup and teardown *)
Section Setup.
  Variable W : Type.                 (* what the code acts on *)
  Variable X : Type.                 (* exceptions *)
  Variable stop_iteration : X.

  (** a generator: the code until the next yield, which may also return or raise *)
  Inductive gen := Gen (resume : W -> W * step)
  with step := Yields (g : gen) | Stops | Fails (e : X).
  Definition resume (g : gen) : W -> W * step := match g with Gen f => f end.

  Inductive outcome := Done | Thrown (e : X).
  Definition code := W -> W * outcome.

  (** utils.py:6-23: with SetupTeardown(g): body *)
  Definition setup_block (g : gen) (b : code) : code := fun w =>
    match resume g w with                                        (* __enter__: next(generator) *)
    | (w1, Stops) => (w1, Thrown stop_iteration)
    | (w1, Fails e) => (w1, Thrown e)
    | (w1, Yields g') =>
        let (w2, o) := b w1 in
        match resume g' w2 with                                  (* __exit__, returning None *)
        | (w3, Fails e) => (w3, Thrown e)
        | (w3, _) => (w3, o)
        end
    end.

  (** utils.py:26-36 the decorator, and utils.py:39-47 combine_decorators *)
  Definition setup_teardown (g : gen) : code -> code := setup_block g.
  Definition combine_decorators (ds : list (code -> code)) (f : code) : code := fold_left (fun rv d => d rv) ds f.

  (** detection.py:25-33 BookTestSetup: no setup given does nothing *)
  Definition empty_setup_teardown : gen := Gen (fun w => (w, Yields (Gen (fun w => (w, Stops))))).
  Definition process_setup (given : option gen) : gen := match given with None => empty_setup_teardown | Some g => g end.

  (** runs.py:78-98 RunBatch.__call__: the exit code, or None if rv is not bound (UnboundLocalError). [run]: run.run() *)
  Definition run_batch (given : option gen) (run : W -> W * (nat + X)) (w : W) : W * option nat :=
    match resume (process_setup given) w with
    | (w1, Yields g') =>
        match run w1 with
        | (w2, inl code) => (fst (resume g' w2), Some code)      (* rv is bound; teardown may still raise *)
        | (w2, inr _) => (fst (resume g' w2), None)
        end
    | (w1, _) => (w1, None)
    end.
End Setup.
Arguments Gen {W X}. Arguments Yields {W X}. Arguments Stops {W X}. Arguments Fails {W X}.
Arguments resume {W X}. Arguments Done {X}. Arguments Thrown {X}.
