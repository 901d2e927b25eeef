(** A whole test under several of the decorators snapshot_env, snapshot_functions, snapshot_requests and snapshot_httpx at once
    (env.py, functions.py, requests.py, httpx.py), each at most once and in any order: what it reads, what it does, what it writes and
    what it leaves in its directory. *)
From Verif Require Export RunCaseModel.
From Verif Require Import HttpTestModel HttpModel HttpFilesModel HttpListModel HttpProps HttpTalkProps.
From Verif Require FuncModel FuncTestModel EnvModel EnvTestModel JsonFilesModel.

(** what a test does with the recorders: call a recorded function, make a request with requests, or one with httpx *)
Inductive action := AFunc (q : FuncTestModel.fcall) | AReq (q : request) | AHx (q : request).
Inductive did (X : Type) := DFunc (o : FuncModel.outcome jv X) | DReq (o : outcome rq_response X) | DHx (o : outcome hx_response X).
Arguments DFunc {X}. Arguments DReq {X}. Arguments DHx {X}.

(** The code of a test: the next action depends on the environment and on how the earlier ones ended, and so does what the test does on
    its TestCaseRun, and the environment that it leaves. *)
Record mixed_test (X : Type) := {
  m_next : EnvModel.environ -> list (did X) -> option action;
  m_does : EnvModel.environ -> list (did X) -> body_run;
  m_leaves : EnvModel.environ -> list (did X) -> EnvModel.environ
}.
Arguments m_next {X}. Arguments m_does {X}. Arguments m_leaves {X}.

(** An action with what the world would do: the value of the function and the requests that its code makes, what the network answers *)
Inductive step (X : Type) :=
| SFunc (q : FuncTestModel.fcall) (inner : list (request * (rq_response + X))) (v : jv + X)
| SReq (q : request) (v : rq_response + X)
| SHx (q : request) (v : hx_response + X).
Arguments SFunc {X}. Arguments SReq {X}. Arguments SHx {X}.
Definition action_of {X} (s : step X) : action := match s with SFunc q _ _ => AFunc q | SReq q _ => AReq q | SHx q _ => AHx q end.

(** the test takes exactly these actions if they end in [os] *)
Definition acting {X} (next : list (did X) -> option action) (qs : list action) (os : list (did X)) : Prop :=
  length qs = length os /\ (forall i q, nth_error qs i = Some q -> next (firstn i os) = Some q) /\ next os = None.

(** the decorators of a test *)
Inductive kind := KEnv | KFunc | KReq | KHx.
Definition kind_dec (a b : kind) : {a = b} + {a <> b}.
Proof. decide equality. Defined.
(** what leaving a block adds to what the test does: calls on its TestCaseRun, and files *)
Definition addition : Type := list op * list (str * str).
Definition add (b : body_run) (a : addition) : body_run :=
  {| b_ops := b_ops b ++ fst a; b_exc := b_exc b; b_files := b_files b ++ snd a; b_tmp := b_tmp b; b_log := b_log b; b_value := b_value b |}.

Section Mix.
  Variable cc : CharClass.
  Variable sha1 : str -> str.
  Variable jfloat : str -> str.
  Variable X : Type.
  Variable names : list str.              (* of snapshot_env *)
  Variables (ign_rq ign_hx : ignore) (hide_rq hide_hx : bool).

  Notation sha := (json_to_sha1 sha1).

  (** the recordings that the blocks have read, and what they have recorded so far *)
  Record loaded := { l_calls : list (str * FuncTestModel.held); l_rq : list (snap rq_response); l_hx : list (snap hx_response) }.
  Record mstate := { s_calls : list (str * FuncTestModel.held); s_rq : list (snap rq_response); s_hx : list (snap hx_response) }.
  Definition nothing : mstate := {| s_calls := []; s_rq := []; s_hx := [] |}.

  (** One action (functions.py:131-150, requests.py:189-223, httpx.py:221-264). The requests that the code of a function makes are
      made only if the function is called. None: the arguments are not JSON. *)
  Definition act (capture : bool) (L : loaded) (st : mstate) (s : step X) : option (mstate * did X * bool) :=
    match s with
    | SFunc q inner v =>
        match FuncTestModel.key_of sha1 q with
        | None => None
        | Some h =>
            let '(calls, o, u) := FuncModel.snapshot FuncTestModel.held X capture (l_calls L) (s_calls st) h
                                    (match v with inl r => inl (FuncTestModel.call_object q h, r) | inr x => inr x end) in
            let rq := if u then fst (fst (send_all cc sha rq_response X capture (l_rq L) (s_rq st) (keyed cc sha ign_rq None inner))) else s_rq st in
            Some ({| s_calls := calls; s_rq := rq; s_hx := s_hx st |}, DFunc (FuncTestModel.result_of X o), u)
        end
    | SReq q v =>
        let '(rq, o, u) := send cc sha rq_response X capture (l_rq L) (s_rq st) (key_of cc sha ign_rq None q) v in
        Some ({| s_calls := s_calls st; s_rq := rq; s_hx := s_hx st |}, DReq o, u)
    | SHx q v =>
        let '(hx, o, u) := send cc sha hx_response X capture (l_hx L) (s_hx st) (key_of cc sha ign_hx None q) v in
        Some ({| s_calls := s_calls st; s_rq := s_rq st; s_hx := hx |}, DHx o, u)
    end.
  Fixpoint acts (capture : bool) (L : loaded) (st : mstate) (cs : list (step X)) : option (mstate * list (did X) * list bool) :=
    match cs with
    | [] => Some (st, [], [])
    | s :: r =>
        match act capture L st s with
        | None => None
        | Some (st1, o, u) => match acts capture L st1 r with None => None | Some (st2, os, us) => Some (st2, o :: os, u :: us) end
        end
    end.

  (** entering the blocks: [dir] are the files of the snapshot directory of the test, [listing] those of .functions there, in the order of
      os.listdir. A block that the test does not have reads nothing, and the test then takes no action of its kind (which would not
      be recorded). *)
  Definition enter (refresh : bool) (dir : str -> option str) (listing : list (str * str)) (stack : list kind) (L : loaded) (cs : list (step X)) : Prop :=
    (if in_dec kind_dec KFunc stack then FuncTestModel.read_all sha1 jfloat refresh listing = Some (l_calls L)
     else l_calls L = [] /\ forall q i v, ~ In (SFunc q i v) cs) /\
    (if in_dec kind_dec KReq stack
     then exists files, recordings jfloat rq_response rq_of refresh (dir (lit ".requests.json")) = Some files /\ l_rq L = load cc sha rq_response ign_rq None files refresh
     else l_rq L = [] /\ forall q v, ~ In (SReq q v) cs) /\
    (if in_dec kind_dec KHx stack
     then exists files, recordings jfloat hx_response hx_of refresh (dir (lit ".httpx.json")) = Some files /\ l_hx L = load cc sha hx_response ign_hx None files refresh
     else l_hx L = [] /\ forall q v, ~ In (SHx q v) cs).

  (** leaving a block (EnvTestModel with_env, FuncTestModel with_calls, HttpTestModel with_snapshots) *)
  Definition adds (st : mstate) (d : EnvModel.table) (k : kind) (a : addition) : Prop :=
    match k with
    | KEnv => exists text, JsonFilesModel.env_file d = Some text /\
        a = (OH 1 (lit "env snaphots:") :: map OTln (EnvTestModel.env_lines d), [(lit ".env.json", text)])
    | KFunc => exists lines files, FuncTestModel.listed_lines (s_calls st) = Some lines /\ FuncTestModel.stored (s_calls st) = Some files /\
        a = (OH 1 (lit "function call snapshots:") :: map OTln lines, files)
    | KReq => exists text, HttpFilesModel.write_file rq_response rq_json hide_rq (s_rq st) = Some text /\
        a = (OH 1 (lit "request snaphots:") :: map OTln (snapshot_lines (s_rq st)), [(lit ".requests.json", text)])
    | KHx => exists text, HttpFilesModel.write_file hx_response hx_json hide_hx (s_hx st) = Some text /\
        a = (OH 1 (lit "httpx snaphots:") :: map OTln (snapshot_lines (s_hx st)), [(lit ".httpx.json", text)])
    end.

  (** One run of the test in which no block raises. [stack]: its decorators, from the innermost out; [refresh], [complete]: -S and -s;
      [cs]: its actions; [os]: how they ended; [used]: which of them called the function or asked the network; [e]: the environment before, [e']: after. *)
  Definition mixed_run (refresh complete : bool) (dir : str -> option str) (listing : list (str * str)) (stack : list kind) (T : mixed_test X)
      (e : EnvModel.environ) (cs : list (step X)) (os : list (did X)) (b : body_run) (used : list bool) (e' : EnvModel.environ) : Prop :=
    exists L st inside d al,
      enter refresh dir listing stack L cs /\
      (if in_dec kind_dec KEnv stack
       then exists file, EnvTestModel.recorded_env jfloat refresh (dir (lit ".env.json")) = Some file /\
              EnvModel.snap_block names file refresh complete (fun _ => m_leaves T inside os) e = (e', true, Some d) /\
              inside = EnvModel.s_env (EnvModel.snap_start names file refresh complete e)
       else inside = e /\ e' = m_leaves T e os) /\
      acts (refresh || complete) L nothing cs = Some (st, os, used) /\
      acting (m_next T inside) (map action_of cs) os /\
      Forall2 (adds st d) stack al /\
      b = fold_left add al (m_does T inside os).
End Mix.
