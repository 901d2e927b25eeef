(** requests.py:283-380, httpx.py:183-321: a whole test inside snapshot_requests or snapshot_httpx: what it reads, what it asks, what
    it writes and what it leaves in its directory. *)
From Verif Require Export RunCaseModel.
From Verif Require Import HttpModel HttpFilesModel HttpListModel HttpProps HttpTalkProps.

(** The code of a test that makes requests: the next request depends on what the earlier ones returned or raised, and so does what
    the test does on its TestCaseRun. Requests are made one after another. *)
Record http_test (R X : Type) := { t_next : list (outcome R X) -> option request; t_does : list (outcome R X) -> body_run }.
Arguments t_next {R X}.
Arguments t_does {R X}.

Section HttpTest.
  Variable cc : CharClass.
  Variable sha1 : str -> str.
  Variable jfloat : str -> str.
  Variable R X : Type.
  Variable response_json : R -> option jv.
  Variable response_of : jv -> option R.
  Variable ign : ignore.
  Variable hide : bool.                     (* lose_request_details *)
  Variables (title fname : str).            (* "request snaphots:" and ".requests.json", or those of httpx *)

  (** requests.py:308-313, httpx.py:208-213: the recordings of the snapshot directory; those of older versions of booktest, a
      directory with a file for each request, are in LegacyModel. None: the file cannot be read. *)
  Definition recordings (refresh : bool) (file : option str) : option (list (entry R)) :=
    if refresh then Some [] else match file with None => Some [] | Some t => read_file jfloat R response_of t end.

  (** requests.py:378-380, 351-373, httpx.py:319-321, 292-314: __exit__ writes the file in the output directory of the test and prints the list, also
      when the test raised *)
  Definition with_snapshots (b : body_run) (file : str) (reqs : list (snap R)) : body_run :=
    {| b_ops := b_ops b ++ OH 1 title :: map OTln (snapshot_lines reqs); b_exc := b_exc b; b_files := b_files b ++ [(fname, file)];
       b_tmp := b_tmp b; b_log := b_log b; b_value := b_value b |}.

  (** One run of the test. [file]: the recordings in the snapshot directory; [cs]: its requests, each with what the network would
      return or raise; [os]: what each of them returned or raised; [used]: which of them the network was asked for. *)
  Definition http_run (capture refresh : bool) (file : option str) (T : http_test R X) (cs : list (request * (R + X)))
      (os : list (outcome R X)) (b : body_run) (used : list bool) : Prop :=
    exists files reqs text,
      recordings refresh file = Some files /\
      send_all cc (json_to_sha1 sha1) R X capture (load cc (json_to_sha1 sha1) R ign None files refresh) [] (keyed cc (json_to_sha1 sha1) ign None cs) = (reqs, os, used) /\
      conversation (t_next T) (map fst cs) os /\
      HttpFilesModel.write_file R response_json hide reqs = Some text /\
      b = with_snapshots (t_does T os) text reqs.
End HttpTest.
