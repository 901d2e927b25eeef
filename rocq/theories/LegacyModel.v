(** requests.py:283-320, httpx.py:183-219: the recordings that an older version of booktest left, one file for each request in the
    directory .requests or .httpx of the snapshot, besides those of .requests.json or .httpx.json. *)
From Verif Require Export RunCaseModel.
From Verif Require Import HttpModel HttpFilesModel HttpListModel HttpProps HttpTalkProps HttpTestModel.

Section Legacy.
  Variable cc : CharClass.
  Variable sha1 : str -> str.
  Variable jfloat : str -> str.
  Variable R X : Type.
  Variable response_json : R -> option jv.
  Variable response_of : jv -> option R.
  Variable ign : ignore.
  Variable hide : bool.
  Variables (title fname : str).

  (** requests.py:63-67, httpx.py:53-57: a file may have no hash (or null), then it is that of the other entries *)
  Definition old_hash (v : jv) (o : obj) : option str :=
    match field (lit "hash") v with
    | Some (JStr h) => Some h
    | None | Some JNone => Some (k_hash (request_key cc (json_to_sha1 sha1) ign None None o))
    | Some _ => None
    end.
  (** the request of a file, as HttpFilesModel.request_of *)
  Definition old_request (v : jv) : option (obj * str) :=
    match field (lit "url") v, field (lit "method") v, optional texts_of (field (lit "headers") v), optional text_of (field (lit "body") v),
          optional count_of (field (lit "order") v) with
    | Some (JStr url), Some (JStr method), Some headers, Some body, Some order =>
        let o := {| o_url := url; o_method := method; o_headers := headers; o_body := body; o_order := order |} in
        match old_hash v o with Some h => Some (o, h) | None => None end
    | _, _, _, _, _ => None
    end.
  (** requests.py:303-306, httpx.py:203-206: one file of the directory. None: it is no such file. The first component of an entry,
      its key in .requests.json, is not looked at. *)
  Definition old_file (text : str) : option (entry R) :=
    match loads jfloat (univ_newlines text) with
    | Some v =>
        match field (lit "request") v, field (lit "response") v with
        | Some q, Some r => match old_request q, response_of r with Some (o, h), Some r => Some (h, (o, h, r)) | _, _ => None end
        | _, _ => None
        end
    | None => None
    end.
  (** requests.py:297-314, httpx.py:198-215; [old]: the files of the directory in the order of os.listdir *)
  Definition old_recordings (refresh : bool) (old : list str) (file : option str) : option (list (entry R)) :=
    if refresh then Some []
    else match all_of (map old_file old), recordings jfloat R response_of refresh file with
         | Some a, Some b => Some (a ++ b)
         | _, _ => None
         end.
  (** one run of a test, as HttpTestModel.http_run *)
  Definition old_run (capture refresh : bool) (old : list str) (file : option str) (T : http_test R X) (cs : list (HttpProps.request * (R + X)))
      (os : list (outcome R X)) (b : body_run) (used : list bool) : Prop :=
    exists files reqs text,
      old_recordings refresh old file = Some files /\
      send_all cc (json_to_sha1 sha1) R X capture (load cc (json_to_sha1 sha1) R ign None files refresh) [] (keyed cc (json_to_sha1 sha1) ign None cs) = (reqs, os, used) /\
      conversation (t_next T) (map fst cs) os /\
      HttpFilesModel.write_file R response_json hide reqs = Some text /\
      b = with_snapshots R title fname (t_does T os) text reqs.
End Legacy.
