(** requests.py and httpx.py: the JSON texts that are hashed, written to .requests.json and .httpx.json, and read back. *)
From Verif Require Export JsonModel BytesModel HttpModel.
From Verif Require Export JsonFilesModel.

(** ** json.dumps(..., sort_keys=True) *)

(** comparison of texts by code points *)
Fixpoint str_less (a b : str) : bool :=
  match a, b with
  | _, [] => false
  | [], _ :: _ => true
  | x :: a', y :: b' => N.ltb x y || (N.eqb x y && str_less a' b')
  end.
(** json/encoder.py _iterencode_dict: sorted(dct.items()); the keys are texts, distinct in a dict *)
Definition key_less (a b : jkey) : bool := match a, b with JKStr s, JKStr t => str_less s t | _, _ => false end.
Fixpoint insert_item (x : jkey * jv) (l : list (jkey * jv)) : list (jkey * jv) :=
  match l with
  | [] => [x]
  | y :: r => if key_less (fst x) (fst y) then x :: l else y :: insert_item x r
  end.
Definition sort_items (l : list (jkey * jv)) : list (jkey * jv) := fold_right insert_item [] l.
Fixpoint sort_keys (v : jv) : jv :=
  match v with
  | JList l => JList (map sort_keys l)
  | JTuple l => JTuple (map sort_keys l)
  | JDict d => JDict (sort_items (map (fun kv => (fst kv, sort_keys (snd kv))) d))
  | _ => v
  end.

(** ** The request *)

Definition texts_value (h : list (str * str)) : jv := JDict (map (fun kv => (JKStr (fst kv), JStr (snd kv))) h).
Definition entry_of (name : str) (o : option jv) : list (jkey * jv) := match o with Some v => [(JKStr name, v)] | None => [] end.
(** requests.py:103-109 / httpx.py:94-100, and 74 / 64: the JSON object of a request, without its hash *)
Definition request_entries (o : obj) : list (jkey * jv) :=
  [(JKStr (lit "url"), JStr (o_url o)); (JKStr (lit "method"), JStr (o_method o))] ++
  entry_of (lit "headers") (option_map texts_value (o_headers o)) ++
  entry_of (lit "body") (option_map JStr (o_body o)) ++
  entry_of (lit "order") (option_map (fun n => JInt (Z.of_nat n)) (o_order o)).
(** requests.py:19-23 json_to_sha1 *)
Definition request_text (o : obj) : str :=
  match dumps None 0 (sort_keys (JDict (request_entries o))) with Some t => t | None => [] end.
Definition json_to_sha1 (sha1 : str -> str) (o : obj) : str := sha1 (request_text o).

(** a body: text or bytes *)
Inductive body := BText (s : str) | BBytes (b : bytes).
(** requests.py:26-33 default_encode_body; None: UnicodeEncodeError *)
Definition default_encode_body (b : body) : option str :=
  match (match b with BText s => utf8_encode s | BBytes b => Some b end) with
  | Some b => Some (b64encode b)
  | None => None
  end.

(** the texts of a dict that was read *)
Definition texts_of (v : jv) : option (list (str * str)) :=
  match v with
  | JDict d => all_of (map (fun kv => match kv with (JKStr k, JStr s) => Some (k, s) | _ => None end) d)
  | _ => None
  end.
(** an entry that may be missing; None: it has another type than the code writes *)
Definition optional {B A} (read : B -> option A) (o : option B) : option (option A) :=
  match o with None => Some None | Some v => match read v with Some a => Some (Some a) | None => None end end.
Definition text_of (v : jv) : option str := match v with JStr s => Some s | _ => None end.
Definition count_of (v : jv) : option nat := match v with JInt z => if Z.leb 0 z then Some (Z.to_nat z) else None | _ => None end.
(** requests.py:150 / httpx.py:146: the request of a file, with its hash. Files with entries of other types than the code writes, or
    without a hash, are not modelled (None). *)
Definition request_of (v : jv) : option (obj * str) :=
  match field (lit "url") v, field (lit "method") v, optional texts_of (field (lit "headers") v), optional text_of (field (lit "body") v),
        optional count_of (field (lit "order") v), field (lit "hash") v with
  | Some (JStr url), Some (JStr method), Some headers, Some body, Some order, Some (JStr hash) =>
      Some ({| o_url := url; o_method := method; o_headers := headers; o_body := body; o_order := order |}, hash)
  | _, _, _, _, _, _ => None
  end.

(** ** The files *)
Section File.
  Variable refloat : str -> str.
  Variable R : Type.
  Variable response_json : R -> option jv.   (* the "response" entry of json_object; None: it raises *)
  Variable response_of : jv -> option R.     (* the response that from_json_object makes of it; None: it raises *)

  (** requests.py:153-164 / httpx.py:149-166 json_object, with 81-91 / 71-81 to_json_object *)
  Definition snap_json (hide : bool) (s : key * R) : option (str * jv) :=
    let (o, hash) := to_json_object hide (fst s) in
    match response_json (snd s) with
    | Some r => Some (hash, JDict [(JKStr (lit "request"), JDict (request_entries o ++ [(JKStr (lit "hash"), JStr hash)])); (JKStr (lit "response"), r)])
    | None => None
    end.
  (** requests.py:361-368 / httpx.py:302-309 *)
  Definition write_file (hide : bool) (requests : list (key * R)) : option str :=
    match all_of (map (snap_json hide) requests) with
    | Some l => dumps (Some 4) 0 (str_dict (dict_of l))
    | None => None
    end.
  (** requests.py:308-313, 141-151 / httpx.py:208-213, 135-147: the entries of the file *)
  Definition entry_read (kv : jkey * jv) : option (entry R) :=
    match fst kv, field (lit "request") (snd kv), field (lit "response") (snd kv) with
    | JKStr name, Some q, Some r =>
        match request_of q, response_of r with Some (o, h), Some r => Some (name, (o, h, r)) | _, _ => None end
    | _, _, _ => None
    end.
  Definition read_file (file : str) : option (list (entry R)) :=
    match loads refloat (univ_newlines file) with
    | Some (JDict d) => all_of (map entry_read d)
    | _ => None
    end.
  (** a response through the file *)
  Definition response_disk (r : R) : option R := match response_json r with Some v => response_of v | None => None end.
End File.

(** ** The responses *)

(** requests.Response: what is recorded of it. The url, reason, history, cookies and the elapsed time are not. *)
Record rq_response := { rq_status : Z; rq_headers : list (str * str); rq_encoding : option str; rq_content : bytes }.
(** requests.py:156-161; None: UnicodeDecodeError of content.decode() *)
Definition rq_json (r : rq_response) : option jv :=
  match utf8_decode (rq_content r) with
  | Some t => Some (JDict [(JKStr (lit "headers"), texts_value (rq_headers r)); (JKStr (lit "statusCode"), JInt (rq_status r));
                           (JKStr (lit "encoding"), match rq_encoding r with Some e => JStr e | None => JNone end); (JKStr (lit "content"), JStr t)])
  | None => None
  end.
(** requests.py:142-148 *)
Definition rq_of (v : jv) : option rq_response :=
  match field (lit "headers") v, field (lit "statusCode") v, field (lit "encoding") v, field (lit "content") v with
  | Some h, Some (JInt status), Some e, Some (JStr t) =>
      match texts_of h, (match e with JStr e => Some (Some e) | JNone => Some None | _ => None end), utf8_encode t with
      | Some h, Some e, Some b => Some {| rq_status := status; rq_headers := h; rq_encoding := e; rq_content := b |}
      | _, _, _ => None
      end
  | _, _, _, _ => None
  end.

(** httpx.Response: what is recorded of it, and what the constructor is given when it is read *)
Record hx_response := { hx_status : Z; hx_headers : list (str * str); hx_content : bytes }.
(** httpx.py:150-164; the names of httpx.Headers are in lower case *)
Definition hx_json (r : hx_response) : option jv :=
  Some (JDict [(JKStr (lit "headers"), texts_value (filter (fun h => negb (str_eqb (fst h) (lit "content-encoding"))) (hx_headers r)));
               (JKStr (lit "statusCode"), JInt (hx_status r)); (JKStr (lit "content"), JStr (b64encode (hx_content r)))]).
(** httpx.py:138-144: the content is decoded from base64 and from UTF-8; httpx.Response encodes a text as UTF-8 *)
Definition hx_of (v : jv) : option hx_response :=
  match field (lit "headers") v, field (lit "statusCode") v, field (lit "content") v with
  | Some h, Some (JInt status), Some (JStr c) =>
      match texts_of h, (match b64decode c with Some b => match utf8_decode b with Some t => utf8_encode t | None => None end | None => None end) with
      | Some h, Some b => Some {| hx_status := status; hx_headers := h; hx_content := b |}
      | _, _ => None
      end
  | _, _, _ => None
  end.

(** response.headers[name]. requests gives the response of a live request a CaseInsensitiveDict, httpx has httpx.Headers: names are
    compared in lower case. Of two entries with the same name in lower case dict() has one. *)
Fixpoint header_of (cc : CharClass) (name : str) (headers : list (str * str)) : option str :=
  match headers with
  | [] => None
  | (k, v) :: r => if str_eqb (str_lower cc k) (str_lower cc name) then Some v else header_of cc name r
  end.
(** requests.py:145: a replayed response of requests has the plain dict of the JSON file instead *)
Fixpoint dict_header (name : str) (headers : list (str * str)) : option str :=
  match headers with
  | [] => None
  | (k, v) :: r => if str_eqb k name then Some v else dict_header name r
  end.

(** a request as it is sent: requests.py:113-123, 94-110 / httpx.py:107-117, 84-104 with the default encode_body; None: it raises *)
Record sent := { s_url : str; s_method : str; s_headers : list (str * str); s_body : option body }.
Definition default_key (cc : CharClass) (sha1 : str -> str) (ign : ignore) (q : sent) : option key :=
  match optional default_encode_body (s_body q) with
  | Some b => Some (from_request cc (json_to_sha1 sha1) ign None (s_url q) (s_method q) (s_headers q) b)
  | None => None
  end.
