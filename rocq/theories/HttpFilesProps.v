(** C95, C96 and C97: the files of recorded HTTP requests and responses. *)
From Verif Require Import PyStrFacts JsonFacts BytesFacts HttpFilesModel HttpProofs HttpHash HttpFilesProofs HttpProps.
From Coq Require Import Lia Permutation.

(** a request whose url, method, header names and values and encoded body are texts, and whose headers are a dict *)
Definition request_ok (q : request) : Prop :=
  text (r_url q) /\ text (r_method q) /\ dict_texts (r_headers q) /\ forall b, r_body q = Some b -> text b.
Lemma asked_obj_ok cc ign q : request_ok q -> obj_ok (asked_obj cc ign q).
Proof.
  intros (QU & QM & QH & QB). unfold asked_obj. apply strip_ok. split; [exact QU|]. split; [exact QM|]. split; [|exact QB]. cbn [o_headers]. intros h E. apply some_inv in E. now subst h.
Qed.
Lemma asked_ok cc ign qs most o : Forall request_ok qs -> asked cc ign qs most o -> obj_ok o.
Proof.
  intros F (q & order & I & H). rewrite Forall_forall in F. specialize (F q I). apply (asked_obj_ok cc ign) in F.
  destruct order as [n|]; destruct H as [_ ->]; [|exact F]. exact F.
Qed.

(** *** The recorded responses through the text of the file, for any way of writing and reading them *)
Section Replay.
  Variable cc : CharClass.
  Variable sha1 : str -> str.
  Hypothesis sha1_text : forall t, text (sha1 t).
  Variable refloat : str -> str.
  Variable R X : Type.
  Variable response_json : R -> option jv.
  Variable response_of : jv -> option R.
  Variable response_ok : R -> Prop.
  Variable seen : R -> R.
  Hypothesis json_ok : forall r v, response_ok r -> response_json r = Some v -> plain v /\ value_ok refloat v.
  Hypothesis disk : forall r, response_ok r -> response_disk R response_json response_of r = Some (seen r).
  Notation sha := (json_to_sha1 sha1).
  Definition entry_ok (e : entry R) : Prop := let '(_, (o, h, r)) := e in obj_ok o /\ text h /\ response_ok r.

  Lemma load_ok ign files refresh : Forall entry_ok files -> Forall (snap_ok R response_ok) (load cc sha R ign None files refresh).
  Proof.
    intros F. unfold load. destruct refresh; [constructor|]. apply Forall_map. eapply Forall_impl; [|exact F]. intros [n [[o h] r]] (OO & TH & RO).
    cbn [snd]. split; [|now split]. unfold request_key. cbn [fst k_obj]. now apply strip_ok.
  Qed.
  Lemma run_ok ign capture files refresh cs reqs os is : Forall entry_ok files -> Forall request_ok (map fst cs) -> (forall q r, In (q, inl r) cs -> response_ok r) ->
    send_all cc sha R X capture (load cc sha R ign None files refresh) [] (keyed cc sha ign None cs) = (reqs, os, is) -> Forall (snap_ok R response_ok) reqs.
  Proof.
    intros FO QO RO E. eapply (send_all_recorded cc sha R X (snap_ok R response_ok)); [exact (load_ok ign files refresh FO)|constructor| |exact E].
    intros k r l I. apply in_map_iff in I. destruct I as ([q real] & EQ & I). cbn [fst snd] in EQ. injection EQ as <- ->.
    assert (QI : request_ok q) by (rewrite Forall_forall in QO; apply QO; apply in_map_iff; exists (q, inl r); auto).
    pose proof (mark_ok cc sha R l (fun o => sha1_text _) (key_of cc sha ign None q)) as M.
    destruct M as [M1 M2].
    - split; [exact (asked_obj_ok cc ign q QI)|]. apply sha1_text.
    - split; [exact M1|]. split; [exact M2|]. exact (RO _ _ I).
  Qed.
  Lemma stop_some hide reqs : Forall (snap_ok R response_ok) reqs -> forall d, exists stored, stop R (response_disk R response_json response_of) hide reqs d = Some stored.
  Proof.
    intros F. induction F as [|[k r] reqs (_ & _ & RO) F IH]; intros d; [eexists; reflexivity|]. cbn [stop]. cbn [snd] in RO. rewrite (disk _ RO). apply IH.
  Qed.

  Lemma file_replay ign capture files refresh cs reqs os is hide cs'
      (no_collision : forall a b, asked cc ign (map fst (cs ++ cs')) (length cs) a -> asked cc ign (map fst (cs ++ cs')) (length cs) b ->
         sha1 (request_text a) = sha1 (request_text b) -> request_text a = request_text b) :
    Forall entry_ok files -> Forall request_ok (map fst (cs ++ cs')) -> (forall q r, In (q, inl r) cs -> response_ok r) ->
    send_all cc sha R X capture (load cc sha R ign None files refresh) [] (keyed cc sha ign None cs) = (reqs, os, is) ->
    Forall (fun o => exists r, o = Returned r) os ->
    Forall2 (fun c c' => k_hash (key_of cc sha ign None (fst c)) = k_hash (key_of cc sha ign None (fst c'))) cs cs' ->
    exists file stored, write_file R response_json hide reqs = Some file /\ read_file refloat R response_of file = Some stored /\
    let '(_, os', is') := send_all cc sha R X false (load cc sha R ign None stored false) [] (keyed cc sha ign None cs') in
    Forall2 (fun o o' => exists r, o = Returned r /\ response_ok r /\ o' = Returned (seen r)) os os' /\ Forall (fun i => i = false) is'.
  Proof.
    intros FO QO RO E HR F.
    assert (OKR : Forall (snap_ok R response_ok) reqs).
    { eapply run_ok; [exact FO| |exact RO|exact E]. rewrite map_app in QO. apply Forall_app in QO. apply QO. }
    destruct (stop_some hide reqs OKR []) as [stored ES]. destruct (file_back refloat R response_json response_of response_ok json_ok hide reqs stored OKR ES) as (file & EW & ER).
    exists file, stored. split; [exact EW|]. split; [exact ER|].
    pose proof (C45_partial cc sha ign R X (response_disk R response_json response_of) capture files refresh cs reqs os is hide stored stored cs') as C.
    assert (NC : forall a b, asked cc ign (map fst (cs ++ cs')) (length cs) a -> asked cc ign (map fst (cs ++ cs')) (length cs) b -> (sha a = sha b <-> same a b)).
    { intros a b A B. rewrite <- (request_text_same a b (asked_ok _ _ _ _ _ QO A) (asked_ok _ _ _ _ _ QO B)). unfold json_to_sha1. split; [now apply no_collision|now intros ->]. }
    specialize (C NC E HR ES (Permutation_refl _) F). destruct (send_all cc sha R X false (load cc sha R ign None stored false) [] (keyed cc sha ign None cs')) as [[reqs' os'] is'].
    destruct C as [C1 C2]. split; [|exact C2].
    assert (RO' : Forall (fun o => forall r, o = Returned r -> response_ok r) os).
    { eapply (send_all_returned cc sha R X response_ok capture); [| |exact E].
      - eapply Forall_impl; [|exact (load_ok ign files refresh FO)]. intros s OS. apply OS.
      - intros k r I. apply in_map_iff in I. destruct I as ([q real] & EQ & I). cbn [fst snd] in EQ. injection EQ as _ ->. exact (RO _ _ I). }
    clear - C1 RO' disk. revert RO'. induction C1 as [|o o' os os' (r & r' & -> & D & ->) C1 IH]; intros RO'; constructor; [|apply IH; exact (Forall_inv_tail RO')].
    pose proof (Forall_inv RO' r eq_refl) as OR. exists r. split; [reflexivity|]. split; [exact OR|]. rewrite (disk _ OR) in D. apply some_inv in D. now subst r'.
  Qed.
End Replay.

(** *** C95 for requests, with content that is UTF-8: the file is written, it can be read, and in the replay every request gets the
    response that its counterpart got in the capture: the same status, headers, encoding and content. *)
Theorem C95_requests_partial (cc : CharClass) (sha1 : str -> str) (refloat : str -> str) (X : Type) ign capture files refresh cs reqs os is hide cs'
    (sha1_text : forall t, text (sha1 t))
    (no_collision : forall a b, asked cc ign (map fst (cs ++ cs')) (length cs) a -> asked cc ign (map fst (cs ++ cs')) (length cs) b ->
       sha1 (request_text a) = sha1 (request_text b) -> request_text a = request_text b)
    (earlier_ok : forall name o h r, In (name, (o, h, r)) files -> obj_ok o /\ text h /\ rq_ok r /\ utf8_decode (rq_content r) <> None)
    (requests_ok : Forall request_ok (map fst (cs ++ cs')))
    (responses_ok : forall q r, In (q, inl r) cs -> rq_ok r)
    (responses_utf8 : forall q r, In (q, inl r) cs -> utf8_decode (rq_content r) <> None) :
  send_all cc (json_to_sha1 sha1) rq_response X capture (load cc (json_to_sha1 sha1) rq_response ign None files refresh) [] (keyed cc (json_to_sha1 sha1) ign None cs) = (reqs, os, is) ->
  Forall (fun o => exists r, o = Returned r) os ->
  Forall2 (fun c c' => k_hash (key_of cc (json_to_sha1 sha1) ign None (fst c)) = k_hash (key_of cc (json_to_sha1 sha1) ign None (fst c'))) cs cs' ->
  exists file stored, write_file rq_response rq_json hide reqs = Some file /\ read_file refloat rq_response rq_of file = Some stored /\
  let '(_, os', is') := send_all cc (json_to_sha1 sha1) rq_response X false (load cc (json_to_sha1 sha1) rq_response ign None stored false) [] (keyed cc (json_to_sha1 sha1) ign None cs') in
  os' = os /\ Forall (fun i => i = false) is'.
Proof.
  intros E HR F.
  destruct (file_replay cc sha1 sha1_text refloat rq_response X rq_json rq_of (fun r => rq_ok r /\ utf8_decode (rq_content r) <> None) (fun r => r)
    (fun r v H => rq_json_ok refloat r v (proj1 H))) with (ign := ign) (capture := capture) (files := files) (refresh := refresh) (cs := cs) (reqs := reqs) (os := os) (is := is) (hide := hide) (cs' := cs')
    as (file & stored & EW & ER & C); try assumption.
  - intros r [_ U]. destruct (utf8_decode (rq_content r)) as [t|] eqn:ET; [|congruence]. exact (rq_disk r t ET).
  - apply Forall_forall. intros [n [[o h] r]] I. destruct (earlier_ok _ _ _ _ I) as (A & B & C & D). unfold entry_ok. auto.
  - intros q r I. split; [exact (responses_ok _ _ I)|exact (responses_utf8 _ _ I)].
  - exists file, stored. split; [exact EW|]. split; [exact ER|].
    destruct (send_all cc (json_to_sha1 sha1) rq_response X false (load cc (json_to_sha1 sha1) rq_response ign None stored false) [] (keyed cc (json_to_sha1 sha1) ign None cs')) as [[reqs' os'] is'].
    destruct C as [C1 C2]. split; [|exact C2]. clear - C1. induction C1 as [|o o' os os' (r & -> & _ & ->) C1 IH]; [reflexivity|]. now rewrite IH.
Qed.
Print Assumptions C95_requests_partial.

(** *** C95 for httpx: likewise, without the content-encoding header (the content is recorded without compression) *)
Theorem C95_httpx_partial (cc : CharClass) (sha1 : str -> str) (refloat : str -> str) (X : Type) ign capture files refresh cs reqs os is hide cs'
    (sha1_text : forall t, text (sha1 t))
    (no_collision : forall a b, asked cc ign (map fst (cs ++ cs')) (length cs) a -> asked cc ign (map fst (cs ++ cs')) (length cs) b ->
       sha1 (request_text a) = sha1 (request_text b) -> request_text a = request_text b)
    (earlier_ok : forall name o h r, In (name, (o, h, r)) files -> obj_ok o /\ text h /\ hx_ok r /\ utf8_decode (hx_content r) <> None)
    (requests_ok : Forall request_ok (map fst (cs ++ cs')))
    (responses_ok : forall q r, In (q, inl r) cs -> hx_ok r)
    (responses_utf8 : forall q r, In (q, inl r) cs -> utf8_decode (hx_content r) <> None) :
  send_all cc (json_to_sha1 sha1) hx_response X capture (load cc (json_to_sha1 sha1) hx_response ign None files refresh) [] (keyed cc (json_to_sha1 sha1) ign None cs) = (reqs, os, is) ->
  Forall (fun o => exists r, o = Returned r) os ->
  Forall2 (fun c c' => k_hash (key_of cc (json_to_sha1 sha1) ign None (fst c)) = k_hash (key_of cc (json_to_sha1 sha1) ign None (fst c'))) cs cs' ->
  exists file stored, write_file hx_response hx_json hide reqs = Some file /\ read_file refloat hx_response hx_of file = Some stored /\
  let '(_, os', is') := send_all cc (json_to_sha1 sha1) hx_response X false (load cc (json_to_sha1 sha1) hx_response ign None stored false) [] (keyed cc (json_to_sha1 sha1) ign None cs') in
  Forall2 (fun o o' => exists r r', o = Returned r /\ o' = Returned r' /\ hx_status r' = hx_status r /\ hx_content r' = hx_content r /\
    forall name v, In (name, v) (hx_headers r') <-> In (name, v) (hx_headers r) /\ name <> lit "content-encoding") os os' /\
  Forall (fun i => i = false) is'.
Proof.
  intros E HR F.
  destruct (file_replay cc sha1 sha1_text refloat hx_response X hx_json hx_of (fun r => hx_ok r /\ utf8_decode (hx_content r) <> None) hx_plain
    (fun r v H => hx_json_ok refloat r v (proj1 H))) with (ign := ign) (capture := capture) (files := files) (refresh := refresh) (cs := cs) (reqs := reqs) (os := os) (is := is) (hide := hide) (cs' := cs')
    as (file & stored & EW & ER & C); try assumption.
  - intros r [[_ B] U]. rewrite (hx_disk r B). destruct (utf8_decode (hx_content r)); [reflexivity|congruence].
  - apply Forall_forall. intros [n [[o h] r]] I. destruct (earlier_ok _ _ _ _ I) as (A & B & C & D). unfold entry_ok. auto.
  - intros q r I. split; [exact (responses_ok _ _ I)|exact (responses_utf8 _ _ I)].
  - exists file, stored. split; [exact EW|]. split; [exact ER|].
    destruct (send_all cc (json_to_sha1 sha1) hx_response X false (load cc (json_to_sha1 sha1) hx_response ign None stored false) [] (keyed cc (json_to_sha1 sha1) ign None cs')) as [[reqs' os'] is'].
    destruct C as [C1 C2]. split; [|exact C2]. clear - C1. induction C1 as [|o o' os os' (r & -> & _ & ->) C1 IH]; constructor; [|exact IH].
    exists r, (hx_plain r). repeat split.
    + unfold hx_plain in H. cbn [hx_headers] in H. apply filter_In in H. apply H.
    + intros ->. unfold hx_plain in H. cbn [hx_headers] in H. apply filter_In in H. destruct H as [_ H]. cbn [fst] in H. now rewrite str_eqb_refl in H.
    + intros [I N]. unfold hx_plain. cbn [hx_headers]. apply filter_In. split; [exact I|]. cbn [fst]. destruct (str_eqb_spec name (lit "content-encoding")); [contradiction|reflexivity].
Qed.
Print Assumptions C95_httpx_partial.

(** *** Examples and counterexamples. A hash that meets what is assumed of SHA-1. *)
Definition demo_sha1 (t : str) : str := map (fun c => (c mod 128)%N) t.
Lemma demo_sha1_text t : text (demo_sha1 t).
Proof. apply low_text. unfold demo_sha1. apply Forall_map. apply Forall_forall. intros c _. pose proof (N.mod_upper_bound c 128). lia. Qed.
Lemma demo_sha1_inj a b : obj_ok a -> obj_ok b -> demo_sha1 (request_text a) = demo_sha1 (request_text b) -> request_text a = request_text b.
Proof.
  assert (I : forall o, obj_ok o -> demo_sha1 (request_text o) = request_text o).
  { intros o OK. pose proof (request_text_dumps o OK) as D. destruct (flat_ok (fun t => t) o OK) as [_ V]. apply (dumps_printable _ _ V) in D. unfold demo_sha1.
    rewrite <- (map_id (request_text o)) at 2. apply map_ext_in. rewrite Forall_forall in D. intros c IC. destruct (D c IC) as [->|B]; [reflexivity|]. apply N.mod_small. lia. }
  intros A B. now rewrite (I a A), (I b B).
Qed.
Definition answer (content : bytes) : rq_response :=
  {| rq_status := 200; rq_headers := [(lit "Content-Type", lit "text/plain")]; rq_encoding := Some (lit "utf-8"); rq_content := content |}.
Definition answerx (content : bytes) : hx_response :=
  {| hx_status := 200; hx_headers := [(lit "content-type", lit "text/plain"); (lit "content-encoding", lit "gzip")]; hx_content := content |}.

Lemma get_ok b : Forall (fun c => (c < 55296)%N) (lit b) -> request_ok (get b).
Proof.
  intros B. unfold get, request_ok. cbn [r_url r_method r_headers r_body].
  split; [low_text|]. split; [low_text|]. split; [split|].
  - cbn [map fst]. repeat constructor; vm_compute; intuition discriminate.
  - constructor; [|constructor; [|constructor]]; cbn [fst snd]; split; low_text.
  - intros t E. apply some_inv in E. subst t. now apply low_text.
Qed.

(** the hypotheses of C95_requests_partial are met: an answer with "é" and one without content *)
Example C95_requests_example :
  let cs := [(get "a", inl (answer [195; 169]%N)); (get "a", inl (answer []))] in
  exists reqs os is file stored,
    send_all ascii_class (json_to_sha1 demo_sha1) rq_response unit true (load ascii_class (json_to_sha1 demo_sha1) rq_response IgnoreAll None [] true) []
      (keyed ascii_class (json_to_sha1 demo_sha1) IgnoreAll None cs) = (reqs, os, is) /\
    os = [Returned (answer [195; 169]%N); Returned (answer [])] /\
    Forall request_ok (map fst (cs ++ cs)) /\ (forall q r, In (q, inl r) cs -> rq_ok r) /\ (forall q r, In (q, inl r) cs -> utf8_decode (rq_content r) <> None) /\
    (forall a b, asked ascii_class IgnoreAll (map fst (cs ++ cs)) (length cs) a -> asked ascii_class IgnoreAll (map fst (cs ++ cs)) (length cs) b ->
       demo_sha1 (request_text a) = demo_sha1 (request_text b) -> request_text a = request_text b) /\
    write_file rq_response rq_json true reqs = Some file /\ read_file (fun t => t) rq_response rq_of file = Some stored /\
    snd (fst (send_all ascii_class (json_to_sha1 demo_sha1) rq_response unit false (load ascii_class (json_to_sha1 demo_sha1) rq_response IgnoreAll None stored false) []
      (keyed ascii_class (json_to_sha1 demo_sha1) IgnoreAll None cs))) = os.
Proof.
  cbn zeta.
  assert (QO : Forall request_ok (map fst ([(get "a", inl (answer [195; 169]%N)); (get "a", @inl rq_response unit (answer []))] ++ [(get "a", inl (answer [195; 169]%N)); (get "a", inl (answer []))]))).
  { cbn [app map fst]. repeat (apply Forall_cons; [apply get_ok; repeat constructor|]). apply Forall_nil. }
  do 5 eexists. split; [vm_compute; reflexivity|]. split; [reflexivity|]. split; [exact QO|]. split; [|split; [|split; [|split; [vm_compute; reflexivity|split; [vm_compute; reflexivity|vm_compute; reflexivity]]]]].
  - assert (AO : forall b, rq_ok (answer b)).
    { intros b. split; [split|]; unfold answer; cbn [rq_headers rq_encoding map fst].
      - repeat constructor. intros [].
      - constructor; [|constructor]. cbn [fst snd]. split; low_text.
      - intros e E. apply some_inv in E. subst e. low_text. }
    intros q r [E|[E|[]]]; injection E as _ <-; apply AO.
  - intros q r [E|[E|[]]]; injection E as _ <-; discriminate.
  - intros a b A B. apply demo_sha1_inj; eapply asked_ok; eassumption.
Qed.

(** C95 for requests: False with other content. The response is returned to the test, and then the file can not be written:
    the exit of the snapshot raises UnicodeDecodeError, and nothing is recorded of any request. *)
Theorem C95_requests_refuted : exists (q : request) (r : rq_response) reqs,
  request_ok q /\ rq_ok r /\ Forall is_byte (rq_content r) /\
  send_all ascii_class (json_to_sha1 demo_sha1) rq_response unit true [] [] (keyed ascii_class (json_to_sha1 demo_sha1) IgnoreAll None [(q, inl r)]) = (reqs, [Returned r], [true]) /\
  forall hide more, write_file rq_response rq_json hide (reqs ++ more) = None.
Proof.
  exists (get "a"), (answer [137; 80; 78; 71]%N). eexists. split; [apply get_ok; repeat constructor|]. split; [|split; [|split; [reflexivity|]]].
  - split; [split|]; unfold answer; cbn [rq_headers rq_encoding map fst].
    + repeat constructor. intros [].
    + constructor; [|constructor]. cbn [fst snd]. split; low_text.
    + intros e E. apply some_inv in E. subst e. low_text.
  - repeat constructor.
  - intros hide more. eapply write_none; [left; reflexivity|]. apply rq_not. reflexivity.
Qed.
Print Assumptions C95_requests_refuted.

(** C95 for httpx: False with other content. The file is written, and no later run can read it. *)
Theorem C95_httpx_refuted : exists (q : request) (r : hx_response) reqs,
  request_ok q /\ hx_ok r /\
  send_all ascii_class (json_to_sha1 demo_sha1) hx_response unit true [] [] (keyed ascii_class (json_to_sha1 demo_sha1) IgnoreAll None [(q, inl r)]) = (reqs, [Returned r], [true]) /\
  forall hide, exists file, write_file hx_response hx_json hide reqs = Some file /\ forall refloat, read_file refloat hx_response hx_of file = None.
Proof.
  exists (get "a"), (answerx [137; 80; 78; 71]%N). eexists. split; [apply get_ok; repeat constructor|]. split; [|split; [reflexivity|]].
  - split; [split|]; unfold answerx; cbn [hx_headers hx_content map fst].
    + repeat constructor; vm_compute; intuition discriminate.
    + constructor; [|constructor; [|constructor]]; cbn [fst snd]; split; low_text.
    + repeat constructor.
  - intros [|]; eexists; (split; [vm_compute; reflexivity|]); intros refloat; vm_compute; reflexivity.
Qed.
Print Assumptions C95_httpx_refuted.

(** *** C96: the key of a request, with the default encoding of the body and the default hash: a request gets one unless its body is a
    text that is not UTF-8, and two requests get the same hash exactly when url, method, the bytes of the body and the headers that are
    not ignored are the same (the SHA-1 of two different texts that are hashed being different). *)
Definition body_bytes (b : option body) : option bytes :=
  match b with Some (BText s) => utf8_encode s | Some (BBytes b) => Some b | None => None end.
Definition sent_ok (q : sent) : Prop :=
  text (s_url q) /\ text (s_method q) /\ dict_texts (s_headers q) /\ (forall b, s_body q = Some (BBytes b) -> Forall is_byte b).

Lemma encoded_ok q b : sent_ok q -> optional default_encode_body (s_body q) = Some b ->
  (exists x, b = Some (b64encode x) /\ body_bytes (s_body q) = Some x /\ Forall is_byte x /\ s_body q <> None) \/ (b = None /\ s_body q = None).
Proof.
  intros (_ & _ & _ & QB) E. unfold optional, default_encode_body in E. destruct (s_body q) as [[s|c]|]; cbn [body_bytes] in *.
  - left. destruct (utf8_encode s) as [x|] eqn:EX; [|discriminate]. exists x. split; [congruence|]. split; [reflexivity|]. split; [eapply encode_bytes; eassumption|discriminate].
  - left. exists c. split; [congruence|]. split; [reflexivity|]. split; [now apply QB|discriminate].
  - right. split; [congruence|reflexivity].
Qed.
Theorem C96_key (cc : CharClass) (sha1 : str -> str) (ign : ignore) (q q' : sent) :
  sent_ok q -> sent_ok q' ->
  (default_key cc sha1 ign q = None <-> exists s, s_body q = Some (BText s) /\ utf8_encode s = None) /\
  forall k k', default_key cc sha1 ign q = Some k -> default_key cc sha1 ign q' = Some k' ->
    (sha1 (request_text (k_obj k)) = sha1 (request_text (k_obj k')) -> request_text (k_obj k) = request_text (k_obj k')) ->
    (k_hash k = k_hash k' <->
     s_url q = s_url q' /\ s_method q = s_method q' /\ (s_body q = None <-> s_body q' = None) /\ body_bytes (s_body q) = body_bytes (s_body q') /\
     (forall h, ~ header_ignored cc ign h -> hget h (s_headers q) = hget h (s_headers q'))).
Proof.
  intros OQ OQ'. split.
  - unfold default_key, optional, default_encode_body. destruct (s_body q) as [[s|b]|].
    + destruct (utf8_encode s) eqn:E; [split; [discriminate|intros (t & ET & E'); congruence]|split; [intros _; eauto|reflexivity]].
    + split; [discriminate|intros (t & [=] & _)].
    + split; [discriminate|intros (t & [=] & _)].
  - intros k k' EK EK' NC. unfold default_key in EK, EK'.
    destruct (optional default_encode_body (s_body q)) as [b|] eqn:EB; [|discriminate]. destruct (optional default_encode_body (s_body q')) as [b'|] eqn:EB'; [|discriminate].
    apply some_inv in EK, EK'. apply (encoded_ok q b OQ) in EB. apply (encoded_ok q' b' OQ') in EB'.
    destruct OQ as (QU & QM & QH & _), OQ' as (QU' & QM' & QH' & _).
    set (r := {| r_url := s_url q; r_method := s_method q; r_headers := s_headers q; r_body := b |}). set (r' := {| r_url := s_url q'; r_method := s_method q'; r_headers := s_headers q'; r_body := b' |}).
    assert (RO : request_ok r).
    { split; [exact QU|]. split; [exact QM|]. split; [exact QH|]. cbn [r r_body]. intros t ->. destruct EB as [(x & E & _ & B & _)|[E _]]; [|discriminate]. apply some_inv in E. subst t. now apply b64_text. }
    assert (RO' : request_ok r').
    { split; [exact QU'|]. split; [exact QM'|]. split; [exact QH'|]. cbn [r' r_body]. intros t ->. destruct EB' as [(x & E & _ & B & _)|[E _]]; [|discriminate]. apply some_inv in E. subst t. now apply b64_text. }
    assert (EO : k_obj k = asked_obj cc ign r) by (subst k; reflexivity). assert (EO' : k_obj k' = asked_obj cc ign r') by (subst k'; reflexivity).
    assert (EH : k_hash k = sha1 (request_text (k_obj k))) by (subst k; reflexivity). assert (EH' : k_hash k' = sha1 (request_text (k_obj k'))) by (subst k'; reflexivity).
    assert (BB : b = b' <-> ((s_body q = None <-> s_body q' = None) /\ body_bytes (s_body q) = body_bytes (s_body q'))).
    { destruct EB as [(x & -> & -> & B & N)|[-> N]], EB' as [(x' & -> & -> & B' & N')|[-> N']]; rewrite ?N, ?N'.
      - split; [intros E; apply some_inv in E; apply b64_inj in E; [|exact B|exact B']; subst; tauto|intros [_ E]; apply some_inv in E; now subst].
      - split; [discriminate|tauto].
      - split; [discriminate|intros [[A _] _]; exfalso; auto].
      - tauto. }
    assert (S : k_hash k = k_hash k' <-> same (asked_obj cc ign r) (asked_obj cc ign r')).
    { rewrite <- (request_text_same _ _ (asked_obj_ok cc ign r RO) (asked_obj_ok cc ign r' RO')). rewrite EH, EH'. rewrite <- EO, <- EO'. split; [exact NC|now intros ->]. }
    rewrite S. unfold same. clear S NC EO EO' EH EH' EK EK' RO RO' EB EB'.
    assert (HH : match o_headers (asked_obj cc ign r), o_headers (asked_obj cc ign r') with Some g, Some h => forall k, hget k g = hget k h | None, None => True | _, _ => False end <->
                 forall h, ~ header_ignored cc ign h -> hget h (s_headers q) = hget h (s_headers q')).
    { unfold asked_obj, strip_headers. destruct ign as [| |l]; cbn [o_headers option_map r r' r_headers header_ignored].
      - split; [intros H h _; apply H|intros H h; apply H; tauto].
      - split; [intros _ h N; exfalso; apply N; exact I|intros _; exact I].
      - split.
        + intros H h N. specialize (H h). rewrite !hget_filter in H. destruct (is_ignored cc l h) eqn:EI; [|exact H]. apply is_ignored_spec in EI. contradiction.
        + intros H h. rewrite !hget_filter. destruct (is_ignored cc l h) eqn:EI; [reflexivity|]. apply H. intros C. apply is_ignored_spec in C. congruence. }
    rewrite HH. clear HH.
    replace (o_url (asked_obj cc ign r)) with (s_url q) by (now destruct ign). replace (o_url (asked_obj cc ign r')) with (s_url q') by (now destruct ign).
    replace (o_method (asked_obj cc ign r)) with (s_method q) by (now destruct ign). replace (o_method (asked_obj cc ign r')) with (s_method q') by (now destruct ign).
    replace (o_body (asked_obj cc ign r)) with b by (now destruct ign). replace (o_body (asked_obj cc ign r')) with b' by (now destruct ign).
    rewrite !asked_order. tauto.
Qed.
Print Assumptions C96_key.

Definition post (url : string) (b : option body) (date : string) : sent :=
  {| s_url := lit url; s_method := lit "POST"; s_headers := [(lit "Date", lit date); (lit "Accept", lit "a")]; s_body := b |}.
Example C96_example :
  let key q := default_key ascii_class demo_sha1 (IgnoreList [lit "DATE"]) q in
  let hash q := option_map k_hash (key q) in
  hash (post "http://x" (Some (BText [233%N])) "1") = hash (post "http://x" (Some (BBytes [195; 169]%N)) "2") /\
  hash (post "http://x" (Some (BText [233%N])) "1") <> hash (post "http://x" (Some (BBytes [233]%N)) "1") /\
  hash (post "http://x" None "1") <> hash (post "http://x" (Some (BBytes [])) "1") /\
  hash (post "http://x" None "1") <> hash (post "http://y" None "1") /\
  key (post "http://x" (Some (BText [55296%N])) "1") = None.
Proof. repeat split; vm_compute; congruence. Qed.

(** *** C97: the headers of a replayed response. The names of the headers of a live response are looked up without regard to case. *)
Definition one_per_name (cc : CharClass) (h : list (str * str)) : Prop := NoDup (map (fun kv => str_lower cc (fst kv)) h).

(** requests: False. The replayed response has a plain dict, in which "location" is not found when the server sent "Location".
    (requests itself looks up "location" to follow a redirect.) *)
Theorem C97_requests_refuted : exists (r r' : rq_response) (name v : str),
  rq_ok r /\ one_per_name ascii_class (rq_headers r) /\ response_disk rq_response rq_json rq_of r = Some r' /\
  header_of ascii_class name (rq_headers r) = Some v /\ dict_header name (rq_headers r') = None.
Proof.
  exists {| rq_status := 302; rq_headers := [(lit "Location", lit "/b")]; rq_encoding := None; rq_content := [] |}. eexists. exists (lit "location"), (lit "/b").
  split; [|split; [|split; [vm_compute; reflexivity|split; vm_compute; reflexivity]]].
  - split; [split|]; cbn [rq_headers rq_encoding map fst].
    + repeat constructor. intros [].
    + constructor; [|constructor]. cbn [fst snd]. split; low_text.
    + discriminate.
  - repeat constructor. intros [].
Qed.
Print Assumptions C97_requests_refuted.

(** With the spelling of the server the value is found, and a value that is found is the value of the live response. *)
Theorem C97_requests_partial (cc : CharClass) (r r' : rq_response) (name v : str) :
  one_per_name cc (rq_headers r) -> response_disk rq_response rq_json rq_of r = Some r' ->
  (In (name, v) (rq_headers r) -> dict_header name (rq_headers r') = Some v) /\
  (dict_header name (rq_headers r') = Some v -> header_of cc name (rq_headers r) = Some v).
Proof.
  intros ND D.
  assert (ER : r' = r).
  { destruct (utf8_decode (rq_content r)) as [t|] eqn:ET; [rewrite (rq_disk r t ET) in D; now apply some_inv in D|]. unfold response_disk in D. now rewrite (rq_not r ET) in D. }
  subst r'. clear D. revert ND. unfold one_per_name. induction (rq_headers r) as [|[k w] h IH]; [easy|]. cbn [map fst In dict_header header_of]. intros ND.
  inversion ND as [|? ? N ND']; subst. specialize (IH ND'). destruct IH as [IH1 IH2]. split.
  - intros [E|I]; [injection E as -> ->; now rewrite str_eqb_refl|]. destruct (str_eqb_spec k name) as [->|NE]; [|now apply IH1].
    exfalso. apply N. apply in_map_iff. exists (name, v). now split.
  - destruct (str_eqb_spec k name) as [->|NE]; [now rewrite str_eqb_refl|]. intros E. specialize (IH2 E).
    destruct (str_eqb_spec (str_lower cc k) (str_lower cc name)) as [EL|_]; [|exact IH2]. exfalso. apply N. rewrite EL.
    clear - E. induction h as [|[j x] h IH]; [discriminate|]. cbn [dict_header map fst In] in *. destruct (str_eqb_spec j name) as [->|]; [now left|right; now apply IH].
Qed.
Print Assumptions C97_requests_partial.

(** httpx (whose names are in lower case): every header but content-encoding is found as in the live response, in every spelling. *)
Theorem C97_httpx (cc : CharClass) (r r' : hx_response) (name : str) :
  (forall k v, In (k, v) (hx_headers r) -> str_lower cc k = k) -> Forall is_byte (hx_content r) ->
  response_disk hx_response hx_json hx_of r = Some r' -> str_lower cc name <> lit "content-encoding" ->
  header_of cc name (hx_headers r') = header_of cc name (hx_headers r).
Proof.
  intros L B D N. rewrite (hx_disk r B) in D. destruct (utf8_decode (hx_content r)); [|discriminate]. apply some_inv in D. subst r'. unfold hx_plain. cbn [hx_headers]. clear B.
  induction (hx_headers r) as [|[k v] h IH]; [reflexivity|]. cbn [filter fst header_of]. rewrite <- IH by (intros; eapply L; right; eassumption).
  destruct (str_eqb_spec k (lit "content-encoding")) as [->|NE]; cbn [negb]; [|reflexivity]. rewrite (L (lit "content-encoding") v) by now left.
  destruct (str_eqb_spec (lit "content-encoding") (str_lower cc name)) as [E|_]; [congruence|reflexivity].
Qed.
Print Assumptions C97_httpx.
Example C97_example :
  let r := answerx [104; 105]%N in
  (forall k v, In (k, v) (hx_headers r) -> str_lower ascii_class k = k) /\
  exists r', response_disk hx_response hx_json hx_of r = Some r' /\
    header_of ascii_class (lit "Content-Type") (hx_headers r') = Some (lit "text/plain") /\
    header_of ascii_class (lit "Content-Encoding") (hx_headers r') = None /\ header_of ascii_class (lit "Content-Encoding") (hx_headers r) = Some (lit "gzip") /\
    dict_header (lit "Content-Type") (rq_headers (answer [])) = header_of ascii_class (lit "content-type") (rq_headers (answer [])).
Proof.
  cbn zeta. split.
  - intros k v [E|[E|[]]]; injection E as <- _; reflexivity.
  - eexists. repeat split; vm_compute; reflexivity.
Qed.
