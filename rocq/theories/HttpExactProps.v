(** Exact forms of C95 and C97 for requests: which recordings can be written, and which headers a replayed response finds. *)
From Verif Require Import PyStrFacts JsonFacts BytesFacts HttpFilesModel HttpProofs HttpHash HttpFilesProofs HttpProps HttpFilesProps.

Section Stop.
  Variable hide : bool.
  Notation disk := (response_disk rq_response rq_json rq_of).
  Notation stop := (stop rq_response disk hide).
  Local Lemma disk_same r r' : disk r = Some r' -> r' = r.
  Proof.
    intros D. destruct (utf8_decode (rq_content r)) as [t|] eqn:ET; [rewrite (rq_disk r t ET) in D; now injection D as <-|]. unfold response_disk in D. now rewrite (rq_not r ET) in D.
  Qed.
  Local Lemma in_put e (x : entry rq_response) d : In x (dict_put rq_response e d) -> x = e \/ In x d.
  Proof.
    induction d as [|f d IH]; cbn [dict_put]; [intros [<-|[]]; now left|]. destruct (str_eqb (fst f) (fst e)); intros [<-|I]; try (now left); try (right; now right); try (right; now left).
    destruct (IH I) as [->|J]; [now left|right; now right].
  Qed.
  Local Lemma put_in (e : entry rq_response) d : In e (dict_put rq_response e d).
  Proof. induction d as [|f d IH]; cbn [dict_put]; [now left|]. destruct (str_eqb (fst f) (fst e)); [now left|right; exact IH]. Qed.
  Local Lemma put_keeps e (x : entry rq_response) d : fst x <> fst e -> In x d -> In x (dict_put rq_response e d).
  Proof.
    intros N. induction d as [|f d IH]; intros I; [destruct I|]. cbn [dict_put]. destruct (str_eqb_spec (fst f) (fst e)) as [E|_].
    - destruct I as [->|I]; [contradiction|now right].
    - destruct I as [->|I]; [now left|right; now apply IH].
  Qed.
  Local Lemma stop_from reqs stored : forall d, stop reqs d = Some stored -> (d = [] -> forall n o h r, In (n, (o, h, r)) stored -> exists k, In (k, r) reqs /\ n = k_hash k).
  Proof.
    assert (G : forall d, stop reqs d = Some stored -> forall n o h r, In (n, (o, h, r)) stored -> In (n, (o, h, r)) d \/ exists k, In (k, r) reqs /\ n = k_hash k).
    { induction reqs as [|[k r0] reqs IH]; intros d S n o h r I; cbn [HttpModel.stop] in S; [injection S as E0; rewrite E0; left; exact I|].
      destruct (disk r0) as [r1|] eqn:D; [|discriminate]. apply disk_same in D. subst r1. destruct (IH _ S n o h r I) as [J|(k' & J & E)]; [|right; exists k'; split; [now right|exact E]].
      apply in_put in J as [J|J]; [|now left]. right. exists k. pose proof (f_equal fst J) as J1. pose proof (f_equal (fun e => snd (snd e)) J) as J2. cbn [fst snd] in J1, J2. subst n r. split; [now left|reflexivity]. }
    intros d S -> n o h r I. destruct (G [] S n o h r I) as [[]|X]. exact X.
  Qed.
  Local Lemma stop_last pre k r post stored : forall d, stop (pre ++ (k, r) :: post) d = Some stored -> (forall k' r', In (k', r') post -> k_hash k' <> k_hash k) ->
    exists o h, In (k_hash k, (o, h, r)) stored.
  Proof.
    induction pre as [|[k0 r0] pre IH]; intros d S L; cbn [app HttpModel.stop] in S.
    - destruct (disk r) as [r1|] eqn:D; [|discriminate]. apply disk_same in D. subst r1.
      set (e := (k_hash k, (to_json_object hide k, r))) in S.
      assert (P : In e (dict_put rq_response e d)) by apply put_in. revert S P. generalize (dict_put rq_response e d).
      induction post as [|[k1 r1] post IHp]; intros g S P; cbn [HttpModel.stop] in S.
      + injection S as ->. unfold e in P. destruct (to_json_object hide k) as [o h]. eauto.
      + destruct (disk r1) as [r2|] eqn:D; [|discriminate]. eapply IHp; [|exact S|]; [intros k' r' J; apply (L k' r'); now right|].
        apply put_keeps; [|exact P]. cbn [fst e]. intros E. apply (L k1 r1); [now left|]. now symmetry.
    - destruct (disk r0) as [r1|] eqn:D; [|discriminate]. exact (IH _ S L).
  Qed.
End Stop.

(** *** C95. [reqs]: what was recorded until the end of the block. The file is written exactly when the content of every recorded response
    is UTF-8; it is then read back with exactly the responses, and otherwise nothing of any request is stored. *)
Theorem C95_requests_exact (refloat : str -> str) (hide : bool) (reqs : list (key * rq_response)) :
  Forall (fun s => obj_ok (k_obj (fst s)) /\ text (k_hash (fst s)) /\ rq_ok (snd s)) reqs ->
  ((exists file, write_file rq_response rq_json hide reqs = Some file) <-> forall k r, In (k, r) reqs -> exists t, utf8_decode (rq_content r) = Some t) /\
  forall file, write_file rq_response rq_json hide reqs = Some file ->
    exists stored, read_file refloat rq_response rq_of file = Some stored /\
      (forall n o h r, In (n, (o, h, r)) stored -> exists k, In (k, r) reqs /\ n = k_hash k) /\
      forall pre k r post, reqs = pre ++ (k, r) :: post -> (forall k' r', In (k', r') post -> k_hash k' <> k_hash k) -> exists o h, In (k_hash k, (o, h, r)) stored.
Proof.
  intros F.
  assert (W : (exists file, write_file rq_response rq_json hide reqs = Some file) -> forall k r, In (k, r) reqs -> exists t, utf8_decode (rq_content r) = Some t).
  { intros [file E] k r I. destruct (utf8_decode (rq_content r)) as [t|] eqn:D; [eauto|].
    rewrite (write_none rq_response rq_json hide reqs (k, r) I (rq_not r D)) in E. discriminate. }
  assert (B : (forall k r, In (k, r) reqs -> exists t, utf8_decode (rq_content r) = Some t) -> exists file stored,
    write_file rq_response rq_json hide reqs = Some file /\ read_file refloat rq_response rq_of file = Some stored /\
    stop rq_response (response_disk rq_response rq_json rq_of) hide reqs [] = Some stored).
  { intros U. set (ok := fun r => rq_ok r /\ utf8_decode (rq_content r) <> None).
    assert (OKR : Forall (snap_ok rq_response ok) reqs).
    { rewrite Forall_forall in *. intros [k r] I. destruct (F _ I) as (A1 & A2 & A3). destruct (U k r I) as [t D]. split; [exact A1|]. split; [exact A2|]. split; [exact A3|]. cbn [snd]. congruence. }
    destruct (stop_some rq_response rq_json rq_of ok (fun r => r)
      (fun r H => match utf8_decode (rq_content r) as d return utf8_decode (rq_content r) = d -> _ with Some t => fun D => rq_disk r t D | None => fun D => False_ind _ (proj2 H D) end eq_refl) hide reqs OKR []) as [stored ES].
    destruct (file_back refloat rq_response rq_json rq_of ok (fun r v H => rq_json_ok refloat r v (proj1 H)) hide reqs stored OKR ES) as (file & EW & ER). eauto 6. }
  split.
  - split; [exact W|]. intros U. destruct (B U) as (file & _ & E & _). eauto.
  - intros file E. destruct (B (W (ex_intro _ file E))) as (file' & stored & E' & R & S). rewrite E in E'. injection E' as <-. exists stored. split; [exact R|].
    split; [exact (stop_from hide reqs stored [] S eq_refl)|]. intros pre k r post -> L. exact (stop_last hide pre k r post stored [] S L).
Qed.
Print Assumptions C95_requests_exact.

(** *** C97. A header is found in the replay as in the live response exactly when it is looked up with the spelling of the server, or when
    the server sent no header of that name in any spelling. *)
Theorem C97_requests_exact (cc : CharClass) (r r' : rq_response) (name : str) :
  one_per_name cc (rq_headers r) -> response_disk rq_response rq_json rq_of r = Some r' ->
  (dict_header name (rq_headers r') = header_of cc name (rq_headers r) <->
   (exists v, In (name, v) (rq_headers r)) \/ forall k v, In (k, v) (rq_headers r) -> str_lower cc k <> str_lower cc name).
Proof.
  intros ND D. destruct (C97_requests_partial cc r r' name) with (v := @nil char) as [_ _]; [exact ND|exact D|].
  assert (FD : forall w, dict_header name (rq_headers r') = Some w -> In (name, w) (rq_headers r')).
  { intros w. induction (rq_headers r') as [|[k x] h IH]; [discriminate|]. cbn [dict_header]. destruct (str_eqb_spec k name) as [->|_]; [intros X; injection X as ->; now left|right; auto]. }
  assert (FH : forall w, header_of cc name (rq_headers r) = Some w -> exists k, In (k, w) (rq_headers r) /\ str_lower cc k = str_lower cc name).
  { intros w. induction (rq_headers r) as [|[k x] h IH]; [discriminate|]. cbn [header_of]. inversion ND; subst.
    destruct (str_eqb_spec (str_lower cc k) (str_lower cc name)) as [EL|_]; [intros X; injection X as ->; exists k; split; [now left|exact EL]|].
    intros X. destruct (IH ltac:(assumption) X) as (j & I & EL). exists j. split; [now right|exact EL]. }
  assert (ER : r' = r).
  { destruct (utf8_decode (rq_content r)) as [t|] eqn:ET; [rewrite (rq_disk r t ET) in D; now injection D as <-|]. unfold response_disk in D. now rewrite (rq_not r ET) in D. }
  subst r'. split.
  - intros E. destruct (dict_header name (rq_headers r)) as [w|] eqn:DH; [left; exists w; now apply FD|]. right. intros k v I EL. symmetry in E.
    clear - I EL E. induction (rq_headers r) as [|[j x] h IH]; [destruct I|]. cbn [header_of] in E. destruct (str_eqb_spec (str_lower cc j) (str_lower cc name)) as [_|N]; [discriminate|].
    destruct I as [X|I]; [injection X as -> ->; contradiction|now apply IH].
  - intros [[v I]|N].
    + destruct (C97_requests_partial cc r r name v ND D) as [A1 A2]. rewrite (A1 I). symmetry. apply A2. exact (A1 I).
    + destruct (header_of cc name (rq_headers r)) as [w|] eqn:HH; [destruct (FH w eq_refl) as (k & I & EL); destruct (N k w I EL)|].
      destruct (dict_header name (rq_headers r)) as [w|] eqn:DH; [|reflexivity]. destruct (N name w (FD w eq_refl) eq_refl).
Qed.
Print Assumptions C97_requests_exact.

Example C95_C97_exact_example :
  let bad := answer [137; 80]%N in let good := answer [195; 169]%N in
  let k q := key_of ascii_class (json_to_sha1 demo_sha1) IgnoreAll None q in
  write_file rq_response rq_json true [(k (get "a"), good); (k (get "b"), bad)] = None /\
  (exists file stored, write_file rq_response rq_json true [(k (get "a"), good); (k (get "b"), answer [])] = Some file /\
     read_file (fun t => t) rq_response rq_of file = Some stored /\ map (fun e => snd (snd e)) stored = [good; answer []]) /\
  dict_header (lit "Content-Type") (rq_headers good) = header_of ascii_class (lit "Content-Type") (rq_headers good) /\
  dict_header (lit "content-type") (rq_headers good) <> header_of ascii_class (lit "content-type") (rq_headers good).
Proof.
  cbn zeta. split; [vm_compute; reflexivity|]. split; [do 2 eexists; split; [vm_compute; reflexivity|split; vm_compute; reflexivity]|]. split; [vm_compute; reflexivity|vm_compute; discriminate].
Qed.
