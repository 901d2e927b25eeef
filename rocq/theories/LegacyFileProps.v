(** C141: what is read from one file of an older version. *)
From Verif Require Import RunCaseModel HttpTestModel LegacyModel.
From Verif Require Import PyStrFacts HttpModel HttpProofs HttpHash HttpProps HttpListModel HttpFilesModel HttpFilesProofs HttpFilesProps HttpTalkProps JsonFacts JsonProofs BytesFacts TokenizerProps.
From Coq Require Import Lia.

(** a text as a system with the line ends [eol] stores it *)
Definition with_eol (eol t : str) : str := flat_map (fun c => if N.eqb c NL then eol else [c]) t.

Lemma eol_back eol t : In eol [[NL]; [CR; NL]; [CR]] -> ~ In CR t -> univ_newlines (with_eol eol t) = t.
Proof.
  intros IN. unfold with_eol. induction t as [|c t IH]; intros N; [reflexivity|].
  assert (N' : ~ In CR t) by (intros H; apply N; now right). specialize (IH N').
  assert (NC : N.eqb c CR = false) by (apply N.eqb_neq; intros ->; apply N; now left).
  cbn [flat_map]. destruct (N.eqb_spec c NL) as [->|NE].
  - destruct IN as [<-|[<-|[<-|[]]]].
    + change (NL :: univ_newlines (flat_map (fun c => if N.eqb c NL then [NL] else [c]) t) = NL :: t). now rewrite IH.
    + change (NL :: univ_newlines (flat_map (fun c => if N.eqb c NL then [CR; NL] else [c]) t) = NL :: t). now rewrite IH.
    + cbn [app univ_newlines]. rewrite N.eqb_refl. destruct (flat_map (fun c => if N.eqb c NL then [CR] else [c]) t) as [|d u] eqn:F.
      * rewrite <- IH. reflexivity.
      * assert (D : N.eqb d NL = false).
        { destruct t as [|x t]; [discriminate F|]. cbn [flat_map] in F. destruct (N.eqb x NL) eqn:X; injection F as <- _; [reflexivity|exact X]. }
        now rewrite D, IH.
  - cbn [app univ_newlines]. now rewrite NC, IH.
Qed.

Definition old_entries (o : obj) (hash : option str) : list (jkey * jv) :=
  request_entries o ++ match hash with Some h => [(JKStr (lit "hash"), JStr h)] | None => [] end.

Lemma old_fields o hash : let v := JDict (old_entries o hash) in
  field (lit "url") v = Some (JStr (o_url o)) /\ field (lit "method") v = Some (JStr (o_method o)) /\
  field (lit "headers") v = option_map texts_value (o_headers o) /\ field (lit "body") v = option_map JStr (o_body o) /\
  field (lit "order") v = option_map (fun n => JInt (Z.of_nat n)) (o_order o) /\ field (lit "hash") v = option_map JStr hash.
Proof. unfold old_entries, request_entries. destruct hash, o as [u m [h|] [b|] [n|]]; repeat split; reflexivity. Qed.

Section Old.
  Variable cc : CharClass.
  Variable sha1 jfloat : str -> str.
  Variable R : Type.
  Variable response_json : R -> option jv.
  Variable response_of : jv -> option R.
  Variable response_ok : R -> Prop.
  Hypothesis json_ok : forall r v, response_ok r -> response_json r = Some v -> plain v /\ value_ok jfloat v.
  Variable ign : ignore.

  Definition hash_of (o : obj) (hash : option str) : str :=
    match hash with Some h => h | None => k_hash (request_key cc (json_to_sha1 sha1) ign None None o) end.

  Lemma old_request_read o hash : old_request cc sha1 ign (JDict (old_entries o hash)) = Some (o, hash_of o hash).
  Proof.
    destruct (old_fields o hash) as (F1 & F2 & F3 & F4 & F5 & F6). unfold old_request, old_hash. rewrite F1, F2, F3, F4, F5, F6. clear.
    assert (C : forall n, count_of (JInt (Z.of_nat n)) = Some n).
    { intros n. unfold count_of. rewrite (proj2 (Z.leb_le 0 (Z.of_nat n))) by lia. now rewrite Nat2Z.id. }
    destruct hash, o as [u m [h|] [b|] [n|]]; cbn [o_url o_method o_headers o_body o_order option_map optional text_of]; rewrite ?texts_of_value, ?C; reflexivity.
  Qed.

  Lemma old_value_ok o hash : obj_ok o -> (forall h, hash = Some h -> text h) -> plain (JDict (old_entries o hash)) /\ value_ok jfloat (JDict (old_entries o hash)).
  Proof.
    intros (OU & OM & OH & OB) TH.
    assert (E : JDict (old_entries o hash) = str_dict ([(lit "url", JStr (o_url o)); (lit "method", JStr (o_method o))] ++
      match o_headers o with Some h => [(lit "headers", texts_value h)] | None => [] end ++
      match o_body o with Some b => [(lit "body", JStr b)] | None => [] end ++
      match o_order o with Some n => [(lit "order", JInt (Z.of_nat n))] | None => [] end ++
      match hash with Some h => [(lit "hash", JStr h)] | None => [] end)).
    { unfold old_entries, request_entries, str_dict. destruct hash, o as [u m [h|] [b|] [n|]]; reflexivity. }
    rewrite E. clear E. apply str_dict_plain_ok.
    - destruct hash, (o_body o), (o_headers o), (o_order o); cbn [app map fst]; repeat constructor; vm_compute; intuition discriminate.
    - repeat (apply Forall_app; split).
      + constructor; [|constructor; [|constructor]]; cbn [fst snd]; (split; [low_text|]); now split.
      + destruct (o_headers o) as [h|] eqn:E; constructor; [|constructor]. cbn [fst snd]. split; [low_text|]. apply texts_value_ok. now apply OH.
      + destruct (o_body o) as [b|] eqn:E; constructor; [|constructor]. cbn [fst snd]. split; [low_text|]. split; [exact I|]. now apply OB.
      + destruct (o_order o) as [n|]; constructor; [|constructor]. cbn [fst snd]. split; [low_text|]. now split.
      + destruct hash as [h|]; constructor; [|constructor]. cbn [fst snd]. split; [low_text|]. split; [exact I|]. now apply TH.
  Qed.

  Lemma old_file_read o hash r r' v eol : obj_ok o -> (forall h, hash = Some h -> text h) -> response_ok r ->
    response_json r = Some v -> response_of v = Some r' -> In eol [[NL]; [CR; NL]; [CR]] ->
    exists t, dumps (Some 4) 0 (JDict [(JKStr (lit "request"), JDict (old_entries o hash)); (JKStr (lit "response"), v)]) = Some t /\
      old_file cc sha1 jfloat R response_of ign (with_eol eol t) = Some (hash_of o hash, (o, hash_of o hash, r')).
  Proof.
    intros OO TH RO EV ER IE. destruct (old_value_ok o hash OO TH) as [PQ VQ]. destruct (json_ok r v RO EV) as [PV VV].
    destruct (str_dict_plain_ok jfloat [(lit "request", JDict (old_entries o hash)); (lit "response", v)]) as [P V].
    { repeat constructor; vm_compute; intuition discriminate. }
    { constructor; [|constructor; [|constructor]]; (split; [cbn [fst]; low_text|]); now split. }
    unfold str_dict in P, V. cbn [map fst snd] in P, V.
    destruct (proj1 (dumps_writable _ (Some 4) 0) (plain_writable _ P)) as [t E]. exists t. split; [exact E|].
    assert (PR : Forall printable t) by (eapply dumps_printable; eassumption).
    unfold old_file. rewrite eol_back; [|exact IE|].
    - rewrite (loads_dumps jfloat _ _ _ V E), (plain_back _ P).
      change (field (lit "request") (JDict [(JKStr (lit "request"), JDict (old_entries o hash)); (JKStr (lit "response"), v)])) with (Some (JDict (old_entries o hash))).
      change (field (lit "response") (JDict [(JKStr (lit "request"), JDict (old_entries o hash)); (JKStr (lit "response"), v)])) with (Some v). cbn beta iota.
      rewrite old_request_read, ER. reflexivity.
    - intros H. rewrite Forall_forall in PR. specialize (PR _ H). destruct PR as [PR|[PR _]]; [discriminate PR|]. apply PR. reflexivity.
  Qed.
End Old.

(** A file of an older version, with or without a hash and with any line ends, is the recording of its request and response: under the
    hash in the file, even if it is not that of the request, and otherwise under the one that the request has today. *)
Theorem C141_file_requests cc (sha1 jfloat : str -> str) ign o hash r eol :
  obj_ok o -> (forall h, hash = Some h -> text h) -> rq_ok r -> utf8_decode (rq_content r) <> None -> In eol [[NL]; [CR; NL]; [CR]] ->
  exists v t, rq_json r = Some v /\
    dumps (Some 4) 0 (JDict [(JKStr (lit "request"), JDict (old_entries o hash)); (JKStr (lit "response"), v)]) = Some t /\
    exists h, old_file cc sha1 jfloat rq_response rq_of ign (with_eol eol t) = Some (h, (o, h, r)) /\
      match hash with Some x => h = x | None => h = k_hash (request_key cc (json_to_sha1 sha1) ign None None o) end.
Proof.
  intros OO TH RO U IE. destruct (utf8_decode (rq_content r)) as [tx|] eqn:E; [|congruence]. pose proof (rq_disk r tx E) as D.
  unfold response_disk in D. destruct (rq_json r) as [v|] eqn:EV; [|discriminate]. exists v.
  destruct (old_file_read cc sha1 jfloat rq_response rq_json rq_of rq_ok (rq_json_ok jfloat) ign o hash r r v eol OO TH RO EV D IE) as (t & T & F).
  exists t. split; [reflexivity|]. split; [exact T|]. eexists. split; [exact F|]. destruct hash; reflexivity.
Qed.
Print Assumptions C141_file_requests.

(** httpx: the response comes back without content-encoding *)
Theorem C141_file_httpx cc (sha1 jfloat : str -> str) ign o hash r eol :
  obj_ok o -> (forall h, hash = Some h -> text h) -> hx_ok r -> utf8_decode (hx_content r) <> None -> In eol [[NL]; [CR; NL]; [CR]] ->
  exists v t, hx_json r = Some v /\
    dumps (Some 4) 0 (JDict [(JKStr (lit "request"), JDict (old_entries o hash)); (JKStr (lit "response"), v)]) = Some t /\
    exists h, old_file cc sha1 jfloat hx_response hx_of ign (with_eol eol t) = Some (h, (o, h, hx_plain r)) /\
      match hash with Some x => h = x | None => h = k_hash (request_key cc (json_to_sha1 sha1) ign None None o) end.
Proof.
  intros OO TH RO U IE. pose proof (hx_disk r (proj2 RO)) as D. destruct (utf8_decode (hx_content r)) as [tx|] eqn:E; [|congruence].
  unfold response_disk in D. destruct (hx_json r) as [v|] eqn:EV; [|discriminate]. exists v.
  destruct (old_file_read cc sha1 jfloat hx_response hx_json hx_of hx_ok (hx_json_ok jfloat) ign o hash r (hx_plain r) v eol OO TH RO EV D IE) as (t & T & F).
  exists t. split; [reflexivity|]. split; [exact T|]. eexists. split; [exact F|]. destruct hash; reflexivity.
Qed.
Print Assumptions C141_file_httpx.

(** a recording under a hash of its own, with the line ends of Windows *)
Example C141_file_example :
  let o := {| o_url := lit "http://h/a"; o_method := lit "GET"; o_headers := None; o_body := None; o_order := None |} in
  let r := {| rq_status := 200%Z; rq_headers := [(lit "a", lit "b")]; rq_encoding := None; rq_content := lit "hi" |} in
  obj_ok o /\ text (lit "0a0b") /\ rq_ok r /\ utf8_decode (rq_content r) <> None /\
  (exists v t, rq_json r = Some v /\
     dumps (Some 4) 0 (JDict [(JKStr (lit "request"), JDict (old_entries o (Some (lit "0a0b")))); (JKStr (lit "response"), v)]) = Some t /\
     old_file ascii_class demo_sha1 (fun t => t) rq_response rq_of IgnoreAll (with_eol [CR; NL] t) = Some (lit "0a0b", (o, lit "0a0b", r))) /\
  k_hash (request_key ascii_class (json_to_sha1 demo_sha1) IgnoreAll None None o) <> lit "0a0b".
Proof.
  split. { split; [low_text|]. split; [low_text|]. split; discriminate. }
  split; [low_text|]. split. { split; [|discriminate]. split; [repeat constructor; intros []|]. constructor; [|constructor]. split; low_text. }
  split; [vm_compute; discriminate|]. split.
  - do 2 eexists. split; [vm_compute; reflexivity|]. split; [vm_compute; reflexivity|vm_compute; reflexivity].
  - vm_compute. discriminate.
Qed.
