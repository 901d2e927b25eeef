(** C118: a whole test inside snapshot_requests or snapshot_httpx, recorded and run again. *)
From Coq Require Import Lia Permutation.
From Verif Require Import HttpTestModel RunCaseSpec.
From Verif Require Import PyStrFacts HttpModel HttpProofs HttpHash HttpProps HttpListModel HttpFilesModel HttpFilesProofs HttpFilesProps HttpTalkProps JsonFacts BytesFacts HttpTestProofs TokenizerProps.

Definition requests_run cc sha1 jfloat X ign hide := http_run cc sha1 jfloat rq_response X rq_json rq_of ign hide (lit "request snaphots:") (lit ".requests.json").
Definition httpx_run cc sha1 jfloat X ign hide := http_run cc sha1 jfloat hx_response X hx_json hx_of ign hide (lit "httpx snaphots:") (lit ".httpx.json").

(** *** C118 for requests. [T]: the test while recording, [T']: the test in a later run, which may send other ignored headers. *)
Theorem C118_requests (cc : CharClass) (sha1 jfloat : str -> str) (X : Type) ign hide capture refresh file (T T' : http_test rq_response X) cs os b used
    (sha1_text : forall t, text (sha1 t))
    (earlier_ok : forall files, recordings jfloat rq_response rq_of refresh file = Some files ->
       forall name o h r, In (name, (o, h, r)) files -> obj_ok o /\ text h /\ rq_ok r /\ utf8_decode (rq_content r) <> None)
    (responses_ok : forall q r, In (q, inl r) cs -> rq_ok r /\ utf8_decode (rq_content r) <> None)
    (requests_ok : forall q, In q (map fst cs) \/ (exists i, t_next T' (firstn i os) = Some q) -> request_ok q)
    (no_collision : forall qs, (forall q, In q qs -> In q (map fst cs) \/ exists i, t_next T' (firstn i os) = Some q) ->
       forall x y, asked cc ign qs (length cs) x -> asked cc ign qs (length cs) y -> sha1 (request_text x) = sha1 (request_text y) -> request_text x = request_text y)
    (returned : Forall (fun o => exists r, o = Returned r) os)
    (alike : forall h, t_does T' h = t_does T h /\
       match t_next T h, t_next T' h with
       | None, None => True
       | Some q, Some q' => k_hash (key_of cc (json_to_sha1 sha1) ign None q) = k_hash (key_of cc (json_to_sha1 sha1) ign None q')
       | _, _ => False
       end) :
  requests_run cc sha1 jfloat X ign hide capture refresh file T cs os b used ->
  exists saved, last_write (lit ".requests.json") (b_files b) = Some saved /\
  (exists qs, forall cs', map fst cs' = qs -> exists used', requests_run cc sha1 jfloat X ign hide false false (Some saved) T' cs' os b used') /\
  forall cs' os' b' used', requests_run cc sha1 jfloat X ign hide false false (Some saved) T' cs' os' b' used' ->
    b' = b /\ os' = os /\ Forall (fun u => u = false) used' /\
    Forall2 (fun c c' => k_hash (key_of cc (json_to_sha1 sha1) ign None (fst c)) = k_hash (key_of cc (json_to_sha1 sha1) ign None (fst c'))) cs cs'.
Proof.
  intros H. set (ok := fun r => rq_ok r /\ utf8_decode (rq_content r) <> None).
  assert (SH : forall l l', Forall2 (shown rq_response X ok (fun r => r)) l l' -> l' = l).
  { intros l l' F. induction F as [|o o' l l' (r & -> & _ & ->) F IH]; [reflexivity|]. now rewrite IH. }
  destruct (http_again cc sha1 sha1_text jfloat rq_response X rq_json rq_of ok (fun r => r)
    (fun r v K => rq_json_ok jfloat r v (proj1 K))) with (ign := ign) (hide := hide) (title := lit "request snaphots:") (fname := lit ".requests.json") (capture := capture) (refresh := refresh)
    (file := file) (T := T) (T' := T') (cs := cs) (os := os) (b := b) (used := used) as (saved & L & (qs & EX) & ALL); try assumption.
  - intros r [_ U]. destruct (utf8_decode (rq_content r)) as [t|] eqn:ET; [|congruence]. exact (rq_disk r t ET).
  - reflexivity.
  - intros files EF. apply Forall_forall. intros [n [[o h] r]] I. destruct (earlier_ok files EF _ _ _ _ I) as (A & B & C & D). unfold entry_ok, ok. auto.
  - intros q M. apply requests_ok. destruct M as [M|(i & h & F & M)]; [now left|]. apply SH in F. subst h. right. now exists i.
  - intros qs M. apply no_collision. intros q I. destruct (M q I) as [K|(i & h & F & K)]; [now left|]. apply SH in F. subst h. right. now exists i.
  - intros h h' F. apply SH in F. subst h'. apply alike.
  - exists saved. split; [exact L|]. split.
    + exists qs. intros cs' EQ. destruct (EX cs' EQ) as (os' & used' & R). exists used'. destruct (ALL _ _ _ _ R) as (_ & _ & F & _). apply SH in F. subst os'. exact R.
    + intros cs' os' b' used' R. destruct (ALL _ _ _ _ R) as (A & B & F & D). apply SH in F. auto.
Qed.
Print Assumptions C118_requests.

Lemma filter_twice {A} (p : A -> bool) l : filter p (filter p l) = filter p l.
Proof. induction l as [|x l IH]; [reflexivity|]. cbn [filter]. destruct (p x) eqn:F; [|exact IH]. cbn [filter]. now rewrite F, IH. Qed.

(** *** C118 for httpx: the replayed responses have no content-encoding header, and the test looks at no other difference *)
Definition without_encoding {X} (o o' : outcome hx_response X) : Prop :=
  exists r r', o = Returned r /\ o' = Returned r' /\ hx_status r' = hx_status r /\ hx_content r' = hx_content r /\
    hx_headers r' = filter (fun h => negb (str_eqb (fst h) (lit "content-encoding"))) (hx_headers r).
Theorem C118_httpx (cc : CharClass) (sha1 jfloat : str -> str) (X : Type) ign hide capture refresh file (T T' : http_test hx_response X) cs os b used
    (sha1_text : forall t, text (sha1 t))
    (earlier_ok : forall files, recordings jfloat hx_response hx_of refresh file = Some files ->
       forall name o h r, In (name, (o, h, r)) files -> obj_ok o /\ text h /\ hx_ok r /\ utf8_decode (hx_content r) <> None)
    (responses_ok : forall q r, In (q, inl r) cs -> hx_ok r /\ utf8_decode (hx_content r) <> None)
    (requests_ok : forall q, In q (map fst cs) \/ (exists i h, Forall2 without_encoding (firstn i os) h /\ t_next T' h = Some q) -> request_ok q)
    (no_collision : forall qs, (forall q, In q qs -> In q (map fst cs) \/ exists i h, Forall2 without_encoding (firstn i os) h /\ t_next T' h = Some q) ->
       forall x y, asked cc ign qs (length cs) x -> asked cc ign qs (length cs) y -> sha1 (request_text x) = sha1 (request_text y) -> request_text x = request_text y)
    (returned : Forall (fun o => exists r, o = Returned r) os)
    (alike : forall h h', Forall2 without_encoding h h' -> t_does T' h' = t_does T h /\
       match t_next T h, t_next T' h' with
       | None, None => True
       | Some q, Some q' => k_hash (key_of cc (json_to_sha1 sha1) ign None q) = k_hash (key_of cc (json_to_sha1 sha1) ign None q')
       | _, _ => False
       end) :
  httpx_run cc sha1 jfloat X ign hide capture refresh file T cs os b used ->
  exists saved, last_write (lit ".httpx.json") (b_files b) = Some saved /\
  (exists qs, forall cs', map fst cs' = qs -> exists os' used', httpx_run cc sha1 jfloat X ign hide false false (Some saved) T' cs' os' b used') /\
  forall cs' os' b' used', httpx_run cc sha1 jfloat X ign hide false false (Some saved) T' cs' os' b' used' ->
    b' = b /\ Forall2 without_encoding os os' /\ Forall (fun u => u = false) used' /\
    Forall2 (fun c c' => k_hash (key_of cc (json_to_sha1 sha1) ign None (fst c)) = k_hash (key_of cc (json_to_sha1 sha1) ign None (fst c'))) cs cs'.
Proof.
  intros H. set (ok := fun r => hx_ok r /\ utf8_decode (hx_content r) <> None).
  assert (SH : forall l l', Forall2 (shown hx_response X ok hx_plain) l l' -> Forall2 without_encoding l l').
  { intros l l' F. induction F as [|o o' l l' (r & -> & _ & ->) F IH]; constructor; [|exact IH]. exists r, (hx_plain r). repeat split. }
  destruct (http_again cc sha1 sha1_text jfloat hx_response X hx_json hx_of ok hx_plain
    (fun r v K => hx_json_ok jfloat r v (proj1 K))) with (ign := ign) (hide := hide) (title := lit "httpx snaphots:") (fname := lit ".httpx.json") (capture := capture) (refresh := refresh)
    (file := file) (T := T) (T' := T') (cs := cs) (os := os) (b := b) (used := used) as (saved & L & (qs & EX) & ALL); try assumption.
  - intros r [[_ B] U]. rewrite (hx_disk r B). destruct (utf8_decode (hx_content r)); [reflexivity|congruence].
  - intros r _. unfold hx_json, hx_plain. cbn [hx_headers hx_status hx_content]. now rewrite filter_twice.
  - intros files EF. apply Forall_forall. intros [n [[o h] r]] I. destruct (earlier_ok files EF _ _ _ _ I) as (A & B & C & D). unfold entry_ok, ok. auto.
  - intros q M. apply requests_ok. destruct M as [M|(i & h & F & M)]; [now left|]. apply SH in F. right. now exists i, h.
  - intros qs M. apply no_collision. intros q I. destruct (M q I) as [K|(i & h & F & K)]; [now left|]. apply SH in F. right. now exists i, h.
  - intros h h' F. apply SH in F. now apply alike.
  - exists saved. split; [exact L|]. split; [exists qs; exact EX|]. intros cs' os' b' used' R. destruct (ALL _ _ _ _ R) as (A & B & F & D). apply SH in F. auto.
Qed.
Print Assumptions C118_httpx.
