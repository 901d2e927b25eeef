(** C113: a test whose requests depend on the answers it gets. *)
From Coq Require Import Lia Permutation.
From Verif Require Import PyStrFacts HttpModel HttpProofs HttpHash HttpProps BytesFacts HttpFilesModel HttpFilesProofs TokenizerProps.

(** A test makes its next request, or stops, depending on what its requests returned or raised so far. [conversation test qs os]:
    the test makes exactly the requests [qs] if they end in [os]. *)
Definition conversation {R X} (test : list (outcome R X) -> option request) (qs : list request) (os : list (outcome R X)) : Prop :=
  length qs = length os /\
  (forall i q, nth_error qs i = Some q -> test (firstn i os) = Some q) /\
  test os = None.

(** what a request returned, and what it returns when it was read from the file *)
Definition from_file {R X} (to_disk : R -> option R) (o o' : outcome R X) : Prop :=
  exists r r', o = Returned r /\ to_disk r = Some r' /\ o' = Returned r'.

Lemma conversation_cons {R X} (test : list (outcome R X) -> option request) q qs o os :
  conversation test (q :: qs) (o :: os) -> test [] = Some q /\ conversation (fun h => test (o :: h)) qs os.
Proof.
  intros (L & N & E). split; [exact (N 0 q eq_refl)|]. split; [now injection L|]. split; [|exact E].
  intros i p H. exact (N (S i) p H).
Qed.

Lemma conversation_again {R X} (to_disk : R -> option R) (P : request -> request -> Prop) : forall qs (test test' : list (outcome R X) -> option request) os os',
  (forall h h', Forall2 (from_file to_disk) h h' ->
     match test h, test' h' with None, None => True | Some q, Some q' => P q q' | _, _ => False end) ->
  conversation test qs os -> Forall2 (from_file to_disk) os os' ->
  exists qs', conversation test' qs' os' /\ Forall2 P qs qs'.
Proof.
  induction qs as [|q qs IH]; intros test test' os os' H C F.
  - destruct C as (L & _ & E). destruct os; [|discriminate]. inversion_clear F. exists []. split; [|constructor].
    split; [reflexivity|]. split; [now intros [|i] ?|]. specialize (H [] [] (Forall2_nil _)). rewrite E in H. now destruct (test' []).
  - destruct os as [|o os]; [destruct C as (L & _); discriminate|]. inversion F as [|? o' ? os1 F1 F2]; subst.
    apply conversation_cons in C as [T C].
    destruct (IH (fun h => test (o :: h)) (fun h => test' (o' :: h)) os os1) as (qs' & C' & FP); auto.
    { intros h h' Fh. apply H. now constructor. }
    pose proof (H [] [] (Forall2_nil _)) as H0. rewrite T in H0. destruct (test' []) as [q'|] eqn:T'; [|easy].
    exists (q' :: qs'). split; [|now constructor]. destruct C' as (L & N & E). split; [cbn; now rewrite L|]. split; [|exact E].
    intros [|i] p Hp; [cbn in *; congruence|exact (N i p Hp)].
Qed.

Lemma Forall2_pair {A B C} (P : A -> A -> Prop) : forall (cs : list (A * (B + C))) qs,
  Forall2 P (map fst cs) qs -> exists cs1 : list (A * (B + C)), map fst cs1 = qs /\ Forall2 (fun c c1 => P (fst c) (fst c1)) cs cs1.
Proof.
  induction cs as [|c cs IH]; intros qs F; inversion F as [|? q ? qs' H F']; subst; [now exists []|].
  destruct (IH _ F') as (cs1 & <- & FC). exists ((q, snd c) :: cs1). split; [reflexivity|]. now constructor.
Qed.

Section One.
Variable cc : CharClass.
Variable sha : obj -> str.
Variable ign : ignore.
Context {R X : Type}.

(** without network, a test has one conversation *)
Lemma one_conversation snaps : forall cs1 cs2 (test : list (outcome R X) -> option request) reqs r1 os1 i1 r2 os2 i2,
  send_all cc sha R X false snaps reqs (keyed cc sha ign None cs1) = (r1, os1, i1) -> conversation test (map fst cs1) os1 ->
  send_all cc sha R X false snaps reqs (keyed cc sha ign None cs2) = (r2, os2, i2) -> conversation test (map fst cs2) os2 ->
  map fst cs1 = map fst cs2 /\ os1 = os2 /\ i1 = i2.
Proof.
  induction cs1 as [|[q1 n1] cs1 IH]; intros [|[q2 n2] cs2] test reqs r1 os1 i1 r2 os2 i2 E1 C1 E2 C2; cbn [keyed map fst snd send_all] in *.
  - injection E1 as <- <- <-. injection E2 as <- <- <-. auto.
  - injection E1 as <- <- <-. exfalso. destruct C1 as (_ & _ & C1). destruct C2 as (_ & N & _). specialize (N 0 q2 eq_refl). cbn in N. congruence.
  - injection E2 as <- <- <-. exfalso. destruct C2 as (_ & _ & C2). destruct C1 as (_ & N & _). specialize (N 0 q1 eq_refl). cbn in N. congruence.
  - assert (EQ : q1 = q2).
    { destruct C1 as (_ & N1 & _). destruct C2 as (_ & N2 & _). specialize (N1 0 q1 eq_refl). specialize (N2 0 q2 eq_refl). cbn in N1, N2. congruence. }
    subst q2.
    assert (ES : send cc sha R X false snaps reqs (key_of cc sha ign None q1) n1 = send cc sha R X false snaps reqs (key_of cc sha ign None q1) n2) by reflexivity.
    rewrite ES in E1. destruct (send cc sha R X false snaps reqs (key_of cc sha ign None q1) n2) as [[reqs1 o] u]. clear ES.
    fold (keyed cc sha ign None cs1) (keyed cc sha ign None cs2) in *.
    destruct (send_all cc sha R X false snaps reqs1 (keyed cc sha ign None cs1)) as [[a1 b1] c1] eqn:F1.
    destruct (send_all cc sha R X false snaps reqs1 (keyed cc sha ign None cs2)) as [[a2 b2] c2] eqn:F2.
    injection E1 as <- <- <-. injection E2 as <- <- <-. apply conversation_cons in C1 as [_ C1]. apply conversation_cons in C2 as [_ C2].
    destruct (IH cs2 _ _ _ _ _ _ _ _ F1 C1 F2 C2) as (A & B & C). now rewrite A, B, C.
Qed.
End One.

(** ** C113. [test]: the test while capturing, [test']: the test in a later run, which may send other ignored headers. If the test
    looks at nothing of a response that is lost in the file, then every run of it without network has the same conversation as
    the capture: as many requests, with the same keys, and the recorded answers. *)
Theorem C113_partial (cc : CharClass) (sha : obj -> str) (ign : ignore) (R X : Type) (to_disk : R -> option R)
    capture files refresh test cs reqs os is hide stored listing test' cs' reqs' os' is'
    (no_collision : forall qs,
       (forall q, In q qs -> In q (map fst cs) \/ exists i h, Forall2 (from_file to_disk) (firstn i os) h /\ test' h = Some q) ->
       forall a b, asked cc ign qs (length cs) a -> asked cc ign qs (length cs) b -> (sha a = sha b <-> same a b)) :
  send_all cc sha R X capture (load cc sha R ign None files refresh) [] (keyed cc sha ign None cs) = (reqs, os, is) ->
  conversation test (map fst cs) os ->
  Forall (fun o => exists r, o = Returned r) os ->
  stop R to_disk hide reqs [] = Some stored ->
  Permutation stored listing ->
  (forall h h', Forall2 (from_file to_disk) h h' ->
     match test h, test' h' with
     | None, None => True
     | Some q, Some q' => k_hash (key_of cc sha ign None q) = k_hash (key_of cc sha ign None q')
     | _, _ => False
     end) ->
  send_all cc sha R X false (load cc sha R ign None listing false) [] (keyed cc sha ign None cs') = (reqs', os', is') ->
  conversation test' (map fst cs') os' ->
  Forall2 (fun c c' => k_hash (key_of cc sha ign None (fst c)) = k_hash (key_of cc sha ign None (fst c'))) cs cs' /\
  Forall2 (from_file to_disk) os os' /\ Forall (fun i => i = false) is'.
Proof.
  intros E C HR ES EP HT E' C'.
  assert (exists os1, Forall2 (from_file to_disk) os os1) as [os1 F1].
  { assert (K := C45_partial cc sha ign R X to_disk capture files refresh cs reqs os is hide stored listing cs).
    assert (NC := no_collision (map fst (cs ++ cs))).
    destruct (send_all cc sha R X false _ [] (keyed cc sha ign None cs)) as [[r1 os1] i1]. exists os1. apply K; auto.
    - apply NC. intros q I. left. rewrite map_app, in_app_iff in I. tauto.
    - clear. induction cs; constructor; auto. }
  destruct (conversation_again to_disk _ _ _ _ _ _ HT C F1) as (qs & C1 & FP).
  destruct (Forall2_pair _ cs qs FP) as (cs1 & <- & FC).
  assert (K := C45_partial cc sha ign R X to_disk capture files refresh cs reqs os is hide stored listing cs1).
  destruct (send_all cc sha R X false (load cc sha R ign None listing false) [] (keyed cc sha ign None cs1)) as [[r1 os2] i1] eqn:E1.
  destruct K as [F2 NI]; auto.
  - apply no_collision. intros q I. rewrite map_app, in_app_iff in I. destruct I as [I|I]; [now left|right].
    apply In_nth_error in I as [i I]. destruct C1 as (_ & N & _). apply N in I. exists i, (firstn i os1). split; [|exact I].
    clear - F1. revert i. induction F1; intros [|i]; cbn; constructor; auto.
  - assert (os2 = os1).
    { clear - F1 F2. revert os2 F2. induction F1 as [|o o1 l l1 H F1 IH]; intros os2 F2; inversion F2 as [|? o2 ? l2 H2 F3]; subst; [reflexivity|].
      f_equal; [|now apply IH]. destruct H as (r & r1 & -> & D & ->). destruct H2 as (q & q1 & Q & D2 & ->). injection Q as <-. congruence. }
    subst os2. destruct (one_conversation cc sha ign _ _ _ _ _ _ _ _ _ _ _ E1 C1 E' C') as (A & <- & <-).
    split; [|split; assumption]. clear - FC A. revert cs' A. induction FC as [|c c1 l l1 H FC IH]; intros [|c' cs'] A; cbn in A; try discriminate; constructor.
    + injection A as <- _. exact H.
    + apply IH. now injection A.
Qed.
Print Assumptions C113_partial.

(** A response of requests, live or replayed. The headers of a live one are looked up without regard to case, those of a replayed
    one are a plain dict (C97). *)
Definition answer_of := (bool * rq_response)%type.
Definition answer_disk (a : answer_of) : option answer_of := option_map (pair false) (response_disk rq_response rq_json rq_of (snd a)).
Definition location (a : answer_of) : option str :=
  if fst a then header_of ascii_class (lit "location") (rq_headers (snd a)) else dict_header (lit "location") (rq_headers (snd a)).
Definition ask (url : str) : request := {| r_url := url; r_method := lit "GET"; r_headers := []; r_body := None |}.
(** GET /a, and go where the answers redirect to *)
Definition redirected (h : list (outcome answer_of unit)) : option request :=
  match rev h with
  | [] => Some (ask (lit "/a"))
  | Returned a :: _ => option_map ask (location a)
  | _ => None
  end.
Definition moved (name to : string) : rq_response :=
  {| rq_status := 302; rq_headers := [(lit name, lit to)]; rq_encoding := None; rq_content := [] |}.
Definition page : rq_response := {| rq_status := 200; rq_headers := []; rq_encoding := None; rq_content := [104; 105]%N |}.

Lemma conversation_2 {R X} (test : list (outcome R X) -> option request) q1 q2 o1 o2 :
  test [] = Some q1 -> test [o1] = Some q2 -> test [o1; o2] = None -> conversation test [q1; q2] [o1; o2].
Proof. intros A B C. split; [reflexivity|]. split; [|exact C]. intros [|[|[|i]]] q E; cbn in *; congruence. Qed.

(** False: requests follows a redirect while capturing, and not in the replay, if the server spells the header "Location". The
    test ends up with another answer. *)
Theorem C113_refuted : exists cs reqs is stored reqs' is',
  send_all ascii_class demo_sha answer_of unit true [] [] (keyed ascii_class demo_sha IgnoreAll None cs) =
    (reqs, [Returned (true, moved "Location" "/b"); Returned (true, page)], is) /\
  conversation redirected (map fst cs) [Returned (true, moved "Location" "/b"); Returned (true, page)] /\
  stop answer_of answer_disk true reqs [] = Some stored /\
  let cs' := [(ask (lit "/a"), inr tt)] in
  send_all ascii_class demo_sha answer_of unit false (load ascii_class demo_sha answer_of IgnoreAll None stored false) []
    (keyed ascii_class demo_sha IgnoreAll None cs') = (reqs', [Returned (false, moved "Location" "/b")], is') /\
  conversation redirected (map fst cs') [Returned (false, moved "Location" "/b")].
Proof.
  exists [(ask (lit "/a"), inl (true, moved "Location" "/b")); (ask (lit "/b"), inl (true, page))]. do 5 eexists.
  split; [vm_compute; reflexivity|]. split; [apply conversation_2; vm_compute; reflexivity|].
  split; [vm_compute; reflexivity|]. split; [vm_compute; reflexivity|].
  split; [reflexivity|]. split; [|vm_compute; reflexivity]. intros [|[|i]] q E; cbn in *; congruence.
Qed.
Print Assumptions C113_refuted.

(** The hypotheses of C113_partial are met: a test that reads the content of the first answer, and asks for what it says. *)
Definition reading (h : list (outcome answer_of unit)) : option request :=
  match h with
  | [] => Some (ask (lit "/a"))
  | [Returned a] => Some (ask (rq_content (snd a)))
  | _ => None
  end.
Example C113_example : exists cs reqs os is stored,
  send_all ascii_class demo_sha answer_of unit true [] [] (keyed ascii_class demo_sha IgnoreAll None cs) = (reqs, os, is) /\
  conversation reading (map fst cs) os /\ os = [Returned (true, page); Returned (true, moved "Location" "/b")] /\
  map (fun c => r_url (fst c)) cs = [lit "/a"; lit "hi"] /\
  Forall (fun o => exists r, o = Returned r) os /\
  stop answer_of answer_disk true reqs [] = Some stored /\
  (forall h h', Forall2 (from_file answer_disk) h h' -> reading h' = reading h) /\
  exists reqs' is', send_all ascii_class demo_sha answer_of unit false (load ascii_class demo_sha answer_of IgnoreAll None stored false) []
    (keyed ascii_class demo_sha IgnoreAll None cs) = (reqs', [Returned (false, page); Returned (false, moved "Location" "/b")], is').
Proof.
  exists [(ask (lit "/a"), inl (true, page)); (ask (lit "hi"), inl (true, moved "Location" "/b"))]. do 4 eexists.
  split; [vm_compute; reflexivity|]. split; [apply conversation_2; vm_compute; reflexivity|]. split; [vm_compute; reflexivity|].
  split; [reflexivity|]. split; [repeat constructor; eexists; reflexivity|]. split; [vm_compute; reflexivity|]. split.
  - intros h h' F. destruct F as [|o o' l l' (r & r' & -> & D & ->) F]; [reflexivity|]. destruct F; [|reflexivity].
    cbn [reading]. do 2 f_equal. destruct r as [live r]. unfold answer_disk in D. cbn [snd] in D.
    destruct (response_disk rq_response rq_json rq_of r) as [r1|] eqn:E; [|discriminate]. injection D as <-. cbn [snd].
    destruct (utf8_decode (rq_content r)) as [t|] eqn:ET; [rewrite (rq_disk r t ET) in E; now injection E as <-|].
    unfold response_disk in E. now rewrite (rq_not r ET) in E.
  - do 2 eexists. vm_compute. reflexivity.
Qed.
