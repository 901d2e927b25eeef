(** C119: tests that record are recorded once, accepted, and pass from then on. *)
From Coq Require Import Lia.
From Verif Require Import RunCaseSpec PyStrFacts RunCaseProofs RunnerProofs RunCaseProps RecordProofs TokenizerProps CaseRunProps RepeatProps.
From Verif Require HttpTalkProps HttpTestModel HttpTestProps HttpProps HttpFilesModel HttpFilesProofs HttpFilesProps HttpModel JsonSpec BytesModel.

(** A run of tests with -a and -u in which nothing fails, and any run after it. [b n]: what the code of the test [n] does in the first
    run. In the first run the code may depend on the files that were in its snapshot directory before ([body1]), in the second on those
    that the first left there ([body2]): if it does the same again, given the files that it left, the second run is all OK, and every
    further one; and the files stay. *)
Theorem C119_recorded_then_green :
  forall cc, TokClassOK cc -> forall refloat E o c1 c2 body1 body2 b (D : Type) (show_dur : D -> str) parse_dur sp dur1 dur2 all1 all2 metrics1 metrics2
    selected answers1 answers2 f recs rest g,
  plain_dir E -> plain o -> starts_with [DOT] o = true -> let O := E ++ SLASH :: o in
  batch c1 -> accept c1 = true -> update c1 = true -> cont c1 = false -> batch c2 ->
  separate selected -> NoDup selected -> (forall n, In n selected -> steady cc (b n)) ->
  (forall n, In n selected -> ready E O n f) ->
  (forall n h, In n selected -> (forall r, lookup (E ++ SLASH :: n ++ SLASH :: r) h = lookup (E ++ SLASH :: n ++ SLASH :: r) f) -> body1 n h = b n) ->
  (forall n h, In n selected -> (forall r, lookup (E ++ SLASH :: n ++ SLASH :: r) h = last_write r (b_files (b n))) -> body2 n h = b n) ->
  run_async cc refloat E O O c1 body1 show_dur parse_dur sp dur1 all1 metrics1 selected answers1 f = Some (Ret (OK, recs, rest) g) ->
  exists recs2 h,
    run_async cc refloat E O O c2 body2 show_dur parse_dur sp dur2 all2 metrics2 selected answers2 g = Some (Ret (OK, recs2, answers2) h) /\
    (cont c2 = false -> forall n, In n selected -> In (n, OK, dur2 n) recs2) /\
    forall n, In n selected -> ready E O n g /\ ready E O n h /\ passes cc refloat E b n h /\
      forall r, lookup (E ++ SLASH :: n ++ SLASH :: r) g = last_write r (b_files (b n)) /\ lookup (E ++ SLASH :: n ++ SLASH :: r) h = last_write r (b_files (b n)).
Proof.
  intros cc TOK refloat E o c1 c2 body1 body2 b D show_dur parse_dur sp dur1 dur2 all1 all2 metrics1 metrics2 selected answers1 answers2 f recs rest g
    HE Ho Hdot O HB1 HA HU HC1 HB2 SEP ND HST HR HB HB' H.
  unfold run_async in H. set (old := of_file _ _ _) in H. set (todo := snd _) in H.
  assert (ET : todo = selected) by (unfold todo, cases_to_done_and_todo; now rewrite HC1).
  assert (SP1 : In (report_file O) [O ++ SLASH :: lit "cases.txt"; O ++ SLASH :: lit "metrics.json"; E ++ SLASH :: lit "index.md"]) by apply (report_special E o HE Ho).
  assert (M : path_join O (lit "metrics.json") = O ++ SLASH :: lit "metrics.json") by (apply path_join_name; [now apply HO|reflexivity]).
  assert (I : path_join E (lit "index.md") = E ++ SLASH :: lit "index.md") by (apply path_join_name; [exact HE|reflexivity]). rewrite M, I in H.
  assert (WS : forall n p t h q, In n selected -> In p [O ++ SLASH :: lit "cases.txt"; O ++ SLASH :: lit "metrics.json"; E ++ SLASH :: lit "index.md"] ->
     own E o n q -> lookup q h = lookup q (write_file p t h)).
  { intros n p t h q Hn Hp OW. symmetry. now apply (write_special refloat E o Hdot selected SEP n). }
  assert (WR : forall p t h, In p [O ++ SLASH :: lit "cases.txt"; O ++ SLASH :: lit "metrics.json"; E ++ SLASH :: lit "index.md"] ->
     (all_ready E o selected h -> all_ready E o selected (write_file p t h)) /\
     (forall n, In n selected -> passes cc refloat E b n h /\ holds E b n h -> passes cc refloat E b n (write_file p t h) /\ holds E b n (write_file p t h))).
  { intros p t h Hp. split.
    - intros AR n Hn. apply (ready_local E o n h); [|auto]. intros q OW. now apply (WS n).
    - intros n Hn [P1 P2]. split; [revert P1; apply (passes_local cc refloat E o b)|revert P2; apply (holds_local refloat E o b)]; intros q OW; now apply (WS n). }
  destruct (run_todo _ _ _ _ _ _ _ _ _ _ _ _ _ _ _) as [[y f1|f1]|] eqn:RT in H; [|discriminate|discriminate]. cbn [run_bind] in H. injection H as -> <-.
  rewrite ET in RT.
  assert (HB0 : forall n h, In n selected -> (forall r, lookup (E ++ SLASH :: n ++ SLASH :: r) h =
    lookup (E ++ SLASH :: n ++ SLASH :: r) (write_file (report_file O) (report_text show_dur (kept old selected)) f)) -> body1 n h = b n).
  { intros n h Hn L. apply HB; [exact Hn|]. intros r. rewrite L. symmetry. apply (WS n); [exact Hn|exact SP1|apply (own_file refloat)]. }
  destruct (todo_record cc TOK refloat E o HE Ho Hdot b selected SEP HST show_dur c1 body1 dur1 selected HB1 HA HU (incl_refl _) ND _ _ _ _ _ _ _ (proj1 (WR _ _ f SP1) HR) HB0 RT) as [AG PG].
  set (g0 := write_file _ _ (write_file _ _ f1)).
  assert (AR0 : all_ready E o selected g0) by (apply WR; [now right; right; left|]; apply WR; [now right; left|exact AG]).
  assert (AP0 : forall n, In n selected -> passes cc refloat E b n g0 /\ holds E b n g0).
  { intros n Hn. apply WR; [now right; right; left|exact Hn|]. apply WR; [now right; left|exact Hn|]. apply (PG n Hn). now left. }
  unfold run_async. set (old2 := of_file _ _ (lookup _ g0)). set (todo2 := snd (cases_to_done_and_todo old2 _ _)).
  assert (IN2 : incl todo2 selected) by apply todo_incl. rewrite M, I.
  destruct (todo_replay cc TOK refloat E o HE Ho Hdot b selected SEP HST show_dur c2 body2 dur2 todo2 HB2 IN2 HB' OK (kept old2 todo2) answers2
    (write_file (report_file O) (report_text show_dur (kept old2 todo2)) g0)) as (recs2 & h & RT2 & ER & AH & PH).
  { apply WR; [exact SP1|exact AR0]. }
  { intros n Hn. apply WR; [exact SP1|exact Hn|auto]. }
  fold O in RT2. rewrite RT2. cbn [run_bind]. exists recs2. eexists. split; [reflexivity|]. split.
  - intros HC2 n Hn. rewrite ER. apply in_or_app. right. apply in_map_iff. exists n. split; [reflexivity|].
    unfold todo2, cases_to_done_and_todo. rewrite HC2. exact Hn.
  - set (h0 := write_file _ _ (write_file _ _ h)).
    assert (ARH : all_ready E o selected h0) by (apply WR; [now right; right; left|]; apply WR; [now right; left|exact AH]).
    intros n Hn. split; [now apply AR0|]. split; [now apply ARH|]. destruct (WR (E ++ SLASH :: lit "index.md") (index_text all2) (write_file (O ++ SLASH :: lit "metrics.json") metrics2 h)) as [_ W2]; [now right; right; left|].
    destruct (W2 n Hn) as [P1 P2]; [apply WR; [now right; left|exact Hn|auto]|]. split; [exact P1|]. intros r. split; [apply (AP0 n Hn)|apply P2].
Qed.
Print Assumptions C119_recorded_then_green.

Import HttpTestModel HttpModel HttpFilesModel HttpProps HttpFilesProps.

(** What C118 asks of the run [b] of a test inside snapshot_requests that records, and of the test [T'] in later runs. *)
Record recorded_run (cc : CharClass) (sha1 jfloat : str -> str) {X : Type} ign hide capture refresh file (T T' : http_test rq_response X) cs os b used : Prop := {
  rr_sha1 : forall t, JsonSpec.text (sha1 t);
  rr_earlier : forall files, recordings jfloat rq_response rq_of refresh file = Some files ->
    forall name o h r, In (name, (o, h, r)) files -> HttpFilesProofs.obj_ok o /\ JsonSpec.text h /\ HttpFilesProofs.rq_ok r /\ BytesModel.utf8_decode (rq_content r) <> None;
  rr_responses : forall q r, In (q, inl r) cs -> HttpFilesProofs.rq_ok r /\ BytesModel.utf8_decode (rq_content r) <> None;
  rr_requests : forall q, In q (map fst cs) \/ (exists i, t_next T' (firstn i os) = Some q) -> request_ok q;
  rr_collision : forall qs, (forall q, In q qs -> In q (map fst cs) \/ exists i, t_next T' (firstn i os) = Some q) ->
    forall x y, asked cc ign qs (length cs) x -> asked cc ign qs (length cs) y -> sha1 (request_text x) = sha1 (request_text y) -> request_text x = request_text y;
  rr_returned : Forall (fun o => exists r, o = Returned r) os;
  rr_alike : forall h, t_does T' h = t_does T h /\
    match t_next T h, t_next T' h with
    | None, None => True
    | Some q, Some q' => k_hash (key_of cc (json_to_sha1 sha1) ign None q) = k_hash (key_of cc (json_to_sha1 sha1) ign None q')
    | _, _ => False
    end;
  rr_run : HttpTestProps.requests_run cc sha1 jfloat X ign hide capture refresh file T cs os b used
}.

(** Tests inside snapshot_requests: recorded with -s or -S, -a and -u, they pass from then on. [body2]: what the code does in a run
    that does not record, with any network. *)
Theorem C119_requests :
  forall cc, TokClassOK cc -> forall refloat E o c1 c2 body1 body2 b (D : Type) (show_dur : D -> str) parse_dur sp dur1 dur2 all1 all2 metrics1 metrics2
    selected answers1 answers2 f recs rest g
    sha1 jfloat (X : Type) ign hide capture refresh (T T' : str -> http_test rq_response X) cs os used,
  plain_dir E -> plain o -> starts_with [DOT] o = true -> let O := E ++ SLASH :: o in
  batch c1 -> accept c1 = true -> update c1 = true -> cont c1 = false -> batch c2 ->
  separate selected -> NoDup selected -> (forall n, In n selected -> steady cc (b n)) ->
  (forall n, In n selected -> ready E O n f) ->
  let recording n := E ++ SLASH :: n ++ SLASH :: lit ".requests.json" in
  (forall n, In n selected -> recorded_run cc sha1 jfloat ign hide capture refresh (lookup (recording n) f) (T n) (T' n) (cs n) (os n) (b n) (used n)) ->
  (forall n h, In n selected -> lookup (recording n) h = lookup (recording n) f -> body1 n h = b n) ->
  (forall n h saved, In n selected -> lookup (recording n) h = Some saved ->
     let offline := fun cs' os' b' used' => HttpTestProps.requests_run cc sha1 jfloat X ign hide false false (Some saved) (T' n) cs' os' b' used' in
     (exists cs' os' b' used', offline cs' os' b' used') -> exists cs' os' used', offline cs' os' (body2 n h) used') ->
  run_async cc refloat E O O c1 body1 show_dur parse_dur sp dur1 all1 metrics1 selected answers1 f = Some (Ret (OK, recs, rest) g) ->
  exists recs2 h,
    run_async cc refloat E O O c2 body2 show_dur parse_dur sp dur2 all2 metrics2 selected answers2 g = Some (Ret (OK, recs2, answers2) h) /\
    (cont c2 = false -> forall n, In n selected -> In (n, OK, dur2 n) recs2) /\
    forall n, In n selected -> lookup (recording n) g = last_write (lit ".requests.json") (b_files (b n)) /\ lookup (recording n) h = lookup (recording n) g.
Proof.
  intros cc TOK refloat E o c1 c2 body1 body2 b D show_dur parse_dur sp dur1 dur2 all1 all2 metrics1 metrics2 selected answers1 answers2 f recs rest g
    sha1 jfloat X ign hide capture refresh T T' cs os used HE Ho Hdot O HB1 HA HU HC1 HB2 SEP ND HST HR recording RR HB HB' H.
  destruct (C119_recorded_then_green cc TOK refloat E o c1 c2 body1 body2 b D show_dur parse_dur sp dur1 dur2 all1 all2 metrics1 metrics2 selected answers1 answers2 f recs rest g)
    as (recs2 & h & R2 & A & B); try assumption.
  - intros n h Hn L. apply HB; [exact Hn|apply L].
  - intros n h Hn L. destruct (RR n Hn) as [S1 S2 S3 S4 S5 S6 S7 S8].
    destruct (HttpTestProps.C118_requests cc sha1 jfloat X ign hide capture refresh _ (T n) (T' n) (cs n) (os n) (b n) (used n) S1 S2 S3 S4 S5 S6 S7 S8) as (saved & LW & (qs & EX) & ALL).
    destruct (HB' n h saved Hn) as (cs' & os' & used' & RUN).
    + unfold recording. rewrite L. exact LW.
    + destruct (EX (map (fun q => (q, inl {| rq_status := 0; rq_headers := []; rq_encoding := None; rq_content := [] |})) qs)) as (used' & RUN); [rewrite map_map; apply map_id|].
      do 4 eexists. exact RUN.
    + apply (ALL _ _ _ _ RUN).
  - exists recs2, h. split; [exact R2|]. split; [exact A|]. intros n Hn. destruct (B n Hn) as (_ & _ & _ & K). destruct (K (lit ".requests.json")) as [K1 K2].
    unfold recording. rewrite K1, K2. auto.
Qed.
Print Assumptions C119_requests.

(** *** Examples. A test that asks for "/a" and then for what the answer says, and writes the answers. *)
Import HttpTalkProps HttpTestProps.
Definition talker : http_test rq_response unit := {|
  t_next h := match h with [] => Some (ask (lit "/a")) | [Returned r] => Some (ask (rq_content r)) | _ => None end;
  t_does h := {| b_ops := OH 1 (lit "talk") :: map (fun o => OTln (match o with Returned r => lit "got " ++ rq_content r | _ => lit "nothing" end)) h;
                 b_exc := if existsb (fun o => match o with Returned _ => false | _ => true end) h then Some (lit "missing snapshot", lit "") else None;
                 b_files := []; b_tmp := []; b_log := []; b_value := None |} |}.
Definition talk_cs : list (HttpProps.request * (rq_response + unit)) := [(ask (lit "/a"), inl page); (ask (lit "hi"), inl page)].
Definition talk_run (capture refresh : bool) (file : option str) (cs : list (HttpProps.request * (rq_response + unit))) :=
  let sha := json_to_sha1 demo_sha1 in
  let '(reqs, os, used) := send_all ascii_class sha rq_response unit capture
    (load ascii_class sha rq_response IgnoreAll None (match recordings (fun t => t) rq_response rq_of refresh file with Some l => l | None => [] end) refresh) [] (keyed ascii_class sha IgnoreAll None cs) in
  (with_snapshots rq_response (lit "request snaphots:") (lit ".requests.json") (t_does talker os)
    (match HttpFilesModel.write_file rq_response rq_json true reqs with Some t => t | None => [] end) reqs, os, used).
Definition talk_b : body_run := fst (fst (talk_run true true None talk_cs)).
Definition talk_os := snd (fst (talk_run true true None talk_cs)).

Lemma talk_recorded : requests_run ascii_class demo_sha1 (fun t => t) unit IgnoreAll true true true None talker talk_cs talk_os talk_b [true; true].
Proof.
  do 3 eexists. split; [reflexivity|]. split; [vm_compute; reflexivity|]. split; [apply conversation_2; vm_compute; reflexivity|]. split; vm_compute; reflexivity.
Qed.
Lemma ask_ok t : JsonSpec.text t -> request_ok (ask t).
Proof.
  intros H. split; [exact H|]. split; [apply HttpFilesProofs.low_text; repeat constructor|]. split; [split; constructor|]. discriminate.
Qed.
Example C118_example : recorded_run ascii_class demo_sha1 (fun t => t) IgnoreAll true true true None talker talker talk_cs talk_os talk_b [true; true].
Proof.
  assert (MAY : forall q, In q (map fst talk_cs) \/ (exists i, t_next talker (firstn i talk_os) = Some q) -> request_ok q).
  { assert (OS : talk_os = [Returned page; Returned page]) by (vm_compute; reflexivity).
    intros q [[<-|[<-|[]]]|[i H]]; [apply ask_ok, HttpFilesProofs.low_text; repeat constructor|apply ask_ok, HttpFilesProofs.low_text; repeat constructor|].
    rewrite OS in H. destruct i as [|[|[|i]]]; cbn in H; try discriminate; injection H as <-; apply ask_ok, HttpFilesProofs.low_text; repeat constructor. }
  split.
  - exact demo_sha1_text.
  - intros files H. injection H as <-. intros ? ? ? ? [].
  - intros q r [H|[H|[]]]; injection H as _ <-; (split; [|discriminate]); (split; [split; constructor|discriminate]).
  - exact MAY.
  - intros qs HQ x y A B. assert (QO : Forall request_ok qs) by (apply Forall_forall; intros q I; apply MAY; now apply HQ).
    apply demo_sha1_inj; eapply asked_ok; eassumption.
  - assert (OS : talk_os = [Returned page; Returned page]) by (vm_compute; reflexivity). rewrite OS. repeat constructor; eexists; reflexivity.
  - intros h. split; [reflexivity|]. destruct (t_next talker h); [reflexivity|exact I].
  - exact talk_recorded.
Qed.

(** the whole run: recorded with -S -a -u, and again without network *)
Definition talk_conf (acc upd : bool) : config :=
  {| always_interactive := false; interactive := false; update := upd; accept := acc; cont := false; fail_fast := false; point_error_pos := true |}.
Definition talk_go (c : config) (body : str -> fs -> body_run) (f : fs) :=
  run_async ascii_class no_float demo_E demo_O demo_O c body (fun d : str => d) Some (fun c => N.eqb c SP) (fun _ => lit "7") [lit "t/net"] (lit "{}") [lit "t/net"] [] f.
Definition talk_recording := lit "books/t/net/.requests.json".
Definition talk_offline (h : fs) : body_run :=
  fst (fst (talk_run false false (lookup talk_recording h) (map (fun c => (fst c, inr tt)) (if path_exists talk_recording h then talk_cs else firstn 1 talk_cs)))).
Lemma talk_steady : steady ascii_class talk_b.
Proof.
  split; [vm_compute; reflexivity|]. split; [apply repeatableb_ok; vm_compute; reflexivity|]. split; [apply freeb_ok; vm_compute; reflexivity|].
  eexists. split; [vm_compute; reflexivity|]. apply well_pieced_of; [exact ascii_TokClassOK|]. apply tokenize_iff; [exact ascii_TokClassOK|]. vm_compute. reflexivity.
Qed.
Lemma talk_separate : separate [lit "t/net"].
Proof.
  split.
  - constructor; [|constructor]. split; [change (lit "t/net") with (join_with [SLASH] [lit "t"; lit "net"]); apply proper_parts; [discriminate|repeat constructor; discriminate]|].
    split; [vm_compute; intuition discriminate|]. split; discriminate.
  - intros n m [<-|[]] [<-|[]] _. reflexivity.
Qed.
Example C119_example :
  ready demo_E demo_O (lit "t/net") [] /\ separate [lit "t/net"] /\ steady ascii_class talk_b /\
  exists recs rest g recs2 h, talk_go (talk_conf true true) (fun _ _ => talk_b) [] = Some (Ret (OK, recs, rest) g) /\
    lookup talk_recording g = last_write (lit ".requests.json") (b_files talk_b) /\ lookup talk_recording g <> None /\
    talk_go (talk_conf false false) (fun _ => talk_offline) g = Some (Ret (OK, recs2, []) h) /\ recs2 = [(lit "t/net", OK, lit "7")].
Proof.
  split; [apply readyb_ok; vm_compute; reflexivity|]. split; [exact talk_separate|]. split; [exact talk_steady|].
  do 5 eexists. split; [vm_compute; reflexivity|]. split; [vm_compute; reflexivity|]. split; [discriminate|]. split; vm_compute; reflexivity.
Qed.

(** Without -u this is false: if the snapshot fits but the recordings were lost, recording them again ends OK, and the recordings are
    not accepted: the test fails in the next run. *)
Theorem C119_needs_update : exists f recs rest g b' used',
  let c1 := talk_conf true false in
  plain_dir demo_E /\ plain demo_o /\ batch c1 /\ accept c1 = true /\ separate [lit "t/net"] /\ steady ascii_class talk_b /\ ready demo_E demo_O (lit "t/net") f /\
  recorded_run ascii_class demo_sha1 (fun t => t) IgnoreAll true true true (lookup talk_recording f) talker talker talk_cs talk_os talk_b [true; true] /\
  talk_go c1 (fun _ _ => talk_b) f = Some (Ret (OK, recs, rest) g) /\
  requests_run ascii_class demo_sha1 (fun t => t) unit IgnoreAll true false false (lookup talk_recording g) talker [(ask (lit "/a"), inr tt)] [Missing] b' used' /\
  verdict_of (talk_go (talk_conf false false) (fun _ _ => b') g) = Some FAIL.
Proof.
  exists [(lit "books/t/net.md", match run_body ascii_class no_float None true (b_ops talk_b) with Some s => out s | None => [] end)]. do 5 eexists. cbv zeta.
  split; [exact (proj1 demo_dirs)|]. split; [exact (proj1 (proj2 demo_dirs))|]. split; [split; reflexivity|]. split; [reflexivity|]. split; [exact talk_separate|]. split; [exact talk_steady|].
  split; [apply readyb_ok; vm_compute; reflexivity|]. split; [exact C118_example|]. split; [vm_compute; reflexivity|]. split.
  - do 3 eexists. split; [vm_compute; reflexivity|]. split; [vm_compute; reflexivity|]. split; [|split; [vm_compute; reflexivity|reflexivity]].
    split; [reflexivity|]. split; [|reflexivity]. intros [|[|i]] q H; cbn in *; congruence.
  - vm_compute. reflexivity.
Qed.
Print Assumptions C119_needs_update.
