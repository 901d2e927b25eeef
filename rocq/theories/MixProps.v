(** C124: a test under several recorders at once, recorded, accepted and run again. *)
From Coq Require Import Lia.
From Verif Require Import HttpTestModel RunCaseSpec MixModel MixProofs PyStrFacts RunCaseProofs RunnerProofs RunCaseProps RecordProofs RecordProps TokenizerProps CaseRunProps RepeatProps.
From Verif Require Import HttpModel HttpProofs HttpHash HttpProps HttpListModel HttpFilesModel HttpFilesProofs HttpFilesProps HttpTalkProps JsonFacts BytesFacts HttpTestProofs HttpTestProps.
From Verif Require ReviewSpec FuncModel FuncTestModel FuncTestProofs FuncTestProps EnvModel EnvProofs EnvTestModel EnvTestProps JsonFilesModel JsonModel JsonSpec.

Definition no_body : body_run := {| b_ops := []; b_exc := None; b_files := []; b_tmp := []; b_log := []; b_value := None |}.

Lemma F2_length {A B} (P : A -> B -> Prop) l l' : Forall2 P l l' -> length l = length l'.
Proof. induction 1; cbn; congruence. Qed.

Section Layers.
Variable cc : CharClass.
Variable sha1 jfloat : str -> str.
Variable X : Type.
Hypothesis sha1_text : forall t, text (sha1 t).
Notation sha := (json_to_sha1 sha1).

(** ** requests *)
Lemma rq_layer ign hide capture refresh file files (cs : list (request * (rq_response + X))) reqs os rus text0 (qs' : list request)
    (earlier_ok : forall files, recordings jfloat rq_response rq_of refresh file = Some files ->
       forall name o h r, In (name, (o, h, r)) files -> obj_ok o /\ text h /\ rq_ok r /\ utf8_decode (rq_content r) <> None)
    (responses_ok : forall q r, In (q, inl r) cs -> rq_ok r /\ utf8_decode (rq_content r) <> None)
    (requests_ok : forall q, In q (map fst cs) \/ In q qs' -> request_ok q)
    (no_collision : forall qs, (forall q, In q qs -> In q (map fst cs) \/ In q qs') ->
       forall x y, asked cc ign qs (length cs) x -> asked cc ign qs (length cs) y -> sha1 (request_text x) = sha1 (request_text y) -> request_text x = request_text y)
    (returned : Forall (fun o => exists r, o = Returned r) os)
    (alike : Forall2 (fun q q' => k_hash (key_of cc sha ign None q) = k_hash (key_of cc sha ign None q')) (map fst cs) qs') :
  recordings jfloat rq_response rq_of refresh file = Some files ->
  send_all cc sha rq_response X capture (load cc sha rq_response ign None files refresh) [] (keyed cc sha ign None cs) = (reqs, os, rus) ->
  HttpFilesModel.write_file rq_response rq_json hide reqs = Some text0 ->
  exists files', recordings jfloat rq_response rq_of false (Some text0) = Some files' /\
    forall cs', map fst cs' = qs' -> exists reqs' rus',
      send_all cc sha rq_response X false (load cc sha rq_response ign None files' false) [] (keyed cc sha ign None cs') = (reqs', os, rus') /\
      HttpFilesModel.write_file rq_response rq_json hide reqs' = Some text0 /\ map OTln (snapshot_lines reqs') = map OTln (snapshot_lines reqs).
Proof.
  intros EF ES EW.
  assert (LO : length cs = length os).
  { clear - ES. revert ES. generalize (@nil (snap rq_response)). generalize (load cc sha rq_response ign None files refresh). intros l l0. revert l0 reqs os rus. induction cs as [|[q v] cs IH]; intros l0 reqs os rus; cbn [keyed map send_all fst snd].
    - now intros [= <- <- <-].
    - destruct (send _ _ _ _ _ _ _ _ _) as [[a o] u]. destruct (send_all _ _ _ _ _ _ _ _) as [[b c] d] eqn:E. intros [= <- <- <-]. cbn. f_equal. exact (IH _ _ _ _ E). }
  destruct (C118_requests cc sha1 jfloat X ign hide capture refresh file {| t_next := script (map fst cs); t_does := fun _ => no_body |} {| t_next := script qs'; t_does := fun _ => no_body |}
    cs os (with_snapshots rq_response (lit "request snaphots:") (lit ".requests.json") no_body text0 reqs) rus) as (saved & SV & (qs & EX) & _); try assumption.
  - intros q [I|(i & H)]; apply requests_ok; [now left|right]. cbn [t_next] in H. unfold script in H. exact (nth_error_In _ _ H).
  - intros qs H. apply no_collision. intros q I. destruct (H q I) as [K|(i & K)]; [now left|right]. cbn [t_next] in K. unfold script in K. exact (nth_error_In _ _ K).
  - intros h. split; [reflexivity|]. cbn [t_next]. unfold script. apply (script_alike _ _ _ alike).
  - exists files, reqs, text0. split; [exact EF|]. split; [exact ES|]. split; [|split; [exact EW|reflexivity]]. apply script_follows. rewrite map_length. exact LO.
  - assert (saved = text0). { unfold with_snapshots in SV. cbn [b_files no_body app] in SV. unfold last_write in SV. cbn [rev app lookup] in SV. rewrite str_eqb_refl in SV. congruence. } subst saved.
    assert (QS : qs = qs').
    { destruct (EX (map (fun q => (q, inl {| rq_headers := []; rq_status := 0%Z; rq_content := []; rq_encoding := None |})) qs)) as (used' & f2 & r2 & t2 & _ & _ & (A & B & C) & _).
      - rewrite map_map. apply map_id.
      - cbn [t_next] in B, C. rewrite map_map in *. cbn [fst] in *. rewrite map_id in *. exact (script_followed _ _ _ A B C). }
    subst qs.
    destruct (recordings jfloat rq_response rq_of false (Some text0)) as [files'|] eqn:ER.
    + exists files'. split; [reflexivity|]. intros cs' EC. destruct (EX cs' EC) as (used' & f2 & r2 & t2 & A & B & C & D & E). unfold requests_run in *. rewrite ER in A. injection A as <-.
      exists r2, used'. split; [exact B|]. unfold with_snapshots in E. cbn [b_ops b_files no_body app t_does] in E. injection E as E1 E2. split; [now rewrite D, E2|now rewrite E1].
    + exfalso. destruct (EX (map (fun q => (q, inl {| rq_headers := []; rq_status := 0%Z; rq_content := []; rq_encoding := None |})) qs')) as (used' & f2 & r2 & t2 & A & _); [rewrite map_map; apply map_id|].
      rewrite ER in A. discriminate.
Qed.

(** ** httpx *)
Lemma hx_layer ign hide capture refresh file files (cs : list (request * (hx_response + X))) reqs os rus text0 (qs' : list request)
    (earlier_ok : forall files, recordings jfloat hx_response hx_of refresh file = Some files ->
       forall name o h r, In (name, (o, h, r)) files -> obj_ok o /\ text h /\ hx_ok r /\ utf8_decode (hx_content r) <> None)
    (responses_ok : forall q r, In (q, inl r) cs -> hx_ok r /\ utf8_decode (hx_content r) <> None)
    (requests_ok : forall q, In q (map fst cs) \/ In q qs' -> request_ok q)
    (no_collision : forall qs, (forall q, In q qs -> In q (map fst cs) \/ In q qs') ->
       forall x y, asked cc ign qs (length cs) x -> asked cc ign qs (length cs) y -> sha1 (request_text x) = sha1 (request_text y) -> request_text x = request_text y)
    (returned : Forall (fun o => exists r, o = Returned r) os)
    (alike : Forall2 (fun q q' => k_hash (key_of cc sha ign None q) = k_hash (key_of cc sha ign None q')) (map fst cs) qs') :
  recordings jfloat hx_response hx_of refresh file = Some files ->
  send_all cc sha hx_response X capture (load cc sha hx_response ign None files refresh) [] (keyed cc sha ign None cs) = (reqs, os, rus) ->
  HttpFilesModel.write_file hx_response hx_json hide reqs = Some text0 ->
  exists files', recordings jfloat hx_response hx_of false (Some text0) = Some files' /\
    forall cs', map fst cs' = qs' -> exists reqs' os' rus',
      send_all cc sha hx_response X false (load cc sha hx_response ign None files' false) [] (keyed cc sha ign None cs') = (reqs', os', rus') /\
      Forall2 without_encoding os os' /\
      HttpFilesModel.write_file hx_response hx_json hide reqs' = Some text0 /\ map OTln (snapshot_lines reqs') = map OTln (snapshot_lines reqs).
Proof.
  intros EF ES EW.
  assert (LO : length cs = length os).
  { clear - ES. revert ES. generalize (@nil (snap hx_response)). generalize (load cc sha hx_response ign None files refresh). intros l l0. revert l0 reqs os rus. induction cs as [|[q v] cs IH]; intros l0 reqs os rus; cbn [keyed map send_all fst snd].
    - now intros [= <- <- <-].
    - destruct (send _ _ _ _ _ _ _ _ _) as [[a o] u]. destruct (send_all _ _ _ _ _ _ _ _) as [[b c] d] eqn:E. intros [= <- <- <-]. cbn. f_equal. exact (IH _ _ _ _ E). }
  destruct (C118_httpx cc sha1 jfloat X ign hide capture refresh file {| t_next := script (map fst cs); t_does := fun _ => no_body |} {| t_next := script qs'; t_does := fun _ => no_body |}
    cs os (with_snapshots hx_response (lit "httpx snaphots:") (lit ".httpx.json") no_body text0 reqs) rus) as (saved & SV & (qs & EX) & ALL); try assumption.
  - intros q [I|(i & h & _ & H)]; apply requests_ok; [now left|right]. cbn [t_next] in H. unfold script in H. exact (nth_error_In _ _ H).
  - intros qs H. apply no_collision. intros q I. destruct (H q I) as [K|(i & h & _ & K)]; [now left|right]. cbn [t_next] in K. unfold script in K. exact (nth_error_In _ _ K).
  - intros h h' FH. split; [reflexivity|]. cbn [t_next]. unfold script. rewrite <- (F2_length _ _ _ FH). apply (script_alike _ _ _ alike).
  - exists files, reqs, text0. split; [exact EF|]. split; [exact ES|]. split; [|split; [exact EW|reflexivity]]. apply script_follows. rewrite map_length. exact LO.
  - assert (saved = text0). { unfold with_snapshots in SV. cbn [b_files no_body app] in SV. unfold last_write in SV. cbn [rev app lookup] in SV. rewrite str_eqb_refl in SV. congruence. } subst saved.
    assert (QS : qs = qs').
    { destruct (EX (map (fun q => (q, inl {| hx_headers := []; hx_status := 0%Z; hx_content := [] |})) qs)) as (os' & used' & f2 & r2 & t2 & _ & _ & (A & B & C) & _).
      - rewrite map_map. apply map_id.
      - cbn [t_next] in B, C. rewrite map_map in *. cbn [fst] in *. rewrite map_id in *. exact (script_followed _ _ _ A B C). }
    subst qs.
    destruct (recordings jfloat hx_response hx_of false (Some text0)) as [files'|] eqn:ER.
    + exists files'. split; [reflexivity|]. intros cs' EC. destruct (EX cs' EC) as (os' & used' & RUN). destruct (ALL _ _ _ _ RUN) as (_ & SEEN & _ & _).
      destruct RUN as (f2 & r2 & t2 & A & B & C & D & E). rewrite ER in A. injection A as <-.
      exists r2, os', used'. split; [exact B|]. split; [exact SEEN|]. unfold with_snapshots in E. cbn [b_ops b_files no_body app t_does] in E. injection E as E1 E2. split; [now rewrite D, E2|now rewrite E1].
    + exfalso. destruct (EX (map (fun q => (q, inl {| hx_headers := []; hx_status := 0%Z; hx_content := [] |})) qs')) as (os' & used' & f2 & r2 & t2 & A & _); [rewrite map_map; apply map_id|].
      rewrite ER in A. discriminate.
Qed.

(** ** functions *)
Lemma func_layer capture refresh listing (cs : list (FuncTestModel.fcall * (jv + X))) loaded ks calls hos fus lines files (qs' : list FuncTestModel.fcall) listing'
    (sha1_name : forall t, ~ In SLASH (sha1 t))
    (earlier : forall loaded, FuncTestModel.read_all sha1 jfloat refresh listing = Some loaded -> forall h c r, In (h, (c, r)) loaded ->
       JsonSpec.text h /\ ~ In SLASH h /\ JsonSpec.plain (JDict c) /\ JsonSpec.value_ok jfloat (JDict c) /\ JsonSpec.plain r /\ JsonSpec.value_ok jfloat r)
    (calls_ok : forall q r, In (q, r) cs -> FuncTestProofs.fcall_ok jfloat q /\ forall v, r = inl v -> JsonSpec.plain v /\ JsonSpec.value_ok jfloat v)
    (returned : Forall (fun o => exists r, o = FuncModel.Returned r) (map (FuncTestModel.result_of X) hos))
    (once : NoDup (map (fun c => FuncTestModel.key_of sha1 (fst c)) cs))
    (alike : Forall2 (fun q q' => FuncTestModel.key_of sha1 q = FuncTestModel.key_of sha1 q') (map fst cs) qs') :
  FuncTestModel.read_all sha1 jfloat refresh listing = Some loaded ->
  JsonModel.all_of (map (FuncTestModel.hashed sha1 X) cs) = Some ks ->
  FuncModel.run_calls FuncTestModel.held X capture loaded [] ks = (calls, hos, fus) ->
  FuncTestModel.listed_lines calls = Some lines -> FuncTestModel.stored calls = Some files ->
  FuncTestProofs.lists (fun r => last_write r files) listing' ->
  exists loaded', FuncTestModel.read_all sha1 jfloat false listing' = Some loaded' /\
    forall cs', map fst cs' = qs' -> exists ks' calls' hos' fus',
      JsonModel.all_of (map (FuncTestModel.hashed sha1 X) cs') = Some ks' /\
      FuncModel.run_calls FuncTestModel.held X false loaded' [] ks' = (calls', hos', fus') /\
      map (FuncTestModel.result_of X) hos' = map (FuncTestModel.result_of X) hos /\
      FuncTestModel.listed_lines calls' = Some lines /\ FuncTestModel.stored calls' = Some files.
Proof.
  intros EL EK ER EN ES LS.
  assert (LO : length cs = length hos).
  { transitivity (length ks).
    - clear - EK. revert ks EK. induction cs as [|c cs IH]; intros ks; cbn [map JsonModel.all_of]; [now intros [= <-]|].
      destruct (FuncTestModel.hashed sha1 X c); [|discriminate]. destruct (JsonModel.all_of _) as [l|]; [|discriminate]. intros [= <-]. cbn. f_equal. now apply IH.
    - clear - ER. revert ER. generalize (@nil (str * FuncTestModel.held)). revert calls hos fus. induction ks as [|[h v] ks IH]; intros calls hos fus l; cbn [FuncModel.run_calls]; [now intros [= <- <- <-]|].
      destruct (FuncModel.snapshot _ _ _ _ _ _ _) as [[a o] u]. destruct (FuncModel.run_calls _ _ _ _ _ _) as [[b c] d] eqn:E. intros [= <- <- <-]. cbn. f_equal. exact (IH _ _ _ _ E). }
  destruct (FuncTestProps.C120_functions sha1 jfloat X capture refresh listing
    {| FuncTestModel.f_next := script (map fst cs); FuncTestModel.f_does := fun _ => no_body |} {| FuncTestModel.f_next := script qs'; FuncTestModel.f_does := fun _ => no_body |}
    cs (map (FuncTestModel.result_of X) hos) (FuncTestModel.with_calls no_body lines files) fus listing') as ((qs & EX) & ALL).
  - split; try assumption.
    + intros t. split; [apply sha1_text|apply sha1_name].
    + reflexivity.
    + intros h. split; [reflexivity|]. cbn [FuncTestModel.f_next]. unfold script. apply (script_alike _ _ _ alike).
    + exists loaded, ks, calls, hos, lines, files. repeat split; try assumption.
      * now rewrite !map_length.
      * cbn [FuncTestModel.f_next]. intros i q H. apply (script_follows (map fst cs) (map (FuncTestModel.result_of X) hos)); [now rewrite !map_length|exact H].
      * cbn [FuncTestModel.f_next]. apply script_follows. now rewrite !map_length.
  - exact LS.
  - assert (QS : qs = qs').
    { destruct (EX (map (fun q => (q, inl JNone)) qs)) as (used' & l2 & k2 & c2 & h2 & n2 & f2 & _ & _ & _ & EO & (A & B & C) & _).
      - rewrite map_map. apply map_id.
      - cbn [FuncTestModel.f_next] in B, C. rewrite map_map in *. cbn [fst] in *. rewrite map_id in *. exact (script_followed _ _ _ A B C). }
    subst qs.
    destruct (FuncTestModel.read_all sha1 jfloat false listing') as [loaded'|] eqn:EL'.
    + exists loaded'. split; [reflexivity|]. intros cs' EC. destruct (EX cs' EC) as (used' & l2 & k2 & c2 & h2 & n2 & f2 & A & B & C & D & E & F & G & H).
      rewrite EL' in A. injection A as <-. exists k2, c2, h2, used'. split; [exact B|]. split; [exact C|]. split; [now symmetry|].
      unfold FuncTestModel.with_calls in H. cbn [b_ops b_files no_body app FuncTestModel.f_does] in H. injection H as H1 H2. split; [|now rewrite G, H2].
      rewrite F. f_equal. clear - H1. revert n2 H1. induction lines as [|x l IH]; intros [|y m] H; try discriminate; [reflexivity|]. injection H as -> H. f_equal. now apply IH.
    + exfalso. destruct (EX (map (fun q => (q, inl JNone)) qs')) as (used' & l2 & k2 & c2 & h2 & n2 & f2 & A & _); [rewrite map_map; apply map_id|].
      rewrite EL' in A. discriminate.
Qed.

(** ** variables *)
(** a test that shows the variables *)
Definition shows (names : list str) (x : EnvModel.environ) : body_run :=
  {| b_ops := []; b_exc := None; b_files := map (fun n => match x n with Some v => (lit "set", v) | None => (lit "unset", []) end) names; b_tmp := []; b_log := []; b_value := None |}.
Lemma shows_same names x y : b_files (shows names x) = b_files (shows names y) -> forall n, In n names -> x n = y n.
Proof.
  unfold shows. cbn [b_files]. induction names as [|m names IH]; intros H n [].
  - subst m. cbn [map] in H. injection H as H _. destruct (x n), (y n); try discriminate; [now injection H as ->|reflexivity].
  - apply IH; [|assumption]. cbn [map] in H. now injection H.
Qed.
Lemma env_layer names refresh complete file loaded (leaves : EnvModel.environ -> EnvModel.environ) e e' d text0
    (names_once : NoDup names)
    (texts : forall n, In n names -> JsonSpec.text n /\ (forall v, e n = Some v -> JsonSpec.text v))
    (earlier : forall d n v, EnvTestModel.recorded_env jfloat refresh file = Some (Some d) -> In (n, Some v) d -> JsonSpec.text v)
    (keeps : forall x n, In n names -> x n <> None -> leaves x n <> None) :
  EnvTestModel.recorded_env jfloat refresh file = Some loaded ->
  EnvModel.snap_block names loaded refresh complete leaves e = (e', true, Some d) ->
  JsonFilesModel.env_file d = Some text0 ->
  exists d0, JsonFilesModel.read_env jfloat text0 = Some d0 /\ map fst d0 = names /\
    forall e2, (forall n, In (n, None) d0 -> e2 n <> None) ->
      (forall n, In n names -> EnvModel.s_env (EnvModel.snap_start names (Some d0) false false e2) n = EnvModel.s_env (EnvModel.snap_start names loaded refresh complete e) n) /\
      forall leaves2 : EnvModel.environ -> EnvModel.environ, (forall x n, In n names -> x n <> None -> leaves2 x n <> None) ->
        exists e3 d2, EnvModel.snap_block names (Some d0) false false leaves2 e2 = (e3, true, Some d2) /\
          JsonFilesModel.env_file d2 = Some text0 /\ map OTln (EnvTestModel.env_lines d2) = map OTln (EnvTestModel.env_lines d) /\ forall n, In n names -> e3 n = e2 n.
Proof.
  intros EL EB EF.
  set (inside := EnvModel.s_env (EnvModel.snap_start names loaded refresh complete e)).
  assert (DEP : forall x y, (forall n, In n names -> x n = y n) -> shows names y = shows names x).
  { intros x y H. unfold shows. f_equal. apply map_ext_in. intros n I. now rewrite (H n I). }
  assert (REC : EnvTestProps.recorded_env_test jfloat names refresh complete file (fun x => (shows names x, leaves x)) e (EnvTestModel.with_env (shows names inside) d text0) e').
  { split; try assumption.
    - intros x y H. cbn [fst]. symmetry. now apply DEP.
    - exists loaded, d, text0. cbn [fst snd]. auto. }
  destruct (EnvTestProps.env_again jfloat names refresh complete file _ (fun x => (shows names x, leaves x)) e _ e' REC) as (saved & d0 & SV & RD & NM & _).
  { intros x y H. cbn [fst]. now apply DEP. } { exact keeps. }
  assert (saved = text0). { unfold EnvTestModel.with_env, last_write in SV. cbn [b_files] in SV. rewrite rev_app_distr in SV. cbn [rev app lookup] in SV. rewrite str_eqb_refl in SV. congruence. } subst saved.
  exists d0. split; [exact RD|]. split; [exact NM|]. intros e2 NN.
  assert (ALL : forall leaves2 : EnvModel.environ -> EnvModel.environ, (forall x n, In n names -> x n <> None -> leaves2 x n <> None) ->
    exists e3 d2, EnvModel.snap_block names (Some d0) false false leaves2 e2 = (e3, true, Some d2) /\ JsonFilesModel.env_file d2 = Some text0 /\
      map OTln (EnvTestModel.env_lines d2) = map OTln (EnvTestModel.env_lines d) /\ (forall n, In n names -> e3 n = e2 n) /\
      forall n, In n names -> EnvModel.s_env (EnvModel.snap_start names (Some d0) false false e2) n = inside n).
  { intros leaves2 K2. destruct (EnvTestProps.env_again jfloat names refresh complete file _ (fun x => (shows names x, leaves2 x)) e _ e' REC) as (saved & d1 & SV1 & RD1 & _ & AG).
    { intros x y H. cbn [fst]. now apply DEP. } { exact K2. }
    rewrite SV in SV1. apply some_inv in SV1. subst saved. rewrite RD in RD1. apply some_inv in RD1. subst d1.
    destruct (AG e2 NN) as [(e3 & (l2 & d2 & t2 & A & B & C & D) & R) _].
    unfold EnvTestModel.recorded_env in A. rewrite RD in A. cbn [option_map] in A. apply some_inv in A. subst l2.
    unfold EnvTestModel.with_env in D. cbn [fst b_ops shows app] in D.
    assert (DO : map OTln (EnvTestModel.env_lines d) = map OTln (EnvTestModel.env_lines d2)) by congruence.
    assert (DF : b_files (shows names inside) ++ [(lit ".env.json", text0)] = b_files (shows names (EnvModel.s_env (EnvModel.snap_start names (Some d0) false false e2))) ++ [(lit ".env.json", t2)]) by (injection D; intros; assumption).
    apply app_inj_tail in DF as [DF DT]. injection DT as <-. exists e3, d2. split; [exact B|]. split; [exact C|]. split; [now symmetry|]. split; [exact R|]. intros n I. symmetry. exact (shows_same _ _ _ DF n I). }
  split.
  - destruct (ALL (fun x => x)) as (_ & _ & _ & _ & _ & _ & H); [auto|exact H].
  - intros leaves2 K2. destruct (ALL leaves2 K2) as (e3 & d2 & A & B & C & D & _). exists e3, d2. auto.
Qed.
End Layers.

(** *** C124. [T]: the test while recording, [T']: the test in a later run; [stack]: its decorators, each at most once, in any order. *)
(** the test sees the same: replayed httpx responses have no content-encoding header *)
Definition seen {X} (o o' : did X) : Prop :=
  match o, o' with DFunc a, DFunc a' => a' = a | DReq a, DReq a' => a' = a | DHx a, DHx a' => without_encoding a a' | _, _ => False end.
Definition came_back {X} (o : did X) : Prop :=
  match o with DFunc a => exists r, a = FuncModel.Returned r | DReq a => exists r, a = Returned r | DHx a => exists r, a = Returned r end.
(** recorded under the same hash *)
Definition same_key cc sha1 ign_rq ign_hx (q q' : action) : Prop :=
  match q, q' with
  | AFunc p, AFunc p' => FuncTestModel.key_of sha1 p = FuncTestModel.key_of sha1 p'
  | AReq p, AReq p' => k_hash (key_of cc (json_to_sha1 sha1) ign_rq None p) = k_hash (key_of cc (json_to_sha1 sha1) ign_rq None p')
  | AHx p, AHx p' => k_hash (key_of cc (json_to_sha1 sha1) ign_hx None p) = k_hash (key_of cc (json_to_sha1 sha1) ign_hx None p')
  | _, _ => False
  end.
(** the actions of the first run, and those the second may take *)
Definition possible {X} (T' : mixed_test X) (cs : list (MixModel.step X)) (os : list (did X)) (a : action) : Prop :=
  In a (map action_of cs) \/ exists y i h, Forall2 seen (firstn i os) h /\ m_next T' y h = Some a.
Definition no_collision cc (sha1 : str -> str) ign (qs : request -> Prop) (most : nat) : Prop :=
  forall l, (forall q, In q l -> qs q) -> forall x y, asked cc ign l most x -> asked cc ign l most y ->
    sha1 (request_text x) = sha1 (request_text y) -> request_text x = request_text y.

Record recorded_mixed cc sha1 jfloat {X : Type} names ign_rq ign_hx hide_rq hide_hx refresh complete dir listing stack (T T' : mixed_test X) e cs os b used e' : Prop := {
  rm_stack : NoDup stack;
  rm_sha1 : forall t, text (sha1 t) /\ ~ In SLASH (sha1 t);
  rm_earlier_calls : In KFunc stack -> forall l, FuncTestModel.read_all sha1 jfloat refresh listing = Some l -> forall h c r, In (h, (c, r)) l ->
    JsonSpec.text h /\ ~ In SLASH h /\ JsonSpec.plain (JDict c) /\ JsonSpec.value_ok jfloat (JDict c) /\ JsonSpec.plain r /\ JsonSpec.value_ok jfloat r;
  rm_earlier_rq : In KReq stack -> forall files, recordings jfloat rq_response rq_of refresh (dir (lit ".requests.json")) = Some files ->
    forall name o h r, In (name, (o, h, r)) files -> obj_ok o /\ text h /\ rq_ok r /\ utf8_decode (rq_content r) <> None;
  rm_earlier_hx : In KHx stack -> forall files, recordings jfloat hx_response hx_of refresh (dir (lit ".httpx.json")) = Some files ->
    forall name o h r, In (name, (o, h, r)) files -> obj_ok o /\ text h /\ hx_ok r /\ utf8_decode (hx_content r) <> None;
  rm_earlier_env : In KEnv stack -> forall d n v, EnvTestModel.recorded_env jfloat refresh (dir (lit ".env.json")) = Some (Some d) -> In (n, Some v) d -> JsonSpec.text v;
  rm_calls : forall q i r, In (SFunc q i r) cs -> FuncTestProofs.fcall_ok jfloat q /\ (forall v, r = inl v -> JsonSpec.plain v /\ JsonSpec.value_ok jfloat v);
  rm_inner : In KReq stack -> forall q i r, In (SFunc q i r) cs -> i = [];
  rm_responses_rq : forall q r, In (SReq q (inl r)) cs -> rq_ok r /\ utf8_decode (rq_content r) <> None;
  rm_responses_hx : forall q r, In (SHx q (inl r)) cs -> hx_ok r /\ utf8_decode (hx_content r) <> None;
  rm_once : NoDup (flat_map (fun s => match s with SFunc q _ _ => [FuncTestModel.key_of sha1 q] | _ => [] end) cs);
  rm_requests : forall q, possible T' cs os (AReq q) \/ possible T' cs os (AHx q) -> request_ok q;
  rm_collision_rq : no_collision cc sha1 ign_rq (fun q => possible T' cs os (AReq q)) (length cs);
  rm_collision_hx : no_collision cc sha1 ign_hx (fun q => possible T' cs os (AHx q)) (length cs);
  rm_returned : Forall came_back os;
  rm_own_files : In KFunc stack -> forall x name, last_write (lit ".functions/" ++ name) (b_files (m_does T x os)) = None;
  rm_names : In KEnv stack -> NoDup names /\ forall n, In n names -> JsonSpec.text n /\ (forall v, e n = Some v -> JsonSpec.text v);
  rm_keeps : In KEnv stack -> forall x h n, In n names -> x n <> None -> m_leaves T x h n <> None /\ m_leaves T' x h n <> None;
  rm_alike : forall x y, (In KEnv stack -> forall n, In n names -> x n = y n) -> forall h h', Forall2 seen h h' ->
    m_does T' y h' = m_does T x h /\
    match m_next T x h, m_next T' y h' with None, None => True | Some q, Some q' => same_key cc sha1 ign_rq ign_hx q q' | _, _ => False end;
  rm_run : mixed_run cc sha1 jfloat X names ign_rq ign_hx hide_rq hide_hx refresh complete dir listing stack T e cs os b used e'
}.

(** ** Lemmas *)
Definition plain_did {X} (o : did X) : did X := match o with DHx (Returned r) => DHx (Returned (hx_plain r)) | _ => o end.
Lemma plain_seen {X} (os : list (did X)) : Forall came_back os -> Forall2 seen os (map plain_did os).
Proof.
  induction 1 as [|o os H F IH]; [constructor|]. cbn [map]. constructor; [|exact IH]. destruct o as [a|a|a]; cbn; try reflexivity.
  destruct H as [r ->]. exists r, (hx_plain r). repeat split.
Qed.
Lemma plain_hxs {X} (os : list (did X)) : Forall came_back os -> forall l, Forall2 without_encoding (dhxs os) l -> l = dhxs (map plain_did os).
Proof.
  induction 1 as [|o os H F IH]; intros l G; cbn [dhxs map plain_did] in *; [now inversion G|]. destruct o as [a|a|a]; cbn [dhxs plain_did] in *; [now apply IH|now apply IH|].
  destruct H as [r ->]. cbn [dhxs]. inversion G as [|? o' ? l1 (r1 & r2 & E1 & E2 & A & B & C) G1]; subst. f_equal; [|now apply IH]. injection E1 as <-. f_equal.
  destruct r2 as [s2 h2 c2]. cbn [hx_status hx_headers hx_content] in *. unfold hx_plain. now subst.
Qed.
Lemma plain_funcs {X} (os : list (did X)) : dfuncs (map plain_did os) = dfuncs os.
Proof. induction os as [|[a|a|[]] os IH]; cbn [dfuncs map plain_did]; congruence. Qed.
Lemma plain_reqs {X} (os : list (did X)) : dreqs (map plain_did os) = dreqs os.
Proof. induction os as [|[a|a|[]] os IH]; cbn [dreqs map plain_did]; congruence. Qed.
Lemma plain_kinds {X} qs : forall (os : list (did X)), Forall2 same_kind qs os -> Forall2 same_kind qs (map plain_did os).
Proof. induction qs as [|q qs IH]; intros os F; inversion F as [|? o ? os1 K F1]; subst; cbn [map]; constructor; [|now apply IH]. destruct q, o as [a|a|[]]; exact K. Qed.
Lemma came_funcs {X} (os : list (did X)) : Forall came_back os -> Forall (fun o => exists r, o = FuncModel.Returned r) (dfuncs os).
Proof. induction 1 as [|[a|a|a] os H F IH]; cbn [dfuncs]; auto. Qed.
Lemma came_reqs {X} (os : list (did X)) : Forall came_back os -> Forall (fun o => exists r, o = Returned r) (dreqs os).
Proof. induction 1 as [|[a|a|a] os H F IH]; cbn [dreqs]; auto. Qed.
Lemma came_hxs {X} (os : list (did X)) : Forall came_back os -> Forall (fun o => exists r, o = Returned r) (dhxs os).
Proof. induction 1 as [|[a|a|a] os H F IH]; cbn [dhxs]; auto. Qed.
Lemma reqs_shorter {X} (cs : list (MixModel.step X)) : length (reqs cs) <= length cs /\ length (hxs cs) <= length cs.
Proof. induction cs as [|[q i v|q v|q v] cs IH]; cbn [reqs hxs length]; lia. Qed.
Lemma funcs_keys {X} sha1 (cs : list (MixModel.step X)) :
  map (fun c => FuncTestModel.key_of sha1 (fst c)) (funcs cs) = flat_map (fun s => match s with SFunc q _ _ => [FuncTestModel.key_of sha1 q] | _ => [] end) cs.
Proof. induction cs as [|[q i v|q v|q v] cs IH]; cbn [funcs map flat_map fst app]; congruence. Qed.
Lemma key_kinds {X} cc sha1 ign_rq ign_hx qs : forall qs' (os : list (did X)), Forall2 (same_key cc sha1 ign_rq ign_hx) qs qs' -> Forall2 same_kind qs os -> Forall2 same_kind qs' os.
Proof.
  induction qs as [|q qs IH]; intros qs' os F G; inversion F as [|? q' ? qs1 K F1]; subst; inversion G as [|? o ? os1 K2 G1]; subst; constructor; [|now apply IH].
  destruct q, q'; try contradiction; exact K2.
Qed.
Lemma key_funcs cc sha1 ign_rq ign_hx qs : forall qs', Forall2 (same_key cc sha1 ign_rq ign_hx) qs qs' ->
  Forall2 (fun q q' => FuncTestModel.key_of sha1 q = FuncTestModel.key_of sha1 q') (afuncs qs) (afuncs qs').
Proof. induction qs as [|q qs IH]; intros qs' F; inversion F as [|? q' ? qs1 K F1]; subst; [constructor|]. destruct q, q'; try contradiction; cbn [afuncs]; auto. Qed.
Lemma key_reqs cc sha1 ign_rq ign_hx qs : forall qs', Forall2 (same_key cc sha1 ign_rq ign_hx) qs qs' ->
  Forall2 (fun q q' => k_hash (key_of cc (json_to_sha1 sha1) ign_rq None q) = k_hash (key_of cc (json_to_sha1 sha1) ign_rq None q')) (areqs qs) (areqs qs').
Proof. induction qs as [|q qs IH]; intros qs' F; inversion F as [|? q' ? qs1 K F1]; subst; [constructor|]. destruct q, q'; try contradiction; cbn [areqs]; auto. Qed.
Lemma key_hxs cc sha1 ign_rq ign_hx qs : forall qs', Forall2 (same_key cc sha1 ign_rq ign_hx) qs qs' ->
  Forall2 (fun q q' => k_hash (key_of cc (json_to_sha1 sha1) ign_hx None q) = k_hash (key_of cc (json_to_sha1 sha1) ign_hx None q')) (ahxs qs) (ahxs qs').
Proof. induction qs as [|q qs IH]; intros qs' F; inversion F as [|? q' ? qs1 K F1]; subst; [constructor|]. destruct q, q'; try contradiction; cbn [ahxs]; auto. Qed.
Lemma F2_nil {A B} (P : A -> B -> Prop) l : Forall2 P [] l -> l = [].
Proof. now inversion 1. Qed.
Lemma no_afuncs {X} (cs : list (MixModel.step X)) : (forall q i v, ~ In (SFunc q i v) cs) <-> afuncs (map action_of cs) = [].
Proof.
  split.
  - intros H. destruct (afuncs (map action_of cs)) as [|q l] eqn:E; [reflexivity|]. assert (I : In q (afuncs (map action_of cs))) by (rewrite E; now left).
    rewrite <- funcs_fst in I. apply in_map_iff in I as ([q' v] & _ & I). apply funcs_in in I as [i I]. elim (H q' i v I).
  - intros E q i v I. assert (K : In q (afuncs (map action_of cs))) by (apply afuncs_in; exact (in_map action_of _ _ I)). now rewrite E in K.
Qed.
Lemma no_areqs {X} (cs : list (MixModel.step X)) : (forall q v, ~ In (SReq q v) cs) <-> areqs (map action_of cs) = [].
Proof.
  split.
  - intros H. destruct (areqs (map action_of cs)) as [|q l] eqn:E; [reflexivity|]. assert (I : In q (areqs (map action_of cs))) by (rewrite E; now left).
    rewrite <- reqs_fst in I. apply in_map_iff in I as ([q' v] & _ & I). apply reqs_in in I. elim (H q' v I).
  - intros E q v I. assert (K : In q (areqs (map action_of cs))) by (apply areqs_in; exact (in_map action_of _ _ I)). now rewrite E in K.
Qed.
Lemma no_ahxs {X} (cs : list (MixModel.step X)) : (forall q v, ~ In (SHx q v) cs) <-> ahxs (map action_of cs) = [].
Proof.
  split.
  - intros H. destruct (ahxs (map action_of cs)) as [|q l] eqn:E; [reflexivity|]. assert (I : In q (ahxs (map action_of cs))) by (rewrite E; now left).
    rewrite <- hxs_fst in I. apply in_map_iff in I as ([q' v] & _ & I). apply hxs_in in I. elim (H q' v I).
  - intros E q v I. assert (K : In q (ahxs (map action_of cs))) by (apply ahxs_in; exact (in_map action_of _ _ I)). now rewrite E in K.
Qed.
Lemma snap_block_at names file refresh complete f g e :
  f (EnvModel.s_env (EnvModel.snap_start names file refresh complete e)) = g (EnvModel.s_env (EnvModel.snap_start names file refresh complete e)) ->
  EnvModel.snap_block names file refresh complete f e = EnvModel.snap_block names file refresh complete g e.
Proof. intros H. unfold EnvModel.snap_block. cbv zeta. now rewrite H. Qed.

(** the files of each block *)
Lemma add_files al : forall b, b_files (fold_left add al b) = b_files b ++ concat (map snd al).
Proof. induction al as [|a al IH]; intros b; cbn [fold_left map concat]; [now rewrite app_nil_r|]. rewrite IH. unfold add. cbn [b_files]. now rewrite app_assoc. Qed.
Lemma last_write_app r l l' : last_write r (l ++ l') = match last_write r l' with Some t => Some t | None => last_write r l end.
Proof.
  unfold last_write. rewrite rev_app_distr. induction (rev l') as [|[k v] m IH]; [reflexivity|]. cbn [app lookup]. destruct (str_eqb r k); [reflexivity|exact IH].
Qed.
Lemma last_write_none r l : (forall k v, In (k, v) l -> k <> r) -> last_write r l = None.
Proof.
  intros H. unfold last_write. assert (K : forall k v, In (k, v) (rev l) -> k <> r) by (intros k v I; apply (H k v); now apply in_rev).
  induction (rev l) as [|[k v] m IH]; [reflexivity|]. cbn [lookup]. destruct (str_eqb_spec r k) as [E|_]; [elim (K k v); [now left|now symmetry]|]. apply IH. intros k' v' I. apply (K k' v'). now right.
Qed.
Definition owns (k : kind) (r : str) : Prop :=
  match k with KEnv => r = lit ".env.json" | KReq => r = lit ".requests.json" | KHx => r = lit ".httpx.json" | KFunc => exists name, r = lit ".functions/" ++ name end.
Lemma owns_letter k r : owns k r -> nth 1 r 0%N = match k with KEnv => 101 | KFunc => 102 | KReq => 114 | KHx => 104 end%N.
Proof. destruct k; cbn [owns]; [intros ->|intros [name ->]|intros ->|intros ->]; reflexivity. Qed.
Lemma owns_one k k' r : owns k r -> owns k' r -> k = k'.
Proof. intros A B. apply owns_letter in A. apply owns_letter in B. rewrite A in B. now destruct k, k'. Qed.
Lemma stored_names calls : forall files, FuncTestModel.stored calls = Some files -> forall k v, In (k, v) files -> owns KFunc k.
Proof.
  unfold FuncTestModel.stored. induction calls as [|c calls IH]; intros files; cbn [map JsonModel.all_of]; [intros [= <-] k v []|].
  destruct (FuncTestModel.held_file (snd c)) as [t|]; [|discriminate]. cbn [option_map].
  match goal with |- context [JsonModel.all_of ?l] => destruct (JsonModel.all_of l) as [r|] eqn:E end; [|discriminate]. intros [= <-] k v [H|H]; [|exact (IH _ eq_refl k v H)].
  injection H as <- _. now eexists.
Qed.
Section Additions.
Variables hide_rq hide_hx : bool.
Notation adds := (adds hide_rq hide_hx).
Lemma adds_owns st d k a : adds st d k a -> forall r v, In (r, v) (snd a) -> owns k r.
Proof.
  destruct k; cbn [MixModel.adds].
  - intros (t & _ & ->) r v [[= <- _]|[]]. reflexivity.
  - intros (lines & files & _ & S & ->) r v. cbn [snd]. exact (stored_names _ _ S r v).
  - intros (t & _ & ->) r v [[= <- _]|[]]. reflexivity.
  - intros (t & _ & ->) r v [[= <- _]|[]]. reflexivity.
Qed.
Lemma layer_files st d stack : forall al, Forall2 (adds st d) stack al -> NoDup stack -> forall k, In k stack ->
  exists a, adds st d k a /\ In a al /\ forall r, owns k r -> last_write r (concat (map snd al)) = last_write r (snd a).
Proof.
  induction stack as [|m stack IH]; intros al F ND k I; [destruct I|]. inversion F as [|? a ? al1 A F1]; subst. inversion ND as [|? ? N1 N2]; subst. cbn [map concat].
  assert (OTHER : forall al, Forall2 (adds st d) stack al -> forall r, owns m r -> last_write r (concat (map snd al)) = None).
  { clear - N1. intros al F r O. apply last_write_none. intros k v I ->. apply in_concat in I as (l & I & J). apply in_map_iff in I as (a & <- & I).
    assert (K : exists k, In k stack /\ adds st d k a). { clear - F I. induction F as [|k b s l A F IH]; [destruct I|]. destruct I as [->|I]; [exists k; split; [now left|exact A]|]. destruct (IH I) as (k' & K & A'). exists k'. split; [now right|exact A']. }
    destruct K as (k & K & A). pose proof (adds_owns _ _ _ _ A _ _ J) as O2. apply N1. now rewrite (owns_one _ _ _ O O2). }
  destruct I as [->|I].
  - exists a. split; [exact A|]. split; [now left|]. intros r O. rewrite last_write_app, (OTHER al1 F1 r O). reflexivity.
  - destruct (IH al1 F1 N2 k I) as (a' & A' & IN & W). exists a'. split; [exact A'|]. split; [now right|]. intros r O. rewrite last_write_app, (W r O).
    assert (last_write r (snd a) = None) as ->. { apply last_write_none. intros r' v J ->. pose proof (owns_one _ _ _ O (adds_owns _ _ _ _ A _ _ J)) as E. subst m. contradiction. }
    now destruct (last_write r (snd a')).
Qed.
Lemma adds_once st d d' k a a' : (k = KEnv -> d' = d) -> adds st d k a -> adds st d' k a' -> a' = a.
Proof.
  destruct k; cbn [MixModel.adds]; intros D.
  - rewrite (D eq_refl). intros (t & A & ->) (t' & A' & ->). congruence.
  - intros (l & f & A & B & ->) (l' & f' & A' & B' & ->). congruence.
  - intros (t & A & ->) (t' & A' & ->). congruence.
  - intros (t & A & ->) (t' & A' & ->). congruence.
Qed.
End Additions.

Definition fill {X} (q : action) : MixModel.step X :=
  match q with
  | AFunc q => SFunc q [] (inl JNone)
  | AReq q => SReq q (inl {| rq_headers := []; rq_status := 0%Z; rq_content := []; rq_encoding := None |})
  | AHx q => SHx q (inl {| hx_headers := []; hx_status := 0%Z; hx_content := [] |})
  end.
Lemma fill_of {X} qs : map action_of (map (@fill X) qs) = qs.
Proof. rewrite map_map. etransitivity; [|apply map_id]. apply map_ext. now intros []. Qed.
Lemma asked_more cc ign qs n m x : n <= m -> asked cc ign qs n x -> asked cc ign qs m x.
Proof. intros L (q & [k|] & I & H); exists q; [exists (Some k)|exists None]; (split; [exact I|]); [split; [lia|apply H]|exact H]. Qed.

Theorem C124_mixed cc sha1 jfloat (X : Type) names ign_rq ign_hx hide_rq hide_hx refresh complete dir listing stack (T T' : mixed_test X) e cs os b used e' listing' e2 :
  recorded_mixed cc sha1 jfloat names ign_rq ign_hx hide_rq hide_hx refresh complete dir listing stack T T' e cs os b used e' ->
  FuncTestProofs.lists (fun r => last_write r (b_files b)) listing' ->
  (In KEnv stack -> forall saved d n, last_write (lit ".env.json") (b_files b) = Some saved -> JsonFilesModel.read_env jfloat saved = Some d -> In (n, None) d -> e2 n <> None) ->
  let offline := mixed_run cc sha1 jfloat X names ign_rq ign_hx hide_rq hide_hx false false (fun r => last_write r (b_files b)) listing' stack T' e2 in
  (exists qs, forall cs', map action_of cs' = qs -> exists os' used' e3, offline cs' os' b used' e3) /\
  forall cs' os' b' used' e3, offline cs' os' b' used' e3 ->
    b' = b /\ Forall2 seen os os' /\ Forall (fun u => u = false) used' /\ (In KEnv stack -> forall n, In n names -> e3 n = e2 n) /\
    Forall2 (same_key cc sha1 ign_rq ign_hx) (map action_of cs) (map action_of cs').
Proof.
  intros [ND SHA ECA ERQ EHX EEN CALLS INNER RRQ RHX ONCE REQ NCR NCH RET OWN NMS KEEP ALIKE RUN] LS UNSET offline.
  destruct RUN as (L & st & inside & d & al & (EN1 & EN2 & EN3) & EV & EA & AC & FA & EBB).
  destruct (acts_each _ _ _ _ _ _ _ _ _ _ _ _ EA) as (SK & LU & (ks & hos & fus & K1 & K2 & K3) & RQ & (hus & HX)).
  cbn [s_calls s_rq s_hx nothing] in K2, RQ, HX.
  set (os2 := map plain_did os).
  assert (SEEN : Forall2 seen os os2) by (now apply plain_seen).
  assert (FILES : forall k, In k stack -> exists a, adds hide_rq hide_hx st d k a /\ forall r, owns k r -> (In k [KEnv; KReq; KHx] \/ k = KFunc) ->
            (forall t, last_write r (snd a) = Some t -> last_write r (b_files b) = Some t) /\ (k = KFunc -> last_write r (b_files b) = last_write r (snd a))).
  { intros k I. destruct (layer_files _ _ _ _ _ _ FA ND k I) as (a & A & _ & W). exists a. split; [exact A|]. intros r O _. subst b. rewrite add_files, last_write_app, (W r O). split.
    - intros t ->. reflexivity.
    - intros ->. destruct O as [name ->]. rewrite (OWN I). now destruct (last_write _ (snd a)). }
  (* the environment *)
  assert (ENV : exists inside2 e3 d2, (In KEnv stack -> forall n, In n names -> inside n = inside2 n) /\
    (if in_dec kind_dec KEnv stack
       then exists file, EnvTestModel.recorded_env jfloat false (last_write (lit ".env.json") (b_files b)) = Some file /\
              EnvModel.snap_block names file false false (fun _ => m_leaves T' inside2 os2) e2 = (e3, true, Some d2) /\
              inside2 = EnvModel.s_env (EnvModel.snap_start names file false false e2)
       else inside2 = e2 /\ e3 = m_leaves T' e2 os2) /\
    (In KEnv stack -> (forall st' a, adds hide_rq hide_hx st d KEnv a -> adds hide_rq hide_hx st' d2 KEnv a) /\ forall n, In n names -> e3 n = e2 n)).
  { destruct (in_dec kind_dec KEnv stack) as [I|N]; [|exists e2, (m_leaves T' e2 os2), d; tauto].
    destruct EV as (file & EF & EB & EI).
    destruct (FILES KEnv I) as (a & (text0 & TX & EQA) & W). destruct (W (lit ".env.json") eq_refl) as [SV _]; [left; now left|].
    assert (SV1 : last_write (lit ".env.json") (b_files b) = Some text0) by (apply SV; rewrite EQA; unfold last_write; cbn [snd rev app lookup]; now rewrite str_eqb_refl).
    destruct (NMS I) as [NN TXS].
    destruct (env_layer jfloat names refresh complete (dir (lit ".env.json")) file (fun x => m_leaves T x os) e e' d text0) as (d0 & RD & NM & ENV); try assumption.
    { now apply EEN. } { intros x n J H. now apply (KEEP I x os n J H). }
    { rewrite <- EB. apply snap_block_at. now rewrite EI. }
    destruct (ENV e2) as [AG LV]. { intros n J. exact (UNSET I _ _ _ SV1 RD J). }
    set (inside2 := EnvModel.s_env (EnvModel.snap_start names (Some d0) false false e2)) in *.
    destruct (LV (fun x => m_leaves T' x os2)) as (e3 & d2 & B1 & B2 & B3 & B4). { intros x n J H. now apply (KEEP I x os2 n J H). }
    exists inside2, e3, d2. split; [intros _ n J; rewrite EI; symmetry; now apply AG|]. split.
    - exists (Some d0). split; [unfold EnvTestModel.recorded_env; rewrite SV1, RD; reflexivity|]. split; [|reflexivity]. rewrite <- B1. now apply snap_block_at.
    - intros _. split; [|exact B4]. intros st' a' (t & TX' & ->). exists t. rewrite TX in TX'. apply some_inv in TX'. subst t. split; [exact B2|]. now rewrite B3. }
  destruct ENV as (inside2 & e3 & d2 & AGREE & ENV & ENVA).
  (* the actions *)
  destruct (acting_alike X seen (same_key cc sha1 ign_rq ign_hx) (map action_of cs) (m_next T inside) (m_next T' inside2) os os2) as (qs' & AC2 & SKEY & POSS).
  { intros h h' F. apply (ALIKE inside inside2 AGREE h h' F). } { exact AC. } { exact SEEN. }
  assert (DOES : m_does T' inside2 os2 = m_does T inside os) by (now apply (ALIKE inside inside2 AGREE os os2)).
  assert (PS : forall q, In q (map action_of cs) \/ In q qs' -> possible T' cs os q).
  { intros q [I|I]; [now left|right]. destruct (POSS q I) as (i & h & F & N). now exists inside2, i, h. }
  destruct (reqs_shorter cs) as [LR LH].
  (* functions *)
  assert (FUN : exists l2, forall cs', map action_of cs' = qs' ->
    (if in_dec kind_dec KFunc stack then FuncTestModel.read_all sha1 jfloat false listing' = Some l2 else l2 = [] /\ forall q i v, ~ In (SFunc q i v) cs') /\
    forall ks' calls' hos' fus', JsonModel.all_of (map (FuncTestModel.hashed sha1 X) (funcs cs')) = Some ks' ->
      FuncModel.run_calls FuncTestModel.held X false l2 [] ks' = (calls', hos', fus') ->
      map (FuncTestModel.result_of X) hos' = dfuncs os /\
      (In KFunc stack -> forall lines files, FuncTestModel.listed_lines (s_calls st) = Some lines -> FuncTestModel.stored (s_calls st) = Some files ->
         FuncTestModel.listed_lines calls' = Some lines /\ FuncTestModel.stored calls' = Some files)).
  { destruct (in_dec kind_dec KFunc stack) as [I|N].
    - destruct (FILES KFunc I) as (a & (lines & files & EL & EST & EQA) & W).
      assert (LS2 : FuncTestProofs.lists (fun r => last_write r files) listing').
      { destruct LS as [LN LI]. split; [exact LN|]. intros name t. rewrite LI. destruct (W (lit ".functions/" ++ name)) as [_ W2]; [now exists name|now right|]. rewrite (W2 eq_refl), EQA. reflexivity. }
      destruct (func_layer sha1 jfloat X (fun t => proj1 (SHA t)) (refresh || complete) refresh listing (funcs cs) (l_calls L) ks (s_calls st) hos fus lines files (afuncs qs') listing') as (l2 & RA & EX); try assumption.
      + intros t. apply SHA.
      + now apply ECA.
      + intros q r J. apply funcs_in in J as [i J]. exact (CALLS q i r J).
      + rewrite <- K3. now apply came_funcs.
      + now rewrite funcs_keys.
      + rewrite funcs_fst. exact (key_funcs _ _ _ _ _ _ SKEY).
      + exists l2. intros cs' EC. split; [exact RA|]. intros ks' calls' hos' fus' E1 E2.
        destruct (EX (funcs cs')) as (k3 & c3 & h3 & f3 & G1 & G2 & G3 & G4 & G5); [now rewrite funcs_fst, EC|]. rewrite E1 in G1. apply some_inv in G1. subst k3. rewrite E2 in G2. injection G2 as <- <- <-.
        split; [now rewrite G3|]. intros _ lines' files' A B. rewrite EL in A. rewrite EST in B. apply some_inv in A. apply some_inv in B. subst. auto.
    - exists []. destruct EN1 as [_ EN1]. apply no_afuncs in EN1. pose proof (key_funcs _ _ _ _ _ _ SKEY) as KF. rewrite EN1 in KF. apply F2_nil in KF.
      intros cs' EC. assert (E0 : funcs cs' = []) by (apply (map_eq_nil fst); now rewrite funcs_fst, EC). split; [split; [reflexivity|]; apply no_afuncs; now rewrite EC|].
      intros ks' calls' hos' fus' E1 E2. rewrite E0 in E1. cbn in E1. injection E1 as <-. cbn in E2. injection E2 as <- <- <-. split; [|tauto].
      assert (Z : funcs cs = []) by (apply (map_eq_nil fst); now rewrite funcs_fst). rewrite Z in K1. cbn in K1. injection K1 as <-. cbn in K2. injection K2 as _ <- _. rewrite K3. reflexivity. }
  destruct FUN as (lf & FUN).
  (* requests *)
  assert (RQS : exists l2, forall cs', map action_of cs' = qs' ->
    (if in_dec kind_dec KReq stack
     then exists files, recordings jfloat rq_response rq_of false (last_write (lit ".requests.json") (b_files b)) = Some files /\ l2 = load cc (json_to_sha1 sha1) rq_response ign_rq None files false
     else l2 = [] /\ forall q v, ~ In (SReq q v) cs') /\
    forall reqs' os' rus', send_all cc (json_to_sha1 sha1) rq_response X false l2 [] (keyed cc (json_to_sha1 sha1) ign_rq None (reqs cs')) = (reqs', os', rus') ->
      os' = dreqs os /\
      (In KReq stack -> forall t, HttpFilesModel.write_file rq_response rq_json hide_rq (s_rq st) = Some t ->
         HttpFilesModel.write_file rq_response rq_json hide_rq reqs' = Some t /\ map OTln (snapshot_lines reqs') = map OTln (snapshot_lines (s_rq st)))).
  { destruct (in_dec kind_dec KReq stack) as [I|N].
    - destruct (FILES KReq I) as (a & (text0 & TX & EQA) & W). destruct (W (lit ".requests.json") eq_refl) as [SV _]; [left; cbn; tauto|].
      assert (SV1 : last_write (lit ".requests.json") (b_files b) = Some text0) by (apply SV; rewrite EQA; unfold last_write; cbn [snd rev app lookup]; now rewrite str_eqb_refl).
      destruct EN2 as (files & EF & EL). destruct RQ as (rus & RQ); [right; now apply INNER|]. rewrite EL in RQ.
      destruct (rq_layer cc sha1 jfloat X (fun t => proj1 (SHA t)) ign_rq hide_rq (refresh || complete) refresh (dir (lit ".requests.json")) files (reqs cs) (s_rq st) (dreqs os) rus text0 (areqs qs')) as (files' & RA & EX); try assumption.
      + now apply ERQ.
      + intros q r J. apply reqs_in in J. now apply (RRQ q r).
      + intros q J. apply REQ. left. apply PS. rewrite reqs_fst, !areqs_in in J. exact J.
      + intros l J x y A B. apply (NCR l); [intros q K; apply PS; specialize (J q K); rewrite reqs_fst, !areqs_in in J; exact J|now apply (asked_more _ _ _ (length (reqs cs)))|now apply (asked_more _ _ _ (length (reqs cs)))].
      + now apply came_reqs.
      + rewrite reqs_fst. exact (key_reqs _ _ _ _ _ _ SKEY).
      + exists (load cc (json_to_sha1 sha1) rq_response ign_rq None files' false). intros cs' EC. split; [exists files'; now rewrite SV1|]. intros reqs' os' rus' E.
        destruct (EX (reqs cs')) as (r3 & u3 & G1 & G2 & G3); [now rewrite reqs_fst, EC|]. rewrite E in G1. injection G1 as <- -> <-. split; [reflexivity|]. intros _ t A. rewrite TX in A. apply some_inv in A. subst t. auto.
    - exists []. destruct EN2 as [_ EN2]. apply no_areqs in EN2. pose proof (key_reqs _ _ _ _ _ _ SKEY) as KF. rewrite EN2 in KF. apply F2_nil in KF.
      intros cs' EC. assert (E0 : reqs cs' = []) by (apply (map_eq_nil fst); now rewrite reqs_fst, EC). split; [split; [reflexivity|]; apply no_areqs; now rewrite EC|].
      intros reqs' os' rus' E. rewrite E0 in E. cbn in E. injection E as <- <- <-. split; [|tauto].
      clear - SK EN2. revert os SK. induction (map action_of cs) as [|q l IH]; intros os F; inversion F as [|? o ? os1 K F1]; subst; [reflexivity|]. destruct q, o; try contradiction; cbn [areqs dreqs] in *; [now apply IH|discriminate|now apply IH]. }
  destruct RQS as (lr & RQS).
  (* httpx *)
  assert (HXS : exists l2, forall cs', map action_of cs' = qs' ->
    (if in_dec kind_dec KHx stack
     then exists files, recordings jfloat hx_response hx_of false (last_write (lit ".httpx.json") (b_files b)) = Some files /\ l2 = load cc (json_to_sha1 sha1) hx_response ign_hx None files false
     else l2 = [] /\ forall q v, ~ In (SHx q v) cs') /\
    forall reqs' os' rus', send_all cc (json_to_sha1 sha1) hx_response X false l2 [] (keyed cc (json_to_sha1 sha1) ign_hx None (hxs cs')) = (reqs', os', rus') ->
      os' = dhxs os2 /\
      (In KHx stack -> forall t, HttpFilesModel.write_file hx_response hx_json hide_hx (s_hx st) = Some t ->
         HttpFilesModel.write_file hx_response hx_json hide_hx reqs' = Some t /\ map OTln (snapshot_lines reqs') = map OTln (snapshot_lines (s_hx st)))).
  { destruct (in_dec kind_dec KHx stack) as [I|N].
    - destruct (FILES KHx I) as (a & (text0 & TX & EQA) & W). destruct (W (lit ".httpx.json") eq_refl) as [SV _]; [left; cbn; tauto|].
      assert (SV1 : last_write (lit ".httpx.json") (b_files b) = Some text0) by (apply SV; rewrite EQA; unfold last_write; cbn [snd rev app lookup]; now rewrite str_eqb_refl).
      destruct EN3 as (files & EF & EL). rewrite EL in HX.
      destruct (hx_layer cc sha1 jfloat X (fun t => proj1 (SHA t)) ign_hx hide_hx (refresh || complete) refresh (dir (lit ".httpx.json")) files (hxs cs) (s_hx st) (dhxs os) hus text0 (ahxs qs')) as (files' & RA & EX); try assumption.
      + now apply EHX.
      + intros q r J. apply hxs_in in J. now apply (RHX q r).
      + intros q J. apply REQ. right. apply PS. rewrite hxs_fst, !ahxs_in in J. exact J.
      + intros l J x y A B. apply (NCH l); [intros q K; apply PS; specialize (J q K); rewrite hxs_fst, !ahxs_in in J; exact J|now apply (asked_more _ _ _ (length (hxs cs)))|now apply (asked_more _ _ _ (length (hxs cs)))].
      + now apply came_hxs.
      + rewrite hxs_fst. exact (key_hxs _ _ _ _ _ _ SKEY).
      + exists (load cc (json_to_sha1 sha1) hx_response ign_hx None files' false). intros cs' EC. split; [exists files'; now rewrite SV1|]. intros reqs' os' rus' E.
        destruct (EX (hxs cs')) as (r3 & o3 & u3 & G1 & G2 & G3 & G4); [now rewrite hxs_fst, EC|]. rewrite E in G1. injection G1 as <- <- <-. split; [now apply plain_hxs|]. intros _ t A. rewrite TX in A. apply some_inv in A. subst t. auto.
    - exists []. destruct EN3 as [_ EN3]. apply no_ahxs in EN3. pose proof (key_hxs _ _ _ _ _ _ SKEY) as KF. rewrite EN3 in KF. apply F2_nil in KF.
      intros cs' EC. assert (E0 : hxs cs' = []) by (apply (map_eq_nil fst); now rewrite hxs_fst, EC). split; [split; [reflexivity|]; apply no_ahxs; now rewrite EC|].
      intros reqs' os' rus' E. rewrite E0 in E. cbn in E. injection E as <- <- <-. split; [|tauto]. unfold os2.
      clear - SK EN3. revert os SK. induction (map action_of cs) as [|q l IH]; intros os F; inversion F as [|? o ? os1 K F1]; subst; [reflexivity|]. destruct q, o as [a|a|[]]; try contradiction; cbn [ahxs dhxs map plain_did] in *; try discriminate; now apply IH. }
  destruct HXS as (lh & HXS).
  set (L2 := {| l_calls := lf; l_rq := lr; l_hx := lh |}).
  assert (KEYS : forall q, In (AFunc q) qs' -> FuncTestModel.key_of sha1 q <> None).
  { assert (A : Forall (fun q => FuncTestModel.key_of sha1 q <> None) (afuncs (map action_of cs))).
    { rewrite <- funcs_fst. clear - K1. revert ks K1. induction (funcs cs) as [|c l IH]; intros ks; cbn [map JsonModel.all_of]; [constructor|].
      unfold FuncTestModel.hashed at 1. destruct (FuncTestModel.key_of sha1 (fst c)) as [h|] eqn:E; [|discriminate]. cbn [option_map]. destruct (JsonModel.all_of _) as [r|]; [|discriminate].
      intros _. constructor; [congruence|]. now apply (IH r). }
    assert (B : Forall (fun q => FuncTestModel.key_of sha1 q <> None) (afuncs qs')).
    { pose proof (key_funcs _ _ _ _ _ _ SKEY) as F. revert A. clear - F. induction F as [|q q' l l' H F IH]; intros A; [constructor|]. inversion A; subst. constructor; [now rewrite <- H|now apply IH]. }
    intros q J. rewrite Forall_forall in B. apply B. now apply afuncs_in. }
  assert (GO : forall cs', map action_of cs' = qs' -> enter cc sha1 jfloat X ign_rq ign_hx false (fun r => last_write r (b_files b)) listing' stack L2 cs' /\
    exists st2 us, acts cc sha1 X ign_rq ign_hx false L2 nothing cs' = Some (st2, os2, us) /\ Forall2 (adds hide_rq hide_hx st2 d2) stack al).
  { intros cs' EC. destruct (FUN cs' EC) as [F1 F2]. destruct (RQS cs' EC) as [R1 R2]. destruct (HXS cs' EC) as [H1 H2]. split; [split; [exact F1|]; split; [exact R1|exact H1]|].
    destruct (acts_total cc sha1 X ign_rq ign_hx false L2 cs') with (st := nothing) as (st2 & os3 & us & EA2); [rewrite EC; exact KEYS|].
    destruct (acts_each _ _ _ _ _ _ _ _ _ _ _ _ EA2) as (SK2 & _ & (ks2 & hos2 & fus2 & J1 & J2 & J3) & RQ2 & (hus2 & HX2)).
    cbn [s_calls s_rq s_hx nothing l_calls l_rq l_hx L2] in J2, RQ2, HX2. destruct RQ2 as (rus2 & RQ2); [now left|].
    destruct (F2 _ _ _ _ J1 J2) as [F3 F4]. destruct (R2 _ _ _ RQ2) as [R3 R4]. destruct (H2 _ _ _ HX2) as [H3 H4].
    assert (os3 = os2).
    { apply (same_dids qs'); [rewrite <- EC; exact SK2| |unfold os2; rewrite plain_funcs; congruence|unfold os2; rewrite plain_reqs; congruence|exact H3].
      apply (key_kinds cc sha1 ign_rq ign_hx (map action_of cs)); [exact SKEY|]. now apply plain_kinds. }
    subst os3. exists st2, us. split; [exact EA2|].
    assert (M : forall k a, In k stack -> adds hide_rq hide_hx st d k a -> adds hide_rq hide_hx st2 d2 k a).
    { intros k a I. destruct k.
      - apply (ENVA I).
      - intros (lines & files & A & B & ->). destruct (F4 I lines files A B) as [C D]. now exists lines, files.
      - intros (t & A & ->). destruct (R4 I t A) as [C D]. exists t. now rewrite D.
      - intros (t & A & ->). destruct (H4 I t A) as [C D]. exists t. now rewrite D. }
    clear - FA M. induction FA as [|k a s l A F IH]; constructor; [apply M; [now left|exact A]|]. apply IH. intros k' a' I. apply M. now right. }
  split.
  - exists qs'. intros cs' EC. destruct (GO cs' EC) as (EN & st2 & us & EA2 & F2). exists os2, us, e3.
    exists L2, st2, inside2, d2, al. split; [exact EN|]. split; [exact ENV|]. split; [exact EA2|]. split; [rewrite EC; exact AC2|]. split; [exact F2|]. now rewrite DOES.
  - intros cs' os' b' used' e4 (L3 & st3 & inside3 & d3 & al3 & EN & EV3 & EA3 & AC3 & FA3 & ->).
    destruct (GO (map fill qs') (fill_of qs')) as (EN0 & st2 & us & EA2 & F2).
    assert (L3 = L2).
    { destruct EN as (A & B & C), EN0 as (A0 & B0 & C0). destruct L3 as [l1 l2 l3]. cbn [l_calls l_rq l_hx L2] in *. unfold L2. f_equal.
      - destruct (in_dec kind_dec KFunc stack); [congruence|]. destruct A, A0. congruence.
      - destruct (in_dec kind_dec KReq stack); [|destruct B, B0; congruence]. destruct B as (f1 & B1 & B2), B0 as (f2 & B3 & B4). congruence.
      - destruct (in_dec kind_dec KHx stack); [|destruct C, C0; congruence]. destruct C as (f1 & B1 & B2), C0 as (f2 & B3 & B4). congruence. }
    subst L3.
    assert (inside3 = inside2).
    { destruct (in_dec kind_dec KEnv stack); [|destruct EV3, ENV; congruence]. destruct EV3 as (f1 & A1 & _ & A2), ENV as (f2 & A3 & _ & A4). congruence. }
    subst inside3. cbn [orb] in EA3.
    destruct (acts_once cc sha1 X ign_rq ign_hx L2 (map fill qs') cs' (m_next T' inside2) nothing st2 os2 us st3 os' used') as (EC & -> & -> & ->); try assumption; [rewrite fill_of; exact AC2|].
    rewrite fill_of in EC.
    assert (e4 = e3 /\ (In KEnv stack -> d3 = d2)) as [-> DD].
    { destruct (in_dec kind_dec KEnv stack); [|destruct EV3, ENV; split; [congruence|tauto]]. destruct EV3 as (f1 & A1 & A2 & _), ENV as (f2 & A3 & A4 & _). split; [|intros _]; congruence. }
    assert (al3 = al).
    { clear - F2 FA3 DD. revert al3 FA3. induction F2 as [|k a s l A F IH]; intros al3 G; inversion G as [|? a3 ? l3 B G1]; subst; [reflexivity|]. f_equal.
      - apply (adds_once hide_rq hide_hx st2 d2 d3 k a a3); [intros ->; apply DD; now left|exact A|exact B].
      - apply IH; [intros I; apply DD; now right|exact G1]. }
    subst al3. split; [now rewrite DOES|]. split; [exact SEEN|]. split; [exact (acts_offline _ _ _ _ _ _ _ _ _ _ _ EA3)|]. split; [intros I; apply (ENVA I)|]. rewrite EC. exact SKEY.
Qed.
Print Assumptions C124_mixed.

Lemma mixed_run_dir cc sha1 jfloat X names ign_rq ign_hx hide_rq hide_hx refresh complete dir dir' listing stack (T : mixed_test X) e cs os b used e' : (forall r, dir r = dir' r) ->
  mixed_run cc sha1 jfloat X names ign_rq ign_hx hide_rq hide_hx refresh complete dir listing stack T e cs os b used e' ->
  mixed_run cc sha1 jfloat X names ign_rq ign_hx hide_rq hide_hx refresh complete dir' listing stack T e cs os b used e'.
Proof.
  intros H (L & st & inside & d & al & A & B & C). exists L, st, inside, d, al. unfold enter in *. rewrite <- !H. auto.
Qed.

(** Replayed from what it left, the test does the same. *)
Lemma mixed_again cc sha1 jfloat (X : Type) vars ign_rq ign_hx hide_rq hide_hx refresh complete dir listing stack (T T' : mixed_test X) e cs os b used e' dir' listing' e2 b2 :
  recorded_mixed cc sha1 jfloat vars ign_rq ign_hx hide_rq hide_hx refresh complete dir listing stack T T' e cs os b used e' ->
  (forall r, dir' r = last_write r (b_files b)) -> FuncTestProofs.lists dir' listing' ->
  (forall saved d x, dir' (lit ".env.json") = Some saved -> JsonFilesModel.read_env jfloat saved = Some d -> In (x, None) d -> e2 x <> None) ->
  let offline := mixed_run cc sha1 jfloat X vars ign_rq ign_hx hide_rq hide_hx false false dir' listing' stack T' e2 in
  ((exists cs' os' b' used' e3, offline cs' os' b' used' e3) -> exists cs' os' used' e3, offline cs' os' b2 used' e3) -> b2 = b.
Proof.
  intros RR L LS UN offline RUN.
  destruct (C124_mixed cc sha1 jfloat X vars ign_rq ign_hx hide_rq hide_hx refresh complete dir listing stack T T' e cs os b used e' listing' e2 RR) as [(qs & EX) ALL].
  { destruct LS as [N I]. split; [exact N|]. intros name t. rewrite I. now rewrite L. }
  { intros _ saved d x W. apply UN. now rewrite L. }
  destruct RUN as (cs' & os' & used' & e3 & RUN).
  - destruct (EX (map fill qs) (fill_of qs)) as (os' & used' & e3 & RUN). do 5 eexists. apply (mixed_run_dir _ _ _ _ _ _ _ _ _ _ _ (fun r => last_write r (b_files b))); [intros r; symmetry; apply L|exact RUN].
  - apply (mixed_run_dir _ _ _ _ _ _ _ _ _ _ _ _ (fun r => last_write r (b_files b))) in RUN; [|exact L]. apply (ALL _ _ _ _ _ RUN).
Qed.

(** Recorded with -s or -S, -a and -u, such tests pass from then on, whatever the functions, the network and the environment do. *)
Theorem C124_recorded_then_green :
  forall cc, TokClassOK cc -> forall refloat E o c1 c2 body1 body2 b (D : Type) (show_dur : D -> str) parse_dur sp dur1 dur2 all1 all2 metrics1 metrics2
    selected answers1 answers2 f recs rest g
    sha1 jfloat (X : Type) vars ign_rq ign_hx hide_rq hide_hx refresh complete stack (T T' : str -> mixed_test X) listing e e' cs os used,
  plain_dir E -> ReviewSpec.plain o -> starts_with [DOT] o = true -> let O := E ++ SLASH :: o in
  batch c1 -> accept c1 = true -> update c1 = true -> cont c1 = false -> batch c2 ->
  separate selected -> NoDup selected -> (forall n, In n selected -> steady cc (b n)) ->
  (forall n, In n selected -> ready E O n f) ->
  let recordings n h := fun r => lookup (E ++ SLASH :: n ++ SLASH :: r) h in
  (forall n, In n selected -> recorded_mixed cc sha1 jfloat (vars n) (ign_rq n) (ign_hx n) (hide_rq n) (hide_hx n) refresh complete (recordings n f) (listing n) (stack n)
     (T n) (T' n) (e n) (cs n) (os n) (b n) (used n) (e' n)) ->
  (forall n h, In n selected -> (forall r, recordings n h r = recordings n f r) -> body1 n h = b n) ->
  (forall n h, In n selected -> exists listing' e2,
     FuncTestProofs.lists (recordings n h) listing' /\
     (forall saved d x, recordings n h (lit ".env.json") = Some saved -> JsonFilesModel.read_env jfloat saved = Some d -> In (x, None) d -> e2 x <> None) /\
     let offline := mixed_run cc sha1 jfloat X (vars n) (ign_rq n) (ign_hx n) (hide_rq n) (hide_hx n) false false (recordings n h) listing' (stack n) (T' n) e2 in
     ((exists cs' os' b' used' e3, offline cs' os' b' used' e3) -> exists cs' os' used' e3, offline cs' os' (body2 n h) used' e3)) ->
  run_async cc refloat E O O c1 body1 show_dur parse_dur sp dur1 all1 metrics1 selected answers1 f = Some (Ret (OK, recs, rest) g) ->
  exists recs2 h,
    run_async cc refloat E O O c2 body2 show_dur parse_dur sp dur2 all2 metrics2 selected answers2 g = Some (Ret (OK, recs2, answers2) h) /\
    (cont c2 = false -> forall n, In n selected -> In (n, OK, dur2 n) recs2) /\
    forall n r, In n selected -> recordings n g r = last_write r (b_files (b n)) /\ recordings n h r = recordings n g r.
Proof.
  intros cc TOK refloat E o c1 c2 body1 body2 b D show_dur parse_dur sp dur1 dur2 all1 all2 metrics1 metrics2 selected answers1 answers2 f recs rest g
    sha1 jfloat X vars ign_rq ign_hx hide_rq hide_hx refresh complete stack T T' listing e e' cs os used HE Ho Hdot O HB1 HA HU HC1 HB2 SEP ND HST HR recordings RR HB HB' H.
  destruct (C119_recorded_then_green cc TOK refloat E o c1 c2 body1 body2 b D show_dur parse_dur sp dur1 dur2 all1 all2 metrics1 metrics2 selected answers1 answers2 f recs rest g)
    as (recs2 & h & R2 & A & B); try assumption.
  - intros n h Hn L. destruct (HB' n h Hn) as (listing' & e2 & LS & UN & RUN).
    exact (mixed_again cc sha1 jfloat X _ _ _ _ _ refresh complete _ _ _ _ _ _ _ _ _ _ _ (recordings n h) listing' e2 (body2 n h) (RR n Hn) L LS UN RUN).
  - exists recs2, h. split; [exact R2|]. split; [exact A|]. intros n r Hn. destruct (B n Hn) as (_ & _ & _ & K). destruct (K r) as [K1 K2].
    unfold recordings. rewrite K1, K2. auto.
Qed.
Print Assumptions C124_recorded_then_green.

(** *** Examples. A test that calls f of the variable USER, asks with requests for what it returned, and with httpx for what the answer says. *)
Definition user_of (x : EnvModel.environ) : str := match x (lit "USER") with Some v => v | None => lit "nobody" end.
Definition tell (o : did unit) : str :=
  match o with
  | DFunc (FuncModel.Returned (JStr s)) => lit "f " ++ s
  | DReq (Returned r) => lit "requests " ++ rq_content r
  | DHx (Returned r) => lit "httpx " ++ hx_content r
  | _ => lit "nothing"
  end.
Definition mixer : mixed_test unit := {|
  m_next x h := match h with
    | [] => Some (AFunc (FuncTestProps.call_f (JStr (user_of x))))
    | [DFunc (FuncModel.Returned (JStr s))] => Some (AReq (ask s))
    | [DFunc _; DReq (Returned r)] => Some (AHx (ask (rq_content r)))
    | _ => None end;
  m_does x h := {| b_ops := OH 1 (lit "mix") :: OTln (user_of x) :: map (fun o => OTln (tell o)) h;
                   b_exc := if existsb (fun o => str_eqb (tell o) (lit "nothing")) h then Some (lit "missing snapshot", lit "") else None;
                   b_files := []; b_tmp := []; b_log := []; b_value := None |};
  m_leaves x h := x |}.
Definition hx_page : hx_response := {| hx_status := 200; hx_headers := [(lit "content-encoding", lit "gzip")]; hx_content := [104; 111]%N |}.
Definition mix_cs : list (MixModel.step unit) :=
  [SFunc (FuncTestProps.call_f (JStr (lit "ann"))) [] (inl (JStr (lit "/ann"))); SReq (ask (lit "/ann")) (inl page); SHx (ask (lit "hi")) (inl hx_page)].
Definition mix_os : list (did unit) := [DFunc (FuncModel.Returned (JStr (lit "/ann"))); DReq (Returned page); DHx (Returned hx_page)].
Definition mix_stack := [KFunc; KEnv; KHx; KReq].
Definition or_nil {A} (o : option (list A)) : list A := match o with Some l => l | None => [] end.
(** what a run does, if nothing raises *)
Definition mix_load (refresh : bool) (dir : str -> option str) (listing : list (str * str)) : loaded := {|
  l_calls := or_nil (FuncTestModel.read_all FuncTestProps.letter_sha1 (fun t => t) refresh listing);
  l_rq := load ascii_class (json_to_sha1 FuncTestProps.letter_sha1) rq_response IgnoreAll None (or_nil (recordings (fun t => t) rq_response rq_of refresh (dir (lit ".requests.json")))) refresh;
  l_hx := load ascii_class (json_to_sha1 FuncTestProps.letter_sha1) hx_response IgnoreAll None (or_nil (recordings (fun t => t) hx_response hx_of refresh (dir (lit ".httpx.json")))) refresh |}.
Definition mix_end (st : mstate) (d : EnvModel.table) (k : kind) : addition :=
  match k with
  | KEnv => (OH 1 (lit "env snaphots:") :: map OTln (EnvTestModel.env_lines d), [(lit ".env.json", or_nil (JsonFilesModel.env_file d))])
  | KFunc => (OH 1 (lit "function call snapshots:") :: map OTln (or_nil (FuncTestModel.listed_lines (s_calls st))), or_nil (FuncTestModel.stored (s_calls st)))
  | KReq => (OH 1 (lit "request snaphots:") :: map OTln (snapshot_lines (s_rq st)), [(lit ".requests.json", or_nil (HttpFilesModel.write_file rq_response rq_json true (s_rq st)))])
  | KHx => (OH 1 (lit "httpx snaphots:") :: map OTln (snapshot_lines (s_hx st)), [(lit ".httpx.json", or_nil (HttpFilesModel.write_file hx_response hx_json true (s_hx st)))])
  end.
Definition mix_do (refresh : bool) (dir : str -> option str) (listing : list (str * str)) (stack : list kind) (T : mixed_test unit) (e : EnvModel.environ) (cs : list (MixModel.step unit)) : body_run :=
  let file := match EnvTestModel.recorded_env (fun t => t) refresh (dir (lit ".env.json")) with Some d => d | None => None end in
  let s := EnvModel.snap_start [lit "USER"] file refresh false e in
  match acts ascii_class FuncTestProps.letter_sha1 unit IgnoreAll IgnoreAll refresh (mix_load refresh dir listing) nothing cs with
  | Some (st, os, _) => fold_left add (map (mix_end st (EnvModel.s_capture s)) stack) (m_does T (EnvModel.s_env s) os)
  | None => m_does T e []
  end.
Definition ann := EnvTestProps.user_is (Some (lit "ann")).
Definition mix_b : body_run := mix_do true (fun _ => None) [] mix_stack mixer ann mix_cs.
Lemma mix_recorded : mixed_run ascii_class FuncTestProps.letter_sha1 (fun t => t) unit [lit "USER"] IgnoreAll IgnoreAll true true true false (fun _ => None) [] mix_stack mixer ann mix_cs mix_os mix_b [true; true; true]
  (fst (fst (EnvModel.snap_block [lit "USER"] None true false (fun x => x) ann))).
Proof.
  exists (mix_load true (fun _ => None) []). eexists. exists (EnvModel.s_env (EnvModel.snap_start [lit "USER"] None true false ann)), [(lit "USER", Some (lit "ann"))]. eexists.
  split; [split; [reflexivity|]; split; exists []; split; reflexivity|]. split; [exists None; repeat split|].
  split; [vm_compute; reflexivity|]. split; [|split].
  - split; [reflexivity|]. split; [|reflexivity]. intros [|[|[|i]]] q H; [injection H as <-; vm_compute; reflexivity|injection H as <-; reflexivity|injection H as <-; reflexivity|destruct i; discriminate].
  - repeat constructor; cbn [adds]; repeat eexists; vm_compute; reflexivity.
  - vm_compute. reflexivity.
Qed.

Lemma low_ask t : forallb (fun c => N.ltb c 55296) t = true -> request_ok (ask t).
Proof. intros H. apply RecordProps.ask_ok. now apply FuncTestProofs.short_text. Qed.
(** no collision: the same request, repeated at most three times *)
Definition repeats (q : request) : list obj := map (fun n => with_order n (asked_obj ascii_class IgnoreAll q)) (seq 0 4).
Lemma one_request (q0 : request) (qs : request -> Prop) : (forall q, qs q -> q = q0) ->
  (let l := map request_text (asked_obj ascii_class IgnoreAll q0 :: repeats q0) in
   forallb (fun a => forallb (fun b => implb (str_eqb (FuncTestProps.letter_sha1 a) (FuncTestProps.letter_sha1 b)) (str_eqb a b)) l) l = true) ->
  no_collision ascii_class FuncTestProps.letter_sha1 IgnoreAll qs 3.
Proof.
  intros ONE H l QS x y A B E. cbv zeta in H. rewrite forallb_forall in H.
  assert (IN : forall z, asked ascii_class IgnoreAll l 3 z -> In (request_text z) (map request_text (asked_obj ascii_class IgnoreAll q0 :: repeats q0))).
  { intros z (q & [n|] & I & K); rewrite (ONE q (QS q I)) in K; destruct K as [K ->]; apply in_map; [right|now left]. apply (in_map (fun n => with_order n (asked_obj ascii_class IgnoreAll q0))), in_seq. lia. }
  specialize (H _ (IN x A)). rewrite forallb_forall in H. specialize (H _ (IN y B)). rewrite E, str_eqb_refl in H. now destruct (str_eqb_spec (request_text x) (request_text y)).
Qed.
Example C124_example : recorded_mixed ascii_class FuncTestProps.letter_sha1 (fun t => t) [lit "USER"] IgnoreAll IgnoreAll true true true false (fun _ => None) [] mix_stack mixer mixer ann mix_cs mix_os mix_b [true; true; true]
  (fst (fst (EnvModel.snap_block [lit "USER"] None true false (fun x => x) ann))).
Proof.
  assert (MAY : ((forall q, possible mixer mix_cs mix_os (AReq q) -> q = ask (lit "/ann")) /\ (forall q, possible mixer mix_cs mix_os (AHx q) -> q = ask (lit "hi"))) /\
    forall q, possible mixer mix_cs mix_os (AReq q) \/ possible mixer mix_cs mix_os (AHx q) -> request_ok q).
  { assert (P : forall a, possible mixer mix_cs mix_os a -> (exists v, a = AFunc v) \/ a = AReq (ask (lit "/ann")) \/ a = AHx (ask (lit "hi"))).
    { intros a [H|(y & i & h & F & N)].
      - destruct H as [<-|[<-|[<-|[]]]]; [left; eexists; reflexivity|right; now left|right; now right].
      - destruct i as [|[|[|[|i]]]]; cbn [firstn mix_os] in F.
        + inversion F; subst. cbn in N. injection N as <-. left. now eexists.
        + inversion F as [|? o ? l A F1]; subst. inversion F1; subst. destruct o as [o|o|o]; cbn in A; try contradiction. subst o. cbn in N. injection N as <-. right. now left.
        + inversion F as [|? o ? l A F1]; subst. inversion F1 as [|? o2 ? l2 A2 F2]; subst. inversion F2; subst. destruct o as [o|o|o]; cbn in A; try contradiction. destruct o2 as [o2|o2|o2]; cbn in A2; try contradiction. subst.
          cbn in N. injection N as <-. right. now right.
        + inversion F as [|? o ? l A F1]; subst. inversion F1 as [|? o2 ? l2 A2 F2]; subst. inversion F2 as [|? o3 ? l3 A3 F3]; subst. inversion F3; subst.
          destruct o as [o|o|o]; cbn in A; try contradiction. destruct o2 as [o2|o2|o2]; cbn in A2; try contradiction. subst. discriminate.
        + inversion F as [|? o ? l A F1]; subst. inversion F1 as [|? o2 ? l2 A2 F2]; subst. inversion F2 as [|? o3 ? l3 A3 F3]; subst.
          destruct o as [o|o|o]; cbn in A; try contradiction. destruct o2 as [o2|o2|o2]; cbn in A2; try contradiction. subst. discriminate. }
    split; [split|]; [intros q H|intros q H|intros q [H|H]]; apply P in H as [[v H]|[H|H]]; try discriminate; injection H as ->; try reflexivity; apply low_ask; reflexivity. }
  destruct MAY as [[ONLY ONLY'] MAY].
  split.
  - repeat constructor; cbn [In]; intuition discriminate.
  - exact FuncTestProps.letter_sha1_ok.
  - intros _ l H. injection H as <-. intros ? ? ? [].
  - intros _ l H. injection H as <-. intros ? ? ? ? [].
  - intros _ l H. injection H as <-. intros ? ? ? ? [].
  - intros _ d n v H. discriminate H.
  - intros q i r [H|[H|[H|[]]]]; try discriminate. injection H as <- <- <-. split; [apply FuncTestProps.call_f_ok; [exact I|now apply FuncTestProofs.short_text]|]. intros v H. injection H as <-. split; [exact I|now apply FuncTestProofs.short_text].
  - intros _ q i r [H|[H|[H|[]]]]; try discriminate. now injection H.
  - intros q r [H|[H|[H|[]]]]; try discriminate. injection H as _ <-. split; [split; [split; constructor|discriminate]|discriminate].
  - intros q r [H|[H|[H|[]]]]; try discriminate. injection H as _ <-. split; [|vm_compute; discriminate]. split; [|repeat constructor].
    split; [constructor; [intros []|constructor]|constructor; [split; now apply FuncTestProofs.short_text|constructor]].
  - vm_compute. repeat constructor. intros [].
  - exact MAY.
  - apply (one_request (ask (lit "/ann"))); [exact ONLY|vm_compute; reflexivity].
  - apply (one_request (ask (lit "hi"))); [exact ONLY'|vm_compute; reflexivity].
  - repeat constructor; eexists; reflexivity.
  - intros _ x name. reflexivity.
  - intros _. split; [repeat constructor; intros []|]. intros n [<-|[]]. split; [now apply FuncTestProofs.short_text|]. intros v H. vm_compute in H. injection H as <-. now apply FuncTestProofs.short_text.
  - intros _ x h n _ H. split; exact H.
  - intros x y AG h h' F. assert (U : user_of y = user_of x) by (unfold user_of; rewrite (AG (or_intror (or_introl eq_refl)) (lit "USER")); [reflexivity|now left]).
    assert (TE : forall o o' : did unit, seen o o' -> tell o' = tell o).
    { intros [a|a|a] [a'|a'|a'] S; cbn [seen] in S; try contradiction; [now subst|now subst|]. destruct S as (r & r' & -> & -> & _ & C & _). cbn [tell]. now rewrite C. }
    split.
    + cbn [mixer m_does]. rewrite U. f_equal.
      * do 2 f_equal. induction F as [|o o' l l' S F IH]; [reflexivity|]. cbn [map]. now rewrite (TE _ _ S), IH.
      * replace (existsb (fun o => str_eqb (tell o) (lit "nothing")) h') with (existsb (fun o => str_eqb (tell o) (lit "nothing")) h); [reflexivity|].
        induction F as [|o o' l l' S F IH]; [reflexivity|]. cbn [existsb]. now rewrite (TE _ _ S), IH.
    + destruct F as [|o o' l l' S F]; [cbn [mixer m_next]; now rewrite U|].
      destruct F as [|o2 o2' l l' S2 F].
      { destruct o as [a|a|a], o' as [a'|a'|a']; cbn [seen] in S; try contradiction; [subst a'|exact I|exact I]. destruct a as [[]| |]; exact I || reflexivity. }
      destruct F as [|o3 o3' l l' S3 F].
      { destruct o as [a|a|a], o' as [a'|a'|a']; cbn [seen] in S; try contradiction; subst; [|exact I|exact I].
        destruct o2 as [c|c|c], o2' as [c'|c'|c']; cbn [seen] in S2; try contradiction; subst; try (destruct a as [[]| |]; exact I). destruct a as [[]| |], c; try exact I; reflexivity. }
      destruct o as [a|a|a], o' as [a'|a'|a']; cbn [seen] in S; try contradiction; try exact I.
      destruct o2 as [c|c|c], o2' as [c'|c'|c']; cbn [seen] in S2; try contradiction; subst; destruct a as [[]| |]; try exact I; try destruct c; exact I.
  - exact mix_recorded.
Qed.

(** the whole run: the second time with another user, other functions and without network *)
Definition mgo (c : config) (body : str -> fs -> body_run) (f : fs) :=
  run_async ascii_class no_float demo_E demo_O demo_O c body (fun d : str => d) Some (fun c => N.eqb c SP) (fun _ => lit "7") [lit "t/fun"] (lit "{}") [lit "t/fun"] [] f.
Definition dir_in (h : fs) (r : str) : option str := lookup (lit "books/t/fun/" ++ r) h.
Definition bob := EnvTestProps.user_is (Some (lit "bob")).
Definition down_cs : list (MixModel.step unit) :=
  [SFunc (FuncTestProps.call_f (JStr (lit "ann"))) [] (inr tt); SReq (ask (lit "/ann")) (inr tt); SHx (ask (lit "hi")) (inr tt)].
Lemma mix_steady : steady ascii_class mix_b.
Proof.
  split; [vm_compute; reflexivity|]. split; [apply repeatableb_ok; vm_compute; reflexivity|]. split; [apply freeb_ok; vm_compute; reflexivity|].
  eexists. split; [vm_compute; reflexivity|]. apply well_pieced_of; [exact ascii_TokClassOK|]. apply tokenize_iff; [exact ascii_TokClassOK|]. vm_compute. reflexivity.
Qed.
Example C124_run_example :
  ready demo_E demo_O (lit "t/fun") [] /\ separate [lit "t/fun"] /\ steady ascii_class mix_b /\
  exists recs rest g recs2 h, mgo (talk_conf true true) (fun _ _ => mix_b) [] = Some (Ret (OK, recs, rest) g) /\
    dir_in g (lit ".env.json") <> None /\ dir_in g (lit ".requests.json") <> None /\ dir_in g (lit ".httpx.json") <> None /\ length (FuncTestProps.listing_in g) = 1 /\
    mgo (talk_conf false false) (fun _ h => mix_do false (dir_in h) (FuncTestProps.listing_in h) mix_stack mixer bob down_cs) g = Some (Ret (OK, recs2, []) h) /\ recs2 = [(lit "t/fun", OK, lit "7")].
Proof.
  split; [apply readyb_ok; vm_compute; reflexivity|]. split; [exact FuncTestProps.fun_separate|]. split; [exact mix_steady|].
  do 5 eexists. split; [vm_compute; reflexivity|]. repeat (split; [vm_compute; (discriminate || reflexivity)|]). vm_compute; reflexivity.
Qed.

(** the same recorded with -s *)
Example C124_complete_example : mixed_run ascii_class FuncTestProps.letter_sha1 (fun t => t) unit [lit "USER"] IgnoreAll IgnoreAll true true false true (fun _ => None) [] mix_stack mixer ann mix_cs mix_os mix_b [true; true; true]
  (fst (fst (EnvModel.snap_block [lit "USER"] None false true (fun x => x) ann))).
Proof.
  exists (mix_load false (fun _ => None) []). eexists. exists (EnvModel.s_env (EnvModel.snap_start [lit "USER"] None false true ann)), [(lit "USER", Some (lit "ann"))]. eexists.
  split; [split; [reflexivity|]; split; exists []; split; reflexivity|]. split; [exists None; repeat split|].
  split; [vm_compute; reflexivity|]. split; [|split].
  - split; [reflexivity|]. split; [|reflexivity]. intros [|[|[|i]]] q H; [injection H as <-; vm_compute; reflexivity|injection H as <-; reflexivity|injection H as <-; reflexivity|destruct i; discriminate].
  - repeat constructor; cbn [adds]; repeat eexists; vm_compute; reflexivity.
  - vm_compute. reflexivity.
Qed.

(** False if the code of a recorded function makes recorded requests: once recorded, the function is not called any more, its requests are not made, and the test,
    whose list of requests is then shorter, has differences although nothing changed. *)
Definition nester : mixed_test unit := {|
  m_next x h := match h with [] => Some (AFunc (FuncTestProps.call_f (JInt 1))) | _ => None end;
  m_does x h := {| b_ops := OH 1 (lit "nest") :: map (fun o => OTln (tell o)) h; b_exc := None; b_files := []; b_tmp := []; b_log := []; b_value := None |};
  m_leaves x h := x |}.
Definition nest_cs : list (MixModel.step unit) := [SFunc (FuncTestProps.call_f (JInt 1)) [(ask (lit "/a"), inl page)] (inl (JStr (lit "hi")))].
Definition nest_b : body_run := mix_do true (fun _ => None) [] [KReq; KFunc] nester ann nest_cs.
Lemma nest_steady : steady ascii_class nest_b.
Proof.
  split; [vm_compute; reflexivity|]. split; [apply repeatableb_ok; vm_compute; reflexivity|]. split; [apply freeb_ok; vm_compute; reflexivity|].
  eexists. split; [vm_compute; reflexivity|]. apply well_pieced_of; [exact ascii_TokClassOK|]. apply tokenize_iff; [exact ascii_TokClassOK|]. vm_compute. reflexivity.
Qed.
Theorem C124_nested_refuted : exists f recs rest g b' used',
  let c1 := talk_conf true true in
  plain_dir demo_E /\ ReviewSpec.plain demo_o /\ batch c1 /\ accept c1 = true /\ update c1 = true /\ separate [lit "t/fun"] /\ steady ascii_class nest_b /\ ready demo_E demo_O (lit "t/fun") f /\
  mixed_run ascii_class FuncTestProps.letter_sha1 (fun t => t) unit [] IgnoreAll IgnoreAll true true true false (dir_in f) [] [KReq; KFunc] nester ann nest_cs [DFunc (FuncModel.Returned (JStr (lit "hi")))] nest_b [true] ann /\
  mgo c1 (fun _ _ => nest_b) f = Some (Ret (OK, recs, rest) g) /\
  mixed_run ascii_class FuncTestProps.letter_sha1 (fun t => t) unit [] IgnoreAll IgnoreAll true true false false (dir_in g) (FuncTestProps.listing_in g) [KReq; KFunc] nester ann nest_cs
    [DFunc (FuncModel.Returned (JStr (lit "hi")))] b' used' ann /\
  verdict_of (mgo (talk_conf false false) (fun _ _ => b') g) = Some DIFF.
Proof.
  exists []. do 5 eexists. cbv zeta.
  split; [exact (proj1 demo_dirs)|]. split; [exact (proj1 (proj2 demo_dirs))|]. split; [split; reflexivity|]. split; [reflexivity|]. split; [reflexivity|]. split; [exact FuncTestProps.fun_separate|]. split; [exact nest_steady|].
  split; [apply readyb_ok; vm_compute; reflexivity|].
  assert (C : forall o, acting (m_next nester ann) (map action_of nest_cs) [o]).
  { intros o. split; [reflexivity|]. split; [|reflexivity]. intros [|i] q H; [injection H as <-; reflexivity|destruct i; discriminate]. }
  split.
  { exists {| l_calls := []; l_rq := []; l_hx := [] |}. eexists. exists ann, []. eexists. split; [split; [reflexivity|]; split; [exists []; split; reflexivity|split; [reflexivity|intros q v [H|[]]; discriminate]]|].
    split; [split; reflexivity|]. split; [vm_compute; reflexivity|]. split; [apply C|]. split; [repeat constructor; cbn [adds]; repeat eexists; vm_compute; reflexivity|vm_compute; reflexivity]. }
  split; [vm_compute; reflexivity|]. split.
  { refine (ex_intro _ {| l_calls := _; l_rq := _; l_hx := [] |} _). eexists. exists ann, []. eexists. cbn [l_calls l_rq l_hx]. split; [split; [vm_compute; reflexivity|]; split; [eexists; split; vm_compute; reflexivity|split; [reflexivity|intros q v [H|[]]; discriminate]]|].
    split; [split; reflexivity|]. split; [vm_compute; reflexivity|]. split; [apply C|]. split; [repeat constructor; cbn [adds]; repeat eexists; vm_compute; reflexivity|vm_compute; reflexivity]. }
  vm_compute. reflexivity.
Qed.
Print Assumptions C124_nested_refuted.
