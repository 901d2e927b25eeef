(** C120: a whole test inside snapshot_functions, recorded, accepted and run again. *)
From Coq Require Import Lia Permutation.
From Verif Require Import RunCaseSpec PyStrFacts RunCaseProofs RunnerProofs RunCaseProps RecordProofs RecordProps TokenizerProps CaseRunProps RepeatProps.
From Verif Require Import FuncTestModel FuncTestProofs.
From Verif Require FuncModel JsonSpec JsonProps.

(** *** C120. [T]: the test while recording, [T']: the test in a later run, which may pass the arguments in another form of the same
    JSON (a list for a tuple). [listing']: the recordings that the first run left, in any order. *)
Record recorded_functions sha1 refloat {X : Type} capture refresh listing (T T' : func_test X) cs os b used : Prop := {
  rf_sha1 : forall t, JsonSpec.text (sha1 t) /\ ~ In SLASH (sha1 t);
  rf_earlier : forall loaded, read_all sha1 refloat refresh listing = Some loaded -> forall h c r, In (h, (c, r)) loaded ->
    JsonSpec.text h /\ ~ In SLASH h /\ JsonSpec.plain (JDict c) /\ JsonSpec.value_ok refloat (JDict c) /\ JsonSpec.plain r /\ JsonSpec.value_ok refloat r;
  rf_calls : forall q r, In (q, r) cs -> fcall_ok refloat q /\ forall v, r = inl v -> JsonSpec.plain v /\ JsonSpec.value_ok refloat v;
  rf_returned : Forall (fun o => exists r, o = FuncModel.Returned r) os;
  rf_once : NoDup (map (fun c => FuncTestModel.key_of sha1 (fst c)) cs);
  rf_own_files : forall name, last_write (lit ".functions/" ++ name) (b_files (f_does T os)) = None;
  rf_alike : forall h, f_does T' h = f_does T h /\
    match f_next T h, f_next T' h with
    | None, None => True
    | Some q, Some q' => FuncTestModel.key_of sha1 q = FuncTestModel.key_of sha1 q'
    | _, _ => False
    end;
  rf_run : func_run sha1 refloat X capture refresh listing T cs os b used
}.
Theorem C120_functions sha1 refloat (X : Type) capture refresh listing (T T' : func_test X) cs os b used listing' :
  recorded_functions sha1 refloat capture refresh listing T T' cs os b used ->
  lists (fun r => last_write r (b_files b)) listing' ->
  (exists qs, forall cs', map fst cs' = qs -> exists used', func_run sha1 refloat X false false listing' T' cs' os b used') /\
  forall cs' os' b' used', func_run sha1 refloat X false false listing' T' cs' os' b' used' ->
    b' = b /\ os' = os /\ Forall (fun u => u = false) used' /\
    Forall2 (fun c c' => FuncTestModel.key_of sha1 (fst c) = FuncTestModel.key_of sha1 (fst c')) cs cs'.
Proof.
  intros [S1 S2 S3 S4 S5 S6 S7 S8] L. now apply (func_again sha1 refloat X S1 capture refresh listing listing' T T' cs os b used).
Qed.
Print Assumptions C120_functions.

(** Recorded with -s or -S, -a and -u, such tests pass from then on, whatever the functions would do. *)
Theorem C120_recorded_then_green :
  forall cc, TokClassOK cc -> forall refloat E o c1 c2 body1 body2 b (D : Type) (show_dur : D -> str) parse_dur sp dur1 dur2 all1 all2 metrics1 metrics2
    selected answers1 answers2 f recs rest g
    sha1 jfloat (X : Type) capture refresh (T T' : str -> func_test X) listing cs os used,
  plain_dir E -> plain o -> starts_with [DOT] o = true -> let O := E ++ SLASH :: o in
  batch c1 -> accept c1 = true -> update c1 = true -> cont c1 = false -> batch c2 ->
  separate selected -> NoDup selected -> (forall n, In n selected -> steady cc (b n)) ->
  (forall n, In n selected -> ready E O n f) ->
  let recordings n h := fun r => lookup (E ++ SLASH :: n ++ SLASH :: r) h in
  (forall n, In n selected -> recorded_functions sha1 jfloat capture refresh (listing n) (T n) (T' n) (cs n) (os n) (b n) (used n)) ->
  (forall n h, In n selected -> (forall r, recordings n h r = recordings n f r) -> body1 n h = b n) ->
  (forall n h, In n selected -> exists listing',
     lists (recordings n h) listing' /\
     let offline := fun cs' os' b' used' => func_run sha1 jfloat X false false listing' (T' n) cs' os' b' used' in
     ((exists cs' os' b' used', offline cs' os' b' used') -> exists cs' os' used', offline cs' os' (body2 n h) used')) ->
  run_async cc refloat E O O c1 body1 show_dur parse_dur sp dur1 all1 metrics1 selected answers1 f = Some (Ret (OK, recs, rest) g) ->
  exists recs2 h,
    run_async cc refloat E O O c2 body2 show_dur parse_dur sp dur2 all2 metrics2 selected answers2 g = Some (Ret (OK, recs2, answers2) h) /\
    (cont c2 = false -> forall n, In n selected -> In (n, OK, dur2 n) recs2) /\
    forall n r, In n selected -> recordings n g r = last_write r (b_files (b n)) /\ recordings n h r = recordings n g r.
Proof.
  intros cc TOK refloat E o c1 c2 body1 body2 b D show_dur parse_dur sp dur1 dur2 all1 all2 metrics1 metrics2 selected answers1 answers2 f recs rest g
    sha1 jfloat X capture refresh T T' listing cs os used HE Ho Hdot O HB1 HA HU HC1 HB2 SEP ND HST HR recordings RR HB HB' H.
  destruct (C119_recorded_then_green cc TOK refloat E o c1 c2 body1 body2 b D show_dur parse_dur sp dur1 dur2 all1 all2 metrics1 metrics2 selected answers1 answers2 f recs rest g)
    as (recs2 & h & R2 & A & B); try assumption.
  - intros n h Hn L. destruct (HB' n h Hn) as (listing' & LS & RUN).
    destruct (C120_functions sha1 jfloat X capture refresh (listing n) (T n) (T' n) (cs n) (os n) (b n) (used n) listing' (RR n Hn)) as [(qs & EX) ALL].
    { destruct LS as [N I]. split; [exact N|]. intros name t. rewrite I. unfold recordings. now rewrite L. }
    destruct RUN as (cs' & os' & used' & RUN).
    + destruct (EX (map (fun q => (q, inl JNone)) qs)) as (used' & RUN); [rewrite map_map; apply map_id|]. do 4 eexists. exact RUN.
    + apply (ALL _ _ _ _ RUN).
  - exists recs2, h. split; [exact R2|]. split; [exact A|]. intros n r Hn. destruct (B n Hn) as (_ & _ & _ & K). destruct (K r) as [K1 K2].
    unfold recordings. rewrite K1, K2. auto.
Qed.
Print Assumptions C120_recorded_then_green.

(** *** Examples. A test that calls f(1), then f of what it returned, and writes the results. *)
Definition letter_sha1 (t : str) : str := map (fun c => (97 + c mod 26)%N) t.
Lemma letter_sha1_ok t : JsonSpec.text (letter_sha1 t) /\ ~ In SLASH (letter_sha1 t).
Proof.
  split.
  - apply short_text. unfold letter_sha1. apply forallb_forall. intros c I. apply in_map_iff in I as (d & <- & _). apply N.ltb_lt. pose proof (N.mod_upper_bound d 26). lia.
  - intros I. apply in_map_iff in I as (d & E & _). pose proof (N.mod_upper_bound d 26). unfold SLASH in E. lia.
Qed.
Definition call_f (v : jv) : fcall := (lit "f", [v], []).
Definition show_out (o : FuncModel.outcome jv unit) : str := match o with FuncModel.Returned (JStr s) => lit "got " ++ s | _ => lit "nothing" end.
Definition body_of (h : list (FuncModel.outcome jv unit)) : body_run :=
  {| b_ops := OH 1 (lit "calls") :: map (fun o => OTln (show_out o)) h;
     b_exc := if existsb (fun o => match o with FuncModel.Returned _ => false | _ => true end) h then Some (lit "missing snapshot", lit "") else None;
     b_files := []; b_tmp := []; b_log := []; b_value := None |}.
Definition caller : func_test unit := {|
  f_next h := match h with [] => Some (call_f (JInt 1)) | [FuncModel.Returned r] => Some (call_f r) | _ => None end; f_does := body_of |}.
(** calls f(1), f(2) and f(1) again *)
Definition repeater : func_test unit := {|
  f_next h := match h with [] | [_; _] => Some (call_f (JInt 1)) | [_] => Some (call_f (JInt 2)) | _ => None end; f_does := body_of |}.
Definition fcs : list (fcall * (jv + unit)) := [(call_f (JInt 1), inl (JStr (lit "one"))); (call_f (JStr (lit "one")), inl (JStr (lit "two")))].
Definition rcs : list (fcall * (jv + unit)) := [(call_f (JInt 1), inl (JStr (lit "one"))); (call_f (JInt 2), inl (JStr (lit "two"))); (call_f (JInt 1), inl (JStr (lit "one")))].
Definition frun (capture refresh : bool) (listing : list (str * str)) (T : func_test unit) cs :=
  let loaded := match read_all letter_sha1 (fun t => t) refresh listing with Some l => l | None => [] end in
  let ks := match all_of (map (hashed letter_sha1 unit) cs) with Some k => k | None => [] end in
  let '(calls, hos, used) := FuncModel.run_calls held unit capture loaded [] ks in
  let os := map (result_of unit) hos in
  (with_calls (f_does T os) (match listed_lines calls with Some l => l | None => [] end) (match stored calls with Some l => l | None => [] end), os, used).
Definition f_b := fst (fst (frun true true [] caller fcs)).
Definition r_b := fst (fst (frun true true [] repeater rcs)).
Definition listing_of (b : body_run) : list (str * str) := map (fun e => (skipn 11 (fst e), snd e)) (b_files b).

Lemma f_recorded : func_run letter_sha1 (fun t => t) unit true true [] caller fcs (snd (fst (frun true true [] caller fcs))) f_b [true; true].
Proof.
  do 6 eexists. split; [reflexivity|]. split; [vm_compute; reflexivity|]. split; [vm_compute; reflexivity|]. split; [vm_compute; reflexivity|].
  split; [|split; [vm_compute; reflexivity|split; [vm_compute; reflexivity|vm_compute; reflexivity]]].
  split; [reflexivity|]. split; [|reflexivity]. intros [|[|i]] q I; [injection I as <-; reflexivity|injection I as <-; vm_compute; reflexivity|destruct i; discriminate].
Qed.
Lemma call_f_ok v : JsonSpec.plain v -> JsonSpec.value_ok (fun t => t) v -> fcall_ok (fun t => t) (call_f v).
Proof.
  intros P V. split; [|split; [|split; constructor]].
  - split; [now apply short_text|]. split; [constructor; [exact V|constructor]|constructor].
  - constructor; [now apply plain_same|constructor].
Qed.
Example C120_example : recorded_functions letter_sha1 (fun t => t) true true [] caller caller fcs (snd (fst (frun true true [] caller fcs))) f_b [true; true].
Proof.
  split.
  - exact letter_sha1_ok.
  - intros loaded H. injection H as <-. intros ? ? ? [].
  - intros q r [H|[H|[]]]; injection H as <- <-; (split; [apply call_f_ok; [exact I|first [exact I|now apply short_text]]|intros v V; injection V as <-; split; [exact I|now apply short_text]]).
  - vm_compute. repeat constructor; eexists; reflexivity.
  - vm_compute. repeat constructor; cbn [In]; intuition discriminate.
  - intros name. reflexivity.
  - intros h. split; [reflexivity|]. destruct (f_next caller h); [reflexivity|exact I].
  - exact f_recorded.
Qed.

(** the whole run *)
Definition fgo (c : config) (body : str -> fs -> body_run) (f : fs) :=
  run_async ascii_class no_float demo_E demo_O demo_O c body (fun d : str => d) Some (fun c => N.eqb c SP) (fun _ => lit "7") [lit "t/fun"] (lit "{}") [lit "t/fun"] [] f.
Definition prefix := lit "books/t/fun/.functions/".
Definition listing_in (h : fs) : list (str * str) := flat_map (fun e => if starts_with prefix (fst e) then [(skipn (length prefix) (fst e), snd e)] else []) h.
Definition offline (T : func_test unit) cs (h : fs) : body_run := fst (fst (frun false false (listing_in h) T (map (fun c : fcall * (jv + unit) => (fst c, inr tt)) cs))).
Lemma fun_separate : separate [lit "t/fun"].
Proof.
  split.
  - constructor; [|constructor]. split; [change (lit "t/fun") with (join_with [SLASH] [lit "t"; lit "fun"]); apply proper_parts; [discriminate|repeat constructor; discriminate]|].
    split; [vm_compute; intuition discriminate|]. split; discriminate.
  - intros n m [<-|[]] [<-|[]] _. reflexivity.
Qed.
Lemma f_steady : steady ascii_class f_b.
Proof.
  split; [vm_compute; reflexivity|]. split; [apply repeatableb_ok; vm_compute; reflexivity|]. split; [apply freeb_ok; vm_compute; reflexivity|].
  eexists. split; [vm_compute; reflexivity|]. apply well_pieced_of; [exact ascii_TokClassOK|]. apply tokenize_iff; [exact ascii_TokClassOK|]. vm_compute. reflexivity.
Qed.
Lemma r_steady : steady ascii_class r_b.
Proof.
  split; [vm_compute; reflexivity|]. split; [apply repeatableb_ok; vm_compute; reflexivity|]. split; [apply freeb_ok; vm_compute; reflexivity|].
  eexists. split; [vm_compute; reflexivity|]. apply well_pieced_of; [exact ascii_TokClassOK|]. apply tokenize_iff; [exact ascii_TokClassOK|]. vm_compute. reflexivity.
Qed.
Example C120_run_example :
  ready demo_E demo_O (lit "t/fun") [] /\ separate [lit "t/fun"] /\ steady ascii_class f_b /\
  exists recs rest g recs2 h, fgo (talk_conf true true) (fun _ _ => f_b) [] = Some (Ret (OK, recs, rest) g) /\
    listing_in g <> [] /\ length (listing_in g) = 2 /\
    fgo (talk_conf false false) (fun _ => offline caller fcs) g = Some (Ret (OK, recs2, []) h) /\ recs2 = [(lit "t/fun", OK, lit "7")].
Proof.
  split; [apply readyb_ok; vm_compute; reflexivity|]. split; [exact fun_separate|]. split; [exact f_steady|].
  do 5 eexists. split; [vm_compute; reflexivity|]. split; [vm_compute; discriminate|]. split; [vm_compute; reflexivity|]. split; vm_compute; reflexivity.
Qed.

(** When a call is repeated this is false: f(1), f(2), f(1) is recorded with the list f(2), f(1); every later run that does not record
    gets the same results and prints the list f(1), f(2), and the test has differences although nothing changed. *)
Theorem C120_repeated_refuted : exists f recs rest g b' used',
  let c1 := talk_conf true true in
  plain_dir demo_E /\ plain demo_o /\ batch c1 /\ accept c1 = true /\ update c1 = true /\ separate [lit "t/fun"] /\ steady ascii_class r_b /\ ready demo_E demo_O (lit "t/fun") f /\
  func_run letter_sha1 (fun t => t) unit true true [] repeater rcs (map FuncModel.Returned [JStr (lit "one"); JStr (lit "two"); JStr (lit "one")]) r_b [true; true; true] /\
  fgo c1 (fun _ _ => r_b) f = Some (Ret (OK, recs, rest) g) /\
  func_run letter_sha1 (fun t => t) unit false false (listing_in g) repeater rcs (map FuncModel.Returned [JStr (lit "one"); JStr (lit "two"); JStr (lit "one")]) b' used' /\
  verdict_of (fgo (talk_conf false false) (fun _ _ => b') g) = Some DIFF.
Proof.
  exists []. do 5 eexists. cbv zeta.
  split; [exact (proj1 demo_dirs)|]. split; [exact (proj1 (proj2 demo_dirs))|]. split; [split; reflexivity|]. split; [reflexivity|]. split; [reflexivity|]. split; [exact fun_separate|]. split; [exact r_steady|].
  split; [apply readyb_ok; vm_compute; reflexivity|].
  assert (C : forall os, length os = 3 -> calling repeater (map fst rcs) os).
  { intros [|o1 [|o2 [|o3 [|]]]] L; try discriminate. split; [reflexivity|]. split; [|reflexivity]. intros [|[|[|i]]] q I; try (injection I as <-; reflexivity). destruct i; discriminate. }
  split.
  { do 6 eexists. split; [reflexivity|]. split; [vm_compute; reflexivity|]. split; [vm_compute; reflexivity|]. split; [vm_compute; reflexivity|].
    split; [apply C; reflexivity|split; [vm_compute; reflexivity|split; [vm_compute; reflexivity|vm_compute; reflexivity]]]. }
  split; [vm_compute; reflexivity|]. split.
  { do 6 eexists. split; [vm_compute; reflexivity|]. split; [vm_compute; reflexivity|]. split; [vm_compute; reflexivity|]. split; [vm_compute; reflexivity|].
    split; [apply C; reflexivity|split; [vm_compute; reflexivity|split; [vm_compute; reflexivity|vm_compute; reflexivity]]]. }
  vm_compute. reflexivity.
Qed.
Print Assumptions C120_repeated_refuted.
