(** C143, C144: what a failing test changes, and what its dependents get. *)
From Coq Require Import Lia.
From Verif Require Import RunCaseSpec PyStrFacts RunCaseProofs RunnerProofs RunCaseProps ReviewProofs CaseRunFacts CaseRunProps TokenizerProps.
From Verif Require Import FuncTestModel FuncFailModel FuncTestProps.
From Verif Require FuncModel JsonSpec JsonFacts.

(** the files that the run of a failing test [n] may change: O/n.md, O/n.txt, O/n.log and everything in O/n and O/n.tmp *)
Definition own_output (O n p : str) : Prop :=
  (exists x, In x [lit ".md"; lit ".txt"; lit ".log"] /\ p = O ++ SLASH :: n ++ x) \/
  (exists x t, In x [[]; lit ".tmp"] /\ p = O ++ SLASH :: n ++ x ++ SLASH :: t).

Section Fail.
Variable cc : CharClass.
Hypothesis TOK : TokClassOK cc.
Variable refloat : str -> option str.
Variables E O : str.
Hypothesis HE : plain_dir E.
Hypothesis HO : plain_dir O.
Variable c : config.
Variable body : str -> fs -> body_run.
Variable n : str.
Hypothesis P : proper n.
Let W := own_output O n.

Lemma own_file x : In x [lit ".md"; lit ".txt"; lit ".log"] -> W (O ++ SLASH :: n ++ x).
Proof. intros H. left. eauto. Qed.
Lemma own_below x p : In x [[]; lit ".tmp"] -> below (O ++ SLASH :: n ++ x) p = true -> W p.
Proof. intros H B. apply below_iff in B as [r ->]. right. exists x, r. split; [exact H|]. repeat (rewrite <- app_assoc || cbn [app]). reflexivity. Qed.

Lemma fail_start f : changes_only W f (case_start E O n f).
Proof.
  unfold case_start. rewrite !(case_path_eq O) by (exact HO || exact P).
  apply co_bind; [apply co_purge; intros p B; apply (own_below []); [now left|exact B]|]. intros _ g1.
  apply co_bind; [apply co_purge; intros p B; apply (own_below (lit ".tmp")); [right; now left|exact B]|]. intros _ g2.
  apply co_bind; [apply co_open, own_file; now left|]. intros _ g3.
  apply co_bind; [apply co_open, own_file; right; now left|]. intros _ g4.
  apply co_bind; [apply co_open, own_file; right; right; now left|]. intros _ g5.
  destruct (path_exists _ f); [|apply co_ret]. destruct (lookup _ g5); [apply co_ret|apply co_raise].
Qed.
Lemma fail_files b s f p : ~ W p -> lookup p (case_files O n b s f) = lookup p f.
Proof.
  intros N. unfold case_files. rewrite !(case_path_eq O) by (exact HO || exact P).
  rewrite (co_write W _ _ _ (own_file (lit ".txt") (or_intror (or_introl eq_refl))) p N).
  rewrite (co_write W _ _ _ (own_file (lit ".md") (or_introl eq_refl)) p N).
  rewrite (co_write W _ _ _ (own_file (lit ".log") (or_intror (or_intror (or_introl eq_refl)))) p N).
  rewrite (co_write_below W (O ++ SLASH :: n ++ lit ".tmp") _ (fun q => own_below (lit ".tmp") q (or_intror (or_introl eq_refl))) _ p N).
  exact (co_write_below W (O ++ SLASH :: n ++ []) _ (fun q => own_below [] q (or_introl eq_refl)) _ p N).
Qed.

(** a case whose verdict is FAIL, or that raises before its body runs *)
Lemma fail_case answers f x :
  run_case cc refloat E O c body n answers f = Some x ->
  (forall snapshot f1 s, case_start E O n f = Ret snapshot f1 ->
     run_body cc refloat snapshot (point_error_pos c) (all_ops (body n f1)) = Some s ->
     verdict (path_exists (case_path E n (lit ".md")) (case_files O n (body n f1) s f1)) s = FAIL) ->
  changes_only W f x /\ ((exists g, x = Raise g) \/ exists req rest g, x = Ret (FAIL, req, rest) g /\ req <> FREEZE).
Proof.
  intros H V. unfold run_case in H. pose proof (fail_start f) as SC. destruct (case_start E O n f) as [snapshot f1|f1] eqn:S; cbn [run_bind] in H.
  2: { injection H as <-. split; [exact SC|]. left. eauto. }
  destruct (run_body _ _ _ _ _) as [s|] eqn:RB in H; [|discriminate]. rewrite (V snapshot f1 s eq_refl RB) in H.
  rewrite base_review in H by (exact HE || exact HO || exact P).
  assert (F2 : forall p, ~ W p -> lookup p (case_files O n (body n f1) s f1) = lookup p f).
  { intros p N. rewrite fail_files by exact N. exact (SC p N). }
  destruct (fail_untouched E O n c answers (case_files O n (body n f1) s f1)) as [R|(r & rest & R & NF)]; rewrite R in H; cbn [run_bind] in H; injection H as <-.
  - split; [exact F2|]. left. eauto.
  - split; [exact F2|]. right. eauto.
Qed.

Lemma ends_fail answers f req rest g :
  run_case cc refloat E O c body n answers f = Some (Ret (FAIL, req, rest) g) ->
  (forall snapshot f1 s, case_start E O n f = Ret snapshot f1 ->
     run_body cc refloat snapshot (point_error_pos c) (all_ops (body n f1)) = Some s ->
     verdict (path_exists (case_path E n (lit ".md")) (case_files O n (body n f1) s f1)) s = FAIL).
Proof.
  intros H snapshot f1 s S RB. unfold run_case in H. rewrite S in H. cbn [run_bind] in H. rewrite RB in H.
  set (v := verdict _ s) in *. rewrite base_review in H by (exact HE || exact HO || exact P).
  destruct (case_review_cases E O n v c answers (case_files O n (body n f1) s f1)) as [(r & rs & _ & [[_ R]|(_ & _ & R)])|(_ & _ & R)]; rewrite R in H.
  - destruct (freeze_case _ _ _ _) as [u f3|f3]; cbn [io_bind run_bind] in H; [|discriminate].
    destruct (save_value _ _ _ _); cbn [io_bind] in H; discriminate.
  - cbn [run_bind] in H. destruct v; try reflexivity; destruct (save_value _ _ _ _); cbn [io_bind] in H; discriminate.
  - discriminate.
Qed.

Lemma raises_fail f snapshot f1 s m tb : b_exc (body n f1) = Some (m, tb) -> nul_free m -> nul_free tb ->
  case_start E O n f = Ret snapshot f1 ->
  run_body cc refloat snapshot (point_error_pos c) (all_ops (body n f1)) = Some s -> forall ex, verdict ex s = FAIL.
Proof.
  intros B N1 N2 _ RB ex. unfold all_ops in RB. rewrite B in RB. unfold run_body in RB. rewrite exec_all_app in RB.
  destruct (exec_all cc refloat (b_ops (body n f1)) _) as [s0|] eqn:R0; cbn [bind] in RB; [|discriminate].
  destruct (C09_exception_fails cc TOK refloat _ _ _ s0 m tb ex R0 N1 N2) as (s' & R1 & V). rewrite R1 in RB. now injection RB as <-.
Qed.
End Fail.

(** *** C143. A test that ends with FAIL *)
Theorem C143_failing_test :
  forall cc refloat E O c body n answers f req rest g,
  plain_dir E -> plain_dir O -> proper n ->
  run_case cc refloat E O c body n answers f = Some (Ret (FAIL, req, rest) g) ->
  req <> FREEZE /\ (forall p, ~ own_output O n p -> lookup p g = lookup p f) /\
  lookup (O ++ SLASH :: n ++ lit ".bin") g = lookup (O ++ SLASH :: n ++ lit ".bin") f /\
  (forall p, (forall t, p <> O ++ SLASH :: t) -> lookup p g = lookup p f).
Proof.
  intros cc refloat E O c body n answers f req rest g HE HO P H.
  destruct (fail_case cc refloat E O HE HO c body n P answers f _ H) as [CH [[g' X]|(r & rs & g' & X & NF)]]; [|discriminate|].
  { exact (ends_fail cc refloat E O HE HO c body n P answers f req rest g H). }
  injection X as -> -> ->. split; [exact NF|]. split; [exact CH|]. split.
  - apply CH. intros [(x & I & Q)|(x & t & I & Q)]; apply app_inv_head in Q; injection Q as Q; apply app_inv_head in Q.
    + destruct I as [<-|[<-|[<-|[]]]]; discriminate.
    + destruct I as [<-|[<-|[]]]; discriminate.
  - intros p N. apply CH. intros [(x & _ & Q)|(x & t & _ & Q)]; exact (N _ Q).
Qed.
Print Assumptions C143_failing_test.

(** A test that raises ends with FAIL, or the run ends because the input does or because the files of the test cannot be opened. *)
Theorem C143_raising_test :
  forall cc, TokClassOK cc -> forall refloat E O c body n answers f x,
  plain_dir E -> plain_dir O -> proper n ->
  (forall h, exists m tb, b_exc (body n h) = Some (m, tb) /\ nul_free m /\ nul_free tb) ->
  run_case cc refloat E O c body n answers f = Some x ->
  ((exists g, x = Raise g) \/ exists req rest g, x = Ret (FAIL, req, rest) g /\ req <> FREEZE) /\
  forall p, ~ own_output O n p -> lookup p (fs_of x) = lookup p f.
Proof.
  intros cc TOK refloat E O c body n answers f x HE HO P B H.
  destruct (fail_case cc refloat E O HE HO c body n P answers f _ H) as [CH R]; [|now split].
  intros snapshot f1 s S RB. destruct (B f1) as (m & tb & B1 & N1 & N2).
  exact (raises_fail cc TOK refloat E O c body n f snapshot f1 s m tb B1 N1 N2 S RB _).
Qed.
Print Assumptions C143_raising_test.

(** *** C144. The stored value after a test: that of the latest execution which did not fail. *)
Theorem C144_stored_value_exact :
  forall cc, TokClassOK cc -> forall refloat E O c body n answers f res req rest g,
  plain_dir E -> plain_dir O -> proper n ->
  (forall h m tb, b_exc (body n h) = Some (m, tb) -> nul_free m /\ nul_free tb) ->
  run_case cc refloat E O c body n answers f = Some (Ret (res, req, rest) g) ->
  let stored := lookup (O ++ SLASH :: n ++ lit ".bin") in
  (res = FAIL -> stored g = stored f) /\
  (res <> FAIL -> exists snapshot h, case_start E O n f = Ret snapshot h /\ b_exc (body n h) = None /\ stored g = b_value (body n h)).
Proof.
  intros cc TOK refloat E O c body n answers f res req rest g HE HO P B H stored. split.
  - intros ->. now destruct (C143_failing_test cc refloat E O c body n answers f req rest g HE HO P H) as (_ & _ & X & _).
  - intros NF. pose proof H as H0. unfold run_case in H. destruct (case_start E O n f) as [snapshot h|h] eqn:S; cbn [run_bind] in H; [|discriminate].
    destruct (run_body _ _ _ _ _) as [s|] eqn:RB in H; [|discriminate].
    assert (BE : b_exc (body n h) = None).
    { destruct (b_exc (body n h)) as [[m tb]|] eqn:BE; [|reflexivity]. exfalso. destruct (B h m tb BE) as [N1 N2].
      destruct (fail_case cc refloat E O HE HO c body n P answers f _ H0) as [_ [[g' X]|(r & rs & g' & X & _)]]; [|discriminate|injection X as -> _ _ _; now apply NF].
      intros sn h' s' S' RB'. rewrite S in S'. injection S' as <- <-.
      exact (raises_fail cc TOK refloat E O c body n f snapshot h s' m tb BE N1 N2 S RB' _). }
    exists snapshot, h. split; [reflexivity|]. split; [exact BE|]. rewrite BE in H.
    destruct (case_review _ _ _ _ _ _ _) as [[[res1 req1] a1] f3|f3]; cbn [run_bind] in H; [|discriminate].
    assert (SV : exists u, save_value O n (b_value (body n h)) f3 = Ret u g).
    { destruct res1; try (injection H as <- _ _ _; now destruct NF); destruct (save_value O n (b_value (body n h)) f3) as [u f4|f4]; cbn [io_bind] in H; try discriminate; injection H as _ _ _ <-; eauto. }
    destruct SV as [u SV]. unfold save_value in SV. replace (path_join O (n ++ lit ".bin")) with (O ++ SLASH :: n ++ lit ".bin") in SV.
    2: { symmetry. apply path_join_plain; try apply HO. pose proof (proper_start n P) as X. pose proof (proper_nonempty n P). destruct n; [easy|exact X]. }
    unfold stored. destruct (b_value (body n h)) as [t|].
    + destruct (is_dir _ f3); [discriminate|]. injection SV as _ <-. rewrite lookup_write. destruct (str_eqb_spec (O ++ SLASH :: n ++ lit ".bin") (O ++ SLASH :: n ++ lit ".bin")); [reflexivity|easy].
    + unfold path_exists, is_file in SV. destruct (lookup _ f3) eqn:L in SV; cbn [orb] in SV.
      * injection SV as _ <-. rewrite lookup_remove. destruct (str_eqb_spec (O ++ SLASH :: n ++ lit ".bin") (O ++ SLASH :: n ++ lit ".bin")); [reflexivity|easy].
      * destruct (is_dir _ f3); [discriminate|]. injection SV as _ <-. exact L.
Qed.
Print Assumptions C144_stored_value_exact.

(** So a dependent that runs right after its dependency has failed passes with the value of an earlier run. *)
Definition dep_body (n : str) (f : fs) : body_run :=
  if str_eqb n (lit "t/dep")
  then {| b_ops := []; b_exc := Some (lit "boom", lit "trace"); b_files := []; b_tmp := []; b_log := []; b_value := None |}
  else {| b_ops := [OTln (match lookup (lit "books/.out/t/dep.bin") f with Some v => lit "got " ++ v | None => lit "nothing" end)];
          b_exc := None; b_files := []; b_tmp := []; b_log := []; b_value := None |}.
Definition dep_f : fs := [(lit "books/t/user.md", lit "got old" ++ [NL]); (lit "books/.out/t/dep.bin", lit "old")].
Definition dep_case := run_case ascii_class no_float (lit "books") (lit "books/.out") (demo_conf false) dep_body.
Theorem C144_no_stale_value_refuted :
  exists g1 g2, dep_case (lit "t/dep") [] dep_f = Some (Ret (FAIL, NONE, []) g1) /\
    dep_case (lit "t/user") [] g1 = Some (Ret (OK, NONE, []) g2) /\
    lookup (lit "books/.out/t/user.md") g2 = Some (lit "got old" ++ [NL]).
Proof. do 2 eexists. split; [vm_compute; reflexivity|]. split; vm_compute; reflexivity. Qed.
Print Assumptions C144_no_stale_value_refuted.
Theorem C144_no_stale_value_partial :
  forall cc, TokClassOK cc -> forall refloat E O c body n answers f res req rest g,
  plain_dir E -> plain_dir O -> proper n ->
  (forall h m tb, b_exc (body n h) = Some (m, tb) -> nul_free m /\ nul_free tb) ->
  run_case cc refloat E O c body n answers f = Some (Ret (res, req, rest) g) -> res <> FAIL ->
  exists snapshot h, case_start E O n f = Ret snapshot h /\ lookup (O ++ SLASH :: n ++ lit ".bin") g = b_value (body n h).
Proof.
  intros cc TOK refloat E O c body n answers f res req rest g HE HO P B H NF.
  destruct (C144_stored_value_exact cc TOK refloat E O c body n answers f res req rest g HE HO P B H) as [_ X]. destruct (X NF) as (sn & h & S & _ & V). eauto.
Qed.
Print Assumptions C144_no_stale_value_partial.

(** A recorded result that cannot be written makes the test raise, whatever else happened in it. *)
Lemma all_of_none {A B} (g : A -> option B) l : (exists x, In x l /\ g x = None) ->
  exists pre x post vs, l = pre ++ x :: post /\ all_of (map g pre) = Some vs /\ g x = None.
Proof.
  induction l as [|a l IH]; intros (x & I & G); [destruct I|]. destruct (g a) as [v|] eqn:Ga.
  - destruct I as [->|I]; [congruence|]. destruct (IH (ex_intro _ x (conj I G))) as (pre & y & post & vs & -> & V & Y).
    exists (a :: pre), y, post, (v :: vs). split; [reflexivity|]. split; [|exact Y]. cbn [map all_of]. now rewrite Ga, V.
  - exists [], a, l, []. auto.
Qed.

Lemma all_of_unwritable {A B} (g : A -> option B) l vs : all_of (map g l) = Some vs -> forall x, In x l -> g x <> None.
Proof.
  revert vs. induction l as [|a l IH]; intros vs H x []; cbn [map all_of] in H; destruct (g a) eqn:Ga; try discriminate.
  - subst. congruence.
  - destruct (all_of (map g l)) eqn:L; [|discriminate]. now apply (IH _ eq_refl).
Qed.

Theorem C143_unwritable_result :
  forall sha1 refloat (X : Type) capture refresh listing (T : func_test X) cs os used loaded ks calls hos lines,
  read_all sha1 refloat refresh listing = Some loaded ->
  all_of (map (hashed sha1 X) cs) = Some ks ->
  FuncModel.run_calls held X capture loaded [] ks = (calls, hos, used) ->
  os = map (result_of X) hos -> calling T (map fst cs) os -> listed_lines calls = Some lines ->
  (exists h args r, In (h, (args, r)) calls /\ ~ JsonSpec.writable r) ->
  (forall b, ~ func_run sha1 refloat X capture refresh listing T cs os b used) /\
  forall exc, (exists b, func_run_raises sha1 refloat X capture refresh listing T cs os b used exc) /\
    forall b, func_run_raises sha1 refloat X capture refresh listing T cs os b used exc -> b_exc b = Some exc.
Proof.
  intros sha1 refloat X capture refresh listing T cs os used loaded ks calls hos lines R K C EO CA L (h & args & r & I & NW).
  assert (NF : held_file (args, r) = None).
  { unfold held_file. destruct (dumps _ _ _) as [t|] eqn:D; [|reflexivity]. exfalso. apply NW.
    assert (WR : JsonSpec.writable (JDict [(JKStr (lit "call"), JDict (fst (args, r))); (JKStr (lit "result"), snd (args, r))])) by (apply (JsonFacts.dumps_writable _ (Some 4) 0); eauto).
    cbn [JsonSpec.writable fold_right fst snd] in WR. tauto. }
  split.
  - intros b (loaded' & ks' & calls' & hos' & lines' & files & R' & K' & C' & _ & _ & _ & ST & _).
    rewrite R in R'. injection R' as <-. rewrite K in K'. injection K' as <-. rewrite C in C'. injection C' as <- _ .
    unfold stored in ST. apply (all_of_unwritable _ _ _ ST (h, (args, r)) I). cbn [snd]. now rewrite NF.
  - intros exc. split; [|intros b (? & ? & ? & ? & ? & ? & _ & _ & _ & _ & _ & _ & _ & ->); reflexivity].
    destruct (all_of_none (fun e : str * held => option_map (fun t => (lit ".functions/" ++ fst e ++ lit ".json", t)) (held_file (snd e))) calls) as (pre & [h0 e0] & post & vs & EC & V & N0).
    { exists (h, (args, r)). split; [exact I|]. cbn [snd]. now rewrite NF. }
    eexists. exists loaded, ks, calls, hos, lines, (vs ++ [(lit ".functions/" ++ h0 ++ lit ".json", [])]). do 6 (split; [assumption|]). split; [|reflexivity].
    exists pre, h0, e0, post, vs, []. split; [exact EC|]. split; [exact V|]. split; [|reflexivity]. cbn [snd] in N0. now destruct (held_file e0).
Qed.
Print Assumptions C143_unwritable_result.

(** A test that records a result which is no JSON, run with -a and -u: it fails, its snapshot, its recording and the value for its dependents stay. *)
Definition bad_b : body_run :=
  with_raise (f_does caller (snd (fst (frun true true [] caller fcs)))) [lit " * f - x"] [(lit ".functions/x.json", lit "{")] (lit "not serializable", lit "trace").
Definition fail_f : fs :=
  [(lit "books/t/a.md", lit "old"); (lit "books/t/a/.functions/x.json", lit "{}"); (lit "books/.out/t/a.bin", lit "value"); (lit "books/.out/t/a/y", lit "y")].
Definition fail_conf : config :=
  {| always_interactive := false; interactive := false; update := true; accept := true; cont := false; fail_fast := false; point_error_pos := true |}.
Definition fail_x := run_case ascii_class no_float (lit "books") (lit "books/.out") fail_conf (fun _ _ => bad_b) (lit "t/a") [] fail_f.
Example C143_example :
  verdict_of fail_x = Some FAIL /\
  map (fun p => lookup (lit p) (after fail_x))
    ["books/t/a.md"; "books/t/a/.functions/x.json"; "books/.out/t/a.bin"; "books/.out/t/a/.functions/x.json"; "books/.out/t/a/y"]%string =
    [Some (lit "old"); Some (lit "{}"); Some (lit "value"); Some (lit "{"); None].
Proof. split; vm_compute; reflexivity. Qed.
(** a result that cannot be written *)
Example C143_unwritable_example :
  exists calls hos used, FuncModel.run_calls held unit true [] []
      (match all_of (map (hashed letter_sha1 unit) [(call_f (JInt 1), inl JOther)]) with Some k => k | None => [] end) = (calls, hos, used) /\
    (exists h args r, In (h, (args, r)) calls /\ ~ JsonSpec.writable r) /\ listed_lines calls <> None.
Proof.
  do 3 eexists. split; [vm_compute; reflexivity|]. split; [|vm_compute; discriminate]. do 3 eexists. split; [now left|]. intros [].
Qed.
