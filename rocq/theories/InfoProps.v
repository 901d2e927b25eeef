(** C91: information may change from run to run (booktest/testcaserun.py:510-559, 599-651, 915-932), and C12 for calls that print
    floats. *)
From Verif Require Import PyStrFacts TokenizerSpec TokenizerProofs TokenizerProps CaseRunProofs CaseRunFacts CaseRunLines CaseRunProps ReaderProofs
  SectionProofs SectionProps TsetProofs RepeatModel RepeatProofs RepeatProps InfoModel InfoProofs.
From Coq Require Import Lia.

(** texts of floats and units are on one line *)
Definition floats_ok (o : op) : Prop :=
  match o with OIfloatln v u => one_line (v ++ unit_text u) | OTmsln false _ v => one_line v | _ => True end.

(** Every run is the run of the same calls with the floats written out. *)
Theorem C91_floats_written_out :
  forall cc refloat, (forall x y, refloat x = Some y -> one_line y) -> forall old point ops s,
  Forall floats_ok ops -> run_body cc refloat old point ops = Some s ->
  exists ops0, written_out ops ops0 /\ run_body cc refloat old point ops0 = Some s.
Proof.
  intros cc refloat NUM old point ops s F H. apply (written_out_exists cc refloat NUM); [|exact H].
  eapply Forall_impl; [|exact F]. intros o Ho. destruct o; try exact I. cbn in *. now apply one_line_app in Ho.
Qed.
Print Assumptions C91_floats_written_out.

(** C91. Let [ops1] be the calls of a first run, whatever snapshot there was, and [ops0] the same with the floats written out.
    Suppose they seek only lines that they write there ([repeatable]), write no carriage return and end every piece on a token
    boundary ([well_pieced]). Then a second run against the output of the first is OK with no difference and no failure, even if
    its information is another one: other text in [i] with as many tokens, or anything at the end of a line. *)
Theorem C91_information_may_change :
  forall cc, TokClassOK cc -> forall refloat, (forall x y, refloat x = Some y -> one_line y) ->
  forall old point point2 ops1 ops0 ops2 ts s1,
  run_body cc refloat old point ops0 = Some s1 -> written_out ops1 ops0 -> Forall floats_ok ops1 ->
  ~ In CR (out s1) -> repeatable cc [] ops0 ->
  piece_tokens cc (ops_pieces cc [] ops0) = Some ts -> well_pieced cc ts ->
  alike cc ops1 ops2 ->
  exists s2, run_body cc refloat (Some (out s1)) point2 ops2 = Some s2 /\
    verdict true s2 = OK /\ diffs s2 = 0 /\ errors s2 = 0.
Proof.
  intros cc TOK refloat NUM old point point2 ops1 ops ops2 ts s1 H1 HWO HF HCR HO HP HW HA.
  destruct (run_body_written cc TOK refloat _ _ _ _ H1) as (W & N & E). pose proof (written_pieces cc ops [] _ HO W) as ET. cbn [app] in ET.
  rewrite <- (piece_tokens_concat cc TOK _ _ HP) in ET.
  assert (GOOD : Forall (fun u : str => u <> [] /\ (In NL u -> u = [NL])) ts).
  { clear -TOK HP. revert ts HP. induction (ops_pieces cc [] ops) as [|p ps IH]; intros ts HP; cbn [piece_tokens] in HP; [injection HP as <-; constructor|].
    destruct (tokenize cc p) as [tp|] eqn:Tp; [|discriminate]. destruct (piece_tokens cc ps) as [w|]; [|discriminate]. injection HP as <-. apply Forall_app. split; [|now apply IH].
    apply tokenize_iff in Tp; [|exact TOK]. clear -Tp TOK. induction Tp as [|t r ts Ht _ IH]; constructor; [|exact IH]. split; [now apply (token_nonempty cc t r)|].
    apply (token_chars cc TOK t r Ht). }
  destruct (tlines_text ts []) as (r & ER & GR). cbn [app concat] in ER, GR. destruct GR as [NR NF]; [|constructor|].
  { eapply Forall_impl; [|exact GOOD]. cbn. tauto. }
  assert (EO : out s1 = lines_text (map (@concat char) (tlines [] ts)) /\ out_line s1 = r).
  { apply split_unique; auto; [|now rewrite ET]. clear. destruct (map _ _) as [|l ls]; [now left|]. right.
    destruct (exists_last (l := l :: ls) ltac:(discriminate)) as (ls' & l' & ->). rewrite lines_text_snoc. eexists. rewrite app_assoc. reflexivity. }
  destruct EO as [EO EL].
  set (t := lines_text (map (@concat char) (tlines [] ts))) in *.
  assert (LN : rlines t = map (@concat char) (tlines [] ts)) by (apply rlines_text; exact NF).
  assert (SR : Rel cc (Some t) a0 (start cc (Some (out s1)) point2)).
  { pose proof (start_Rel cc (Some (out s1)) point2) as R. cbn [option_map] in R. rewrite univ_newlines_id in R by exact HCR. now rewrite EO in R at 1. }
  pose proof (alike_matched cc ops1 ops2 HA HF ops HWO) as M.
  destruct (matched_in_step cc TOK refloat NUM ts HW GOOD LN NF ops ops2 M [] a0 _ ts SR) as (s2 & a2 & E2 & R2 & I2); auto.
  { repeat split; auto. }
  exists s2. split; [exact E2|]. destruct I2 as (_ & I2 & I3 & _). pose proof (R_acc _ _ _ _ R2) as ACC.
  assert (D0 : diffs s2 = 0) by (rewrite (acc_diffs _ _ ACC); exact I2). assert (F0 : errors s2 = 0) by (rewrite (acc_errors _ _ ACC); exact I3).
  split; [unfold verdict; now rewrite D0, F0|]. now split.
Qed.
Print Assumptions C91_information_may_change.

(** ** Whole lines *)
(** calls that write whole lines, floats included *)
Definition line_or_float (o : op) : bool :=
  match o with OIfloatln _ _ | OTmsln false _ _ => true | _ => line_call o end.
(** a value and its unit do not end in a blank *)
Definition no_end_blank (x : str) : Prop := forall a c, x = a ++ [c] -> ~ blank c.
Definition ends_ok (o : op) : Prop := match o with OIfloatln v u => no_end_blank (v ++ unit_text u) | _ => True end.

Lemma joined_float cc (TOK : TokClassOK cc) x u w ps : no_end_blank x -> was_text u w -> joined cc ps -> joined cc (x :: line_pieces w ++ ps).
Proof.
  intros HB HW HJ. cbn [joined]. split; [|now apply joined_line].
  destruct HW as [-> |[o ->]]; cbn [line_pieces app concat]; [now apply abuts_nl_r|].
  intros a c y b E1 E2. injection E2 as <- _. split; [intros B _; now apply (HB a c)|]. split.
  - intros _. split; [intros Z; pose proof (eq_trans (eq_sym (tco_sp _ TOK)) Z); discriminate|discriminate].
  - intros _ Z. apply (tco_numeric_alnum _ TOK) in Z. pose proof (eq_trans (eq_sym (tco_sp _ TOK)) Z); discriminate.
Qed.

Lemma ms_end v : no_end_blank (v ++ unit_text (Some (lit "ms"))).
Proof.
  intros a c E. change (v ++ unit_text (Some (lit "ms"))) with (v ++ lit " m" ++ lit "s") in E. rewrite app_assoc in E. apply app_inj_tail in E as [_ <-].
  intros [Z|Z]; discriminate.
Qed.
Lemma written_joined cc (TOK : TokClassOK cc) l l0 : written_out l l0 -> forall a, forallb line_or_float l = true -> Forall ends_ok l -> joined cc (ops_pieces cc a l0).
Proof.
  induction 1 as [|o l m No W IH|v u w l m Hw _ W IH|g v w l m Hw _ W IH]; intros a HL HE; [exact I| | |];
    cbn [forallb] in HL; apply andb_true_iff in HL as [Ho HL]; apply Forall_cons_iff in HE as [He HE].
  - cbn [ops_pieces]. set (rest := ops_pieces cc _ m). assert (HJ : joined cc rest) by (apply IH; assumption). clearbody rest.
    destruct o as [x|x|x|x| | |x|x|h|lv ti|k v|items p|items p|cols rows|v u|ov msg v|c mm|ti c mm|n|ok b e]; try discriminate Ho; cbn [op_pieces];
      try (now apply joined_line); try (now apply joined_lines).
    + rewrite <- !app_assoc. destruct (has_nl a); cbn [app]; [apply joined_nl; [exact TOK|]|]; apply joined_line; auto; now apply joined_line.
    + rewrite <- !app_assoc. destruct (has_nl a); cbn [app]; [apply joined_nl; [exact TOK|]|]; apply joined_line; auto; now apply joined_line.
    + destruct c; [|discriminate Ho]. now apply joined_line.
  - cbn [ops_pieces op_pieces]. rewrite (app_assoc [_] (line_pieces w)). cbn [app]. apply (joined_float cc TOK _ u w); auto.
  - cbn [ops_pieces op_pieces]. rewrite (app_assoc [_] (line_pieces w)). cbn [app]. apply (joined_float cc TOK _ (Some (lit "ms")) w); auto. apply ms_end.
Qed.

(** C91 for tests that write whole lines, floats included: nothing is asked of the texts but that they have no NUL and no
    carriage return. *)
Theorem C91_whole_lines :
  forall cc, TokClassOK cc -> forall refloat, (forall x y, refloat x = Some y -> one_line y) ->
  forall old point point2 ops1 ops2 s1,
  run_body cc refloat old point ops1 = Some s1 ->
  forallb line_or_float ops1 = true -> Forall floats_ok ops1 -> Forall ends_ok ops1 ->
  (forall ops0, written_out ops1 ops0 -> repeatable cc [] ops0) ->
  ~ In CR (out s1) -> ~ In NUL (out s1 ++ out_line s1) ->
  alike cc ops1 ops2 ->
  exists s2, run_body cc refloat (Some (out s1)) point2 ops2 = Some s2 /\
    verdict true s2 = OK /\ diffs s2 = 0 /\ errors s2 = 0.
Proof.
  intros cc TOK refloat NUM old point point2 ops1 ops2 s1 H1 HL HF HE HO HCR HNU HA.
  destruct (C91_floats_written_out cc refloat NUM old point ops1 s1 HF H1) as (ops0 & W & H0). specialize (HO ops0 W).
  destruct (run_body_written cc TOK refloat _ _ _ _ H0) as (WR & _ & _). pose proof (written_pieces cc ops0 [] _ HO WR) as ET. cbn [app] in ET.
  destruct (pieces_total cc TOK (ops_pieces cc [] ops0)) as [ts Hts].
  { apply Forall_forall. intros p Hp I. apply HNU. rewrite ET. apply in_concat. now exists p. }
  apply (C91_information_may_change cc TOK refloat NUM old point point2 ops1 ops0 ops2 ts s1); auto. apply well_pieced_of; [exact TOK|].
  pose proof (pieces_tokenization cc TOK _ ts Hts (written_joined cc TOK ops1 ops0 W [] HL HE)) as T. now rewrite <- (tokenization_concat cc _ _ T) in T.
Qed.
Print Assumptions C91_whole_lines.

(** C12 with floats: the same calls again are OK. (What they print may change: below.) *)
Theorem C12_floats_partial :
  forall cc, TokClassOK cc -> forall refloat, (forall x y, refloat x = Some y -> one_line y) ->
  forall old point point2 ops ops0 ts s1,
  run_body cc refloat old point ops0 = Some s1 -> written_out ops ops0 -> Forall floats_ok ops ->
  ~ In CR (out s1) -> repeatable cc [] ops0 ->
  piece_tokens cc (ops_pieces cc [] ops0) = Some ts -> well_pieced cc ts ->
  exists s2, run_body cc refloat (Some (out s1)) point2 ops = Some s2 /\
    verdict true s2 = OK /\ diffs s2 = 0 /\ errors s2 = 0.
Proof.
  intros cc TOK refloat NUM old point point2 ops ops0 ts s1 H1 HWO HF HCR HO HP HW.
  apply (C91_information_may_change cc TOK refloat NUM old point point2 ops ops0 ops ts s1); auto.
  clear. induction ops; constructor; auto.
Qed.
Print Assumptions C12_floats_partial.

(** ** Examples *)
(** float() on the texts used here *)
Definition demo_float (x : str) : option str :=
  if str_eqb x (lit "0.125") || str_eqb x (lit "2.500") || str_eqb x (lit "3.750") then Some x else None.
Lemma demo_float_ok x y : demo_float x = Some y -> one_line y.
Proof.
  unfold demo_float. destruct (str_eqb_spec x (lit "0.125")) as [-> |]; [intros E; injection E as <-; now apply one_line_lit|].
  destruct (str_eqb_spec x (lit "2.500")) as [-> |]; [intros E; injection E as <-; now apply one_line_lit|].
  destruct (str_eqb_spec x (lit "3.750")) as [-> |]; [intros E; injection E as <-; now apply one_line_lit|discriminate].
Qed.
Lemma one_lineb x : freeb NL x && freeb NUL x = true -> one_line x.
Proof. intros H. apply andb_true_iff in H as [H1 H2]. split; now apply freeb_ok. Qed.

Definition timed (ms total : str) : list op :=
  [ OH 1 (lit "Timing"); OT (lit "loaded in "); OTmsln false [] ms; OT (lit "queries took "); OI total; OTln (lit " seconds");
    OTln (lit "rows: 12"); OT (lit "score "); OIfloatln total None ].
Definition first_calls : list op :=
  [ OH 1 (lit "Timing"); OT (lit "loaded in "); OI (lit "2.500 ms"); OIln []; OT (lit "queries took "); OI (lit "0.125"); OTln (lit " seconds");
    OTln (lit "rows: 12"); OT (lit "score "); OI (lit "0.125"); OIln [] ].
Example C91_example :
  exists s1 s2 ts,
  (* the first run, without a snapshot *)
  run_body ascii_class demo_float None true (timed (lit "2.500") (lit "0.125")) = Some s1 /\
  out s1 = lines_text [lit "# Timing"; []; lit "loaded in 2.500 ms"; lit "queries took 0.125 seconds"; lit "rows: 12"; lit "score 0.125"] /\
  (* the hypotheses of the theorem *)
  written_out (timed (lit "2.500") (lit "0.125")) first_calls /\
  run_body ascii_class demo_float None true first_calls = Some s1 /\
  Forall floats_ok (timed (lit "2.500") (lit "0.125")) /\ ~ In CR (out s1) /\ repeatable ascii_class [] first_calls /\
  piece_tokens ascii_class (ops_pieces ascii_class [] first_calls) = Some ts /\ well_pieced ascii_class ts /\
  alike ascii_class (timed (lit "2.500") (lit "0.125")) (timed (lit "3.750") (lit "12")) /\
  (* the second run, with other timings *)
  run_body ascii_class demo_float (Some (out s1)) true (timed (lit "3.750") (lit "12")) = Some s2 /\
  verdict true s2 = OK /\
  out s2 = lines_text [lit "# Timing"; []; lit "loaded in 3.750 ms (was 2.500 ms)"; lit "queries took 12 seconds"; lit "rows: 12"; lit "score 12 (was 0.125)"].
Proof.
  eexists. eexists. eexists. split; [vm_compute; reflexivity|]. split; [vm_compute; reflexivity|]. split; [|split; [vm_compute; reflexivity|]].
  { do 2 (apply out_same; [exact I|]). refine (out_ms [] (lit "2.500") [] _ _ _ _ _); [now left|split; intros []|]. do 5 (apply out_same; [exact I|]).
    refine (out_float (lit "0.125") None [] _ _ _ _ _); [now left|split; intros []|constructor]. }
  split; [repeat constructor; try exact I; now apply one_lineb|]. split; [apply freeb_ok; vm_compute; reflexivity|].
  split; [apply repeatableb_ok; vm_compute; reflexivity|]. split; [vm_compute; reflexivity|]. split.
  { apply well_pieced_of; [exact ascii_TokClassOK|]. apply tokenize_iff; [exact ascii_TokClassOK|]. vm_compute. reflexivity. }
  split; [|split; [vm_compute; reflexivity|split; vm_compute; reflexivity]].
  unfold timed. do 2 apply alike_same. apply (alike_line _ [_] [_]).
  { exists [], (OTmsln false [] (lit "2.500")). repeat split; [constructor|..]; now apply freeb_ok. }
  { exists [], (OTmsln false [] (lit "3.750")). repeat split; [constructor|..]; now apply freeb_ok. }
  apply alike_same. eapply alike_info; [now apply one_lineb|now apply one_lineb|vm_compute; reflexivity|vm_compute; reflexivity|reflexivity|].
  do 3 apply alike_same. apply (alike_line _ [_] [_]).
  { exists [], (OIfloatln (lit "0.125") None). repeat split; [constructor|..]; now apply freeb_ok. }
  { exists [], (OIfloatln (lit "12") None). repeat split; [constructor|..]; now apply freeb_ok. }
  constructor.
Qed.

(** The number of tokens matters where something is checked behind the information: "1 2" is one blank and one number more. *)
Example C91_example_misaligned :
  let ops n := [OT (lit "took "); OI n; OTln (lit " seconds")] in
  exists s1 s2, demo None (ops (lit "12")) = Some s1 /\ demo (Some (out s1)) (ops (lit "1 2")) = Some s2 /\ verdict true s2 = DIFF /\
    ~ alike ascii_class (ops (lit "12")) (ops (lit "1 2")).
Proof.
  eexists. eexists. split; [vm_compute; reflexivity|]. split; [vm_compute; reflexivity|]. split; [vm_compute; reflexivity|].
  intros A. inversion A as [|o l m A1 E1 E2|x y tx ty l m Cx Cy Tx Ty L A1 E1 E2|f g l m Hf Hg A1 E1 E2].
  - subst. inversion A1 as [|o2 l2 m2 A2 F1 F2|x y tx ty l2 m2 Cx Cy Tx Ty L A2 F1 F2|f g l2 m2 Hf Hg A2 F1 F2].
    + vm_compute in Tx, Ty. injection Tx as <-. injection Ty as <-. discriminate L.
    + destruct Hf as ([|x xs] & o & -> & _ & K); cbn in F1; [injection F1 as -> _; contradiction|].
      injection F1 as _ F1. destruct xs as [|z xs]; cbn in F1; [|discriminate]. injection F1 as -> _. contradiction.
  - destruct Hf as ([|x xs] & o & -> & _ & K); cbn in E1; [injection E1 as -> _; contradiction|discriminate].
Qed.
Example C91_whole_lines_example :
  let first := [OH 1 (lit "Score"); OTln (lit "rows: 12"); OIfloatln (lit "0.125") (Some (lit "s")); OIln (lit "on monday")] in
  let second := [OH 1 (lit "Score"); OTln (lit "rows: 12"); OIfloatln (lit "2.500") (Some (lit "s")); OIln (lit "on the next tuesday")] in
  (exists s1, run_body ascii_class demo_float None true first = Some s1 /\ ~ In CR (out s1) /\ ~ In NUL (out s1 ++ out_line s1)) /\
  forallb line_or_float first = true /\ Forall floats_ok first /\ Forall ends_ok first /\
  (forall ops0, written_out first ops0 -> repeatable ascii_class [] ops0) /\ alike ascii_class first second.
Proof.
  split; [eexists; split; [vm_compute; reflexivity|split; apply freeb_ok; vm_compute; reflexivity]|]. split; [reflexivity|].
  split; [repeat constructor; try exact I; now apply one_lineb|]. split.
  { repeat constructor; try exact I. intros a c E. change (lit "0.125" ++ unit_text (Some (lit "s"))) with (lit "0.125 " ++ lit "s") in E.
    apply app_inj_tail in E as [_ <-]. intros [Z|Z]; discriminate. }
  split.
  - intros ops0 W. repeat match goal with K : written_out _ _ |- _ => inversion K; subst; clear K; try contradiction end.
    cbn [repeatable repeatable_op]. repeat split. left. now left.
  - do 2 apply alike_same. apply (alike_line _ [_] [_]); [| |apply (alike_line _ [_] [_]); [| |constructor]].
    + exists [], (OIfloatln (lit "0.125") (Some (lit "s"))). repeat split; [constructor|..]; now apply freeb_ok.
    + exists [], (OIfloatln (lit "2.500") (Some (lit "s"))). repeat split; [constructor|..]; now apply freeb_ok.
    + exists [], (OIln (lit "on monday")). repeat split; [constructor|..]; now apply freeb_ok.
    + exists [], (OIln (lit "on the next tuesday")). repeat split; [constructor|..]; now apply freeb_ok.
Qed.
