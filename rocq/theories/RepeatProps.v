(** C12: an accepted test passes when it is repeated (booktest/testcaserun.py, booktest/tokenizer.py; review.py:85-98 freeze_case
    moves the output file over the snapshot, see FsProps). *)
From Verif Require Import PyStrFacts TokenizerSpec TokenizerProofs TokenizerProps CaseRunProofs CaseRunFacts CaseRunLines CaseRunProps ReaderProofs
  SectionProofs SectionProps TsetProofs RepeatModel RepeatProofs.
From Coq Require Import Lia.

(** ** What the pieces write *)
Lemma row_text cc cols i : concat (row_pieces cc cols i) = table_row cc cols i.
Proof.
  unfold row_pieces, table_row. rewrite !concat_app. cbn [concat line_pieces app]. rewrite ?app_nil_r. f_equal. f_equal.
  induction cols as [|col cols IH]; [reflexivity|]. cbn [flat_map]. rewrite concat_app. f_equal; [|exact IH]. cbn [concat]. unfold ljust. rewrite app_nil_r, <- app_assoc. reflexivity.
Qed.
Lemma items_text p items : concat (flat_map (fun i => line_pieces (p ++ i)) items) = lines_text (map (fun i => p ++ i) items).
Proof.
  induction items as [|i items IH]; [reflexivity|]. cbn [flat_map map lines_text]. fold (lines_text (map (fun i => p ++ i) items)). rewrite concat_app, IH.
  cbn [concat line_pieces]. rewrite app_nil_r. reflexivity.
Qed.
Lemma rows_text cc cols l : concat (flat_map (row_pieces cc cols) l) = flat_map (table_row cc cols) l.
Proof. induction l as [|i l IH]; [reflexivity|]. cbn [flat_map]. now rewrite concat_app, row_text, IH. Qed.

Lemma op_pieces_text cc st o a next w : repeatable_op a o next -> op_writes cc st o w -> w = concat (op_pieces cc st o).
Proof.
  destruct o as [x|x|x|x| | |x|x|h|lv ti|k v|items p|items p|cols rows|v u|ov msg v|c m|ti c m|n|ok b e]; cbn [repeatable_op]; intros HO HW; try contradiction; cbn [op_writes op_pieces] in *.
  1-6: subst w; cbn [concat line_pieces]; now rewrite ?app_nil_r.
  - subst w. unfold header_text. destruct st; cbn [app concat line_pieces]; rewrite ?app_nil_r; reflexivity.
  - subst w. unfold header_text. destruct st; cbn [app concat line_pieces]; rewrite ?app_nil_r; reflexivity.
  - subst w. cbn [concat line_pieces app]. now rewrite ?app_nil_r.
  - subst w. symmetry. apply items_text.
  - subst w. symmetry. apply items_text.
  - subst w. unfold table_text. rewrite !concat_app, rows_text. cbn [concat line_pieces]. rewrite ?app_nil_r, <- !app_assoc. reflexivity.
  - destruct c; [|contradiction]. subst w. reflexivity.
  - destruct c; [|contradiction]. subst w. cbn [concat line_pieces app]. rewrite <- !app_assoc. reflexivity.
  - subst w. reflexivity.
  - subst w. reflexivity.
Qed.
Lemma written_pieces cc ops : forall a b, repeatable cc a ops -> written cc a ops b -> b = a ++ concat (ops_pieces cc a ops).
Proof.
  induction ops as [|o ops IH]; intros a b HO H; inversion H; subst.
  - now rewrite app_nil_r.
  - cbn [repeatable ops_pieces] in *. destruct HO as [HO HOs]. pose proof (op_pieces_text cc _ o _ _ _ HO H3) as E. subst w.
    apply IH in H5; [|exact HOs]. rewrite H5, concat_app, <- app_assoc. reflexivity.
Qed.

(** C12. Suppose the calls of a test write the same whatever the snapshot is and seek only lines that they write there
    ([repeatable]), and that every piece ends on a token boundary ([well_pieced]). Then after any first run, with or without a
    snapshot, whose output has no carriage return, a second run against that output returns, writes the same and is OK.
    Missing from the full property: calls outside [repeatable] and pieces that glue, for which it fails (below). *)
Theorem C12_repeat_partial :
  forall cc, TokClassOK cc -> forall refloat old point point2 ops ts s1,
  run_body cc refloat old point ops = Some s1 ->
  ~ In CR (out s1) -> repeatable cc [] ops ->
  piece_tokens cc (ops_pieces cc [] ops) = Some ts -> well_pieced cc ts ->
  exists s2, run_body cc refloat (Some (out s1)) point2 ops = Some s2 /\
    verdict true s2 = OK /\ diffs s2 = 0 /\ errors s2 = 0 /\ out s2 = out s1 /\ out_line s2 = out_line s1.
Proof.
  intros cc TOK refloat old point point2 ops ts s1 H1 HCR HO HP HW.
  destruct (run_body_written cc TOK refloat _ _ _ _ H1) as (W & N & E). pose proof (written_pieces cc ops [] _ HO W) as ET. cbn [app] in ET.
  rewrite <- (piece_tokens_concat cc TOK _ _ HP) in ET.
  assert (GOOD : Forall (fun u : str => u <> [] /\ (In NL u -> u = [NL])) ts).
  { clear -TOK HP. revert ts HP. induction (ops_pieces cc [] ops) as [|p ps IH]; intros ts HP; cbn [piece_tokens] in HP; [injection HP as <-; constructor|].
    destruct (tokenize cc p) as [tp|] eqn:Tp; [|discriminate]. destruct (piece_tokens cc ps) as [w|]; [|discriminate]. injection HP as <-. apply Forall_app. split; [|now apply IH].
    apply tokenize_iff in Tp; [|exact TOK]. clear -Tp TOK. induction Tp as [|t r ts Ht _ IH]; constructor; [|exact IH]. split; [now apply (token_nonempty cc t r)|].
    apply (token_chars cc TOK t r Ht). }
  destruct (tlines_text ts []) as (r & ER & GR). cbn [app concat] in ER, GR. destruct GR as [NR NF]; [|constructor|].
  { eapply Forall_impl; [|exact GOOD]. cbn. tauto. }
  assert (EO : out s1 = lines_text (map (@concat char) (tlines [] ts)) /\ out_line s1 = r).
  { apply split_unique; auto; [|now rewrite ET]. clear. destruct (map _ _) as [|l ls]; [now left|]. right.
    destruct (exists_last (l := l :: ls) ltac:(discriminate)) as (ls' & l' & ->). rewrite lines_text_snoc. eexists. rewrite app_assoc. reflexivity. }
  destruct EO as [EO EL].
  set (t := lines_text (map (@concat char) (tlines [] ts))) in *.
  assert (LN : rlines t = map (@concat char) (tlines [] ts)) by (apply rlines_text; exact NF).
  assert (SR : Rel cc (Some t) a0 (start cc (Some (out s1)) point2)).
  { pose proof (start_Rel cc (Some (out s1)) point2) as R. cbn [option_map] in R. rewrite univ_newlines_id in R by exact HCR. now rewrite EO in R at 1. }
  destruct (ops_in_step cc TOK refloat ts HW GOOD LN NF ops [] a0 _ ts SR) as (s2 & a2 & E2 & R2 & I2); auto.
  { repeat split; auto. }
  exists s2. assert (RUN2 : run_body cc refloat (Some (out s1)) point2 ops = Some s2) by exact E2.
  split; [exact RUN2|]. destruct I2 as (_ & I2 & I3 & _). pose proof (R_acc _ _ _ _ R2) as ACC.
  assert (D0 : diffs s2 = 0) by (rewrite (acc_diffs _ _ ACC); exact I2). assert (F0 : errors s2 = 0) by (rewrite (acc_errors _ _ ACC); exact I3).
  split; [unfold verdict; now rewrite D0, F0|]. split; [exact D0|]. split; [exact F0|].
  destruct (run_body_written cc TOK refloat _ _ _ _ RUN2) as (W2 & N2 & X2). pose proof (written_pieces cc ops [] _ HO W2) as ET2. cbn [app] in ET2.
  apply split_unique; auto. rewrite ET2, <- (piece_tokens_concat cc TOK _ _ HP). symmetry. exact ET.
Qed.
Print Assumptions C12_repeat_partial.

(** ** Token boundaries, seen from the characters *)
(** the text [a] may be followed by [b] in a separate call *)
Definition abuts (cc : CharClass) (a b : str) : Prop := forall a' x y b', a = a' ++ [x] -> b = y :: b' ->
  (blank x -> ~ blank y) /\ (alnum cc x -> ~ alnum cc y /\ y <> DOT) /\ (sign x \/ x = DOT -> ~ digit cc y).

Lemma abuts_tail cc u a b : abuts cc (u ++ a) b -> abuts cc a b.
Proof. intros H a' x y b' -> Eb. apply (H (u ++ a') x y b'); [now rewrite app_assoc|exact Eb]. Qed.
Lemma abuts_last cc a a' x b : abuts cc a b -> a = a' ++ [x] ->
  (blank x -> not_at blank b) /\ (alnum cc x -> not_at (alnum cc) b /\ not_at (fun y => y = DOT) b) /\ (sign x \/ x = DOT -> not_at (digit cc) b).
Proof. intros H E. destruct b as [|y b]; [cbn; tauto|]. destruct (H a' x y b E eq_refl) as (A & B & C). cbn [not_at]. split; [exact A|]. split; [|exact C]. intros K. destruct (B K). now split. Qed.
Lemma Forall_last {A} (P : A -> Prop) l : l <> [] -> Forall P l -> exists l' x, l = l' ++ [x] /\ P x.
Proof. intros Hn F. destruct (exists_last Hn) as (l' & x & ->). exists l', x. split; [reflexivity|]. apply Forall_app in F as [_ F]. now apply Forall_inv in F. Qed.

Lemma token_abuts cc (TOK : TokClassOK cc) u r b : token cc u r -> abuts cc (u ++ r) b -> token cc u (r ++ b).
Proof.
  intros T A.
  assert (NA : forall P, not_at P r -> (r = [] -> not_at P b) -> not_at P (r ++ b)) by (intros P; apply not_at_app).
  assert (FR : ~ fraction_at cc r -> (r = [] -> not_at (fun y => y = DOT) b) -> ~ fraction_at cc (r ++ b)).
  { intros NF NB (d & q & E & D). destruct r as [|c [|c2 r]].
    - cbn in E. subst b. now apply (NB eq_refl).
    - cbn in E. injection E as -> E. destruct (abuts_last cc _ u DOT b A eq_refl) as (_ & _ & K). specialize (K (or_intror eq_refl)). subst b. now apply K.
    - injection E as -> -> E. apply NF. exists d, r. now split. }
  inversion T; subst.
  - apply tok_blanks; auto. apply NA; auto. intros ->. rewrite app_nil_r in A. destruct (Forall_last _ _ H H0) as (l' & x & -> & Bx). now apply (abuts_last cc _ l' x b A).
  - assert (LA : r = [] -> not_at (alnum cc) b /\ not_at (fun y => y = DOT) b).
    { intros ->. rewrite app_nil_r in A. destruct (Forall_last _ _ H0 H1) as (l' & x & -> & Dx). apply (abuts_last cc _ (sg ++ l') x b A); [now rewrite app_assoc|].
      now apply (tco_numeric_alnum _ TOK). }
    apply tok_integer; auto; [|apply FR; auto; intros R; now apply LA]. apply NA; auto. intros R. destruct b as [|y b]; [exact I|]. destruct (LA R) as [L1 _]. cbn in *.
    intros D. apply L1. now apply (tco_numeric_alnum _ TOK).
  - apply tok_decimal; auto. apply NA; auto. intros ->. rewrite app_nil_r in A. destruct (Forall_last _ _ H2 H3) as (l' & x & -> & Dx).
    destruct (abuts_last cc _ (sg ++ ds ++ DOT :: l') x b A) as (_ & K & _); [now rewrite <- !app_assoc|].
    destruct b as [|y b]; [exact I|]. cbn in *. intros D. destruct K as [K _]; [now apply (tco_numeric_alnum _ TOK)|]. apply K. now apply (tco_numeric_alnum _ TOK).
  - apply tok_word; auto. apply NA; auto. intros ->. rewrite app_nil_r in A. destruct (Forall_last (alnum cc) (c :: w) ltac:(discriminate) H0) as (l' & x & E & Ax).
    now apply (abuts_last cc _ l' x b A).
  - apply tok_other; auto. intros S. apply NA; auto. intros ->. rewrite app_nil_r in A. apply (abuts_last cc _ [] c b A eq_refl). now left.
Qed.
Lemma tokenization_abuts cc (TOK : TokClassOK cc) a ta b tb : tokenization cc a ta -> tokenization cc b tb -> abuts cc a b -> tokenization cc (a ++ b) (ta ++ tb).
Proof.
  intros Ha Hb. induction Ha as [|u r ts T _ IH]; intros A; [exact Hb|]. cbn [app]. rewrite <- app_assoc. constructor; [now apply token_abuts|].
  apply IH. now apply abuts_tail in A.
Qed.

(** every piece may be followed by what the next calls write *)
Fixpoint joined (cc : CharClass) (ps : list str) : Prop :=
  match ps with
  | [] => True
  | p :: r => abuts cc p (concat r) /\ joined cc r
  end.
Lemma pieces_tokenization cc (TOK : TokClassOK cc) ps : forall ts, piece_tokens cc ps = Some ts -> joined cc ps -> tokenization cc (concat ps) ts.
Proof.
  induction ps as [|p ps IH]; intros ts H J; cbn [piece_tokens concat joined] in *; [injection H as <-; constructor|].
  destruct (tokenize cc p) as [tp|] eqn:E; [|discriminate]. destruct (piece_tokens cc ps) as [w|] eqn:Ew; [|discriminate]. injection H as <-.
  apply tokenization_abuts; auto; [now apply tokenize_iff|now apply IH|tauto].
Qed.
Lemma token_before_nl cc u r b : token cc u (r ++ b) -> token cc u r.
Proof.
  assert (NA : forall P, not_at P (r ++ b) -> not_at P r) by (intros P; destruct r; [easy|auto]).
  intros T. inversion T; subst; [apply tok_blanks|apply tok_integer|apply tok_decimal|apply tok_word|apply tok_other]; auto.
  intros (d & q & -> & D). apply H3. exists d, (q ++ b). now split.
Qed.
Lemma well_pieced_of cc (TOK : TokClassOK cc) ts : tokenization cc (concat ts) ts -> well_pieced cc ts.
Proof.
  intros H p q ->. apply tokenize_iff; [exact TOK|]. assert (E : p ++ [NL] :: q = (p ++ [[NL]]) ++ q) by now rewrite <- app_assoc. rewrite E in H. clear E.
  remember (p ++ [[NL]]) as a eqn:Ea. clear Ea p. revert H. induction a as [|u a IH]; intros H; [constructor|]. cbn [app concat] in *.
  inversion H as [|u' r ts' T H' E1 E2]; subst. apply app_inv_head in E1. subst r. constructor; [|now apply IH]. rewrite concat_app in T. now apply token_before_nl in T.
Qed.
Lemma pieces_total cc (TOK : TokClassOK cc) ps : Forall (fun p => ~ In NUL p) ps -> exists ts, piece_tokens cc ps = Some ts.
Proof.
  induction 1 as [|p ps Hp _ (w & IH)]; [now exists []|]. destruct (tokenize_total cc TOK p Hp) as [tp Tp]. cbn [piece_tokens]. rewrite Tp, IH. eauto.
Qed.

(** C12 for pieces that abut: between two calls on the same line there is no word, number or blank running on *)
Theorem C12_abutting_partial :
  forall cc, TokClassOK cc -> forall refloat old point point2 ops s1,
  run_body cc refloat old point ops = Some s1 ->
  ~ In CR (out s1) -> repeatable cc [] ops ->
  Forall (fun p => ~ In NUL p) (ops_pieces cc [] ops) -> joined cc (ops_pieces cc [] ops) ->
  exists s2, run_body cc refloat (Some (out s1)) point2 ops = Some s2 /\
    verdict true s2 = OK /\ diffs s2 = 0 /\ errors s2 = 0 /\ out s2 = out s1 /\ out_line s2 = out_line s1.
Proof.
  intros cc TOK refloat old point point2 ops s1 H1 HCR HO HN HJ. destruct (pieces_total cc TOK _ HN) as [ts Hts].
  apply (C12_repeat_partial cc TOK refloat old point point2 ops ts s1); auto. apply well_pieced_of; [exact TOK|].
  pose proof (pieces_tokenization cc TOK _ ts Hts HJ) as T. now rewrite <- (tokenization_concat cc _ _ T) in T.
Qed.
Print Assumptions C12_abutting_partial.

(** ** Tests that write whole lines *)
(** calls that write whole lines in one piece each *)
Definition line_call (o : op) : bool :=
  match o with OTln _ | OIln _ | OAnchorln _ | OHeader _ | OH _ _ | OTlist _ _ | OTset _ _ | OAssertln true _ | OJump _ | OSeek _ _ _ => true | _ => false end.

Lemma abuts_nl_r cc (TOK : TokClassOK cc) a b : abuts cc a (NL :: b).
Proof.
  intros a' x y b' _ E. injection E as <- _. split; [intros _ [Z|Z]; discriminate|]. split.
  - intros _. split; [intros Z; pose proof (tco_nl _ TOK); congruence|discriminate].
  - intros _ Z. apply (tco_numeric_alnum _ TOK) in Z. pose proof (tco_nl _ TOK). congruence.
Qed.
Lemma abuts_nl_l cc (TOK : TokClassOK cc) b : abuts cc [NL] b.
Proof.
  intros a' x y b' E _. destruct a' as [|z a']; [injection E as <-|injection E as _ E; now destruct a'].
  split; [intros [Z|Z]; discriminate|]. split; [intros Z; unfold alnum in Z; pose proof (tco_nl _ TOK); congruence|]. intros [[Z|Z]|Z]; discriminate.
Qed.
Lemma joined_nil_piece cc b : abuts cc [] b.
Proof. intros a' x y b' E. now destruct a'. Qed.
Lemma joined_line cc (TOK : TokClassOK cc) x ps : joined cc ps -> joined cc (line_pieces x ++ ps).
Proof. intros H. cbn [line_pieces app joined concat]. split; [now apply abuts_nl_r|]. split; [now apply abuts_nl_l|exact H]. Qed.
Lemma joined_lines cc (TOK : TokClassOK cc) p items ps : joined cc ps -> joined cc (flat_map (fun i => line_pieces (p ++ i)) items ++ ps).
Proof. intros H. induction items as [|i items IH]; [exact H|]. cbn [flat_map]. rewrite <- app_assoc. now apply joined_line. Qed.
Lemma joined_nl cc (TOK : TokClassOK cc) ps : joined cc ps -> joined cc ([NL] :: ps).
Proof. intros H. split; [now apply abuts_nl_l|exact H]. Qed.
Lemma line_calls_joined cc (TOK : TokClassOK cc) ops : forall a, forallb line_call ops = true -> joined cc (ops_pieces cc a ops).
Proof.
  induction ops as [|o ops IH]; intros a H; [exact I|]. cbn [forallb] in H. apply andb_true_iff in H as [Ho H]. cbn [ops_pieces].
  set (rest := ops_pieces cc _ ops). assert (HJ : joined cc rest) by (apply IH; exact H). clearbody rest.
  destruct o as [x|x|x|x| | |x|x|h|lv ti|k v|items p|items p|cols rows|v u|ov msg v|c m|ti c m|n|ok b e]; try discriminate Ho; cbn [op_pieces];
    try (now apply joined_line); try (now apply joined_lines).
  - rewrite <- !app_assoc. destruct (has_nl a); cbn [app]; [apply joined_nl; [exact TOK|]|]; apply joined_line; auto; now apply joined_line.
  - rewrite <- !app_assoc. destruct (has_nl a); cbn [app]; [apply joined_nl; [exact TOK|]|]; apply joined_line; auto; now apply joined_line.
  - destruct c; [|discriminate Ho]. now apply joined_line.
Qed.

(** C12 for tests that write whole lines: no condition on the texts but that they have no NUL and no carriage return *)
Theorem C12_whole_lines_partial :
  forall cc, TokClassOK cc -> forall refloat old point point2 ops s1,
  run_body cc refloat old point ops = Some s1 ->
  forallb line_call ops = true -> repeatable cc [] ops ->
  ~ In CR (out s1) -> Forall (fun p => ~ In NUL p) (ops_pieces cc [] ops) ->
  exists s2, run_body cc refloat (Some (out s1)) point2 ops = Some s2 /\
    verdict true s2 = OK /\ diffs s2 = 0 /\ errors s2 = 0 /\ out s2 = out s1.
Proof.
  intros cc TOK refloat old point point2 ops s1 H1 HL HO HCR HN.
  destruct (C12_abutting_partial cc TOK refloat old point point2 ops s1 H1 HCR HO HN (line_calls_joined cc TOK ops [] HL)) as (s2 & A & B & C & D & F & _).
  exists s2. repeat (split; [assumption|]). exact F.
Qed.
Print Assumptions C12_whole_lines_partial.

(** The restrictions are needed: without each of them a test can differ from its own accepted output. *)
Definition differs_from_itself (ops : list op) : Prop :=
  exists s1 s2, demo None ops = Some s1 /\ demo (Some (out s1)) ops = Some s2 /\ (verdict true s2 <> OK \/ out s2 <> out s1).
Definition passes_again (ops : list op) : Prop :=
  exists s1 s2, demo None ops = Some s1 /\ demo (Some (out s1)) ops = Some s2 /\ verdict true s2 = OK /\ out s2 = out s1.

Theorem C12_refuted :
  (* two calls write one word *)
  differs_from_itself [OT (lit "a"); OTln (lit "b")] /\
  (* or one number *)
  differs_from_itself [OT (lit "1."); OTln (lit "5")] /\
  differs_from_itself [OT (lit "-"); OTln (lit "5")] /\
  (* or one blank *)
  differs_from_itself [OT (lit "a "); OTln (lit " b")] /\
  (* a carriage return *)
  differs_from_itself [OTln (lit "a" ++ [CR] ++ lit "b")] /\
  (* an anchor in the middle of a line *)
  differs_from_itself [OT (lit "x "); OAnchor (lit "y"); OTln []; OTln (lit "y")] /\
  (* a set with an item twice, two sets with one prefix in a row *)
  differs_from_itself [OTset [lit "a"; lit "a"] (lit " * ")] /\
  differs_from_itself [OTset [lit "a"] (lit " * "); OTset [lit "b"] (lit " * ")] /\
  (* a seek or a jump to another line than the one that is written next *)
  differs_from_itself [OTln (lit "a"); OTln (lit "b"); OSeek (str_eqb (lit "a")) 0 None; OTln (lit "c")] /\
  differs_from_itself [OTln (lit "a"); OTln (lit "b"); OJump 1; OTln (lit "c")] /\
  (* a seek in the middle of a line that finds nothing *)
  differs_from_itself [OTln (lit "a"); OT (lit "b"); OSeek (str_eqb (lit "c")) 0 None; OTln (lit " c")].
Proof.
  unfold differs_from_itself. repeat split; (eexists; eexists; split; [vm_compute; reflexivity|split; [vm_compute; reflexivity|]]);
  ((left; vm_compute; discriminate) || (right; vm_compute; discriminate)).
Qed.
Print Assumptions C12_refuted.

(** ** Deciding the hypotheses *)
Definition line_startb (a : str) : bool := match rev a with [] => true | c :: _ => N.eqb c NL end.
Fixpoint nodupb (l : list str) : bool := match l with [] => true | x :: r => negb (str_mem x r) && nodupb r end.
Definition freeb (c : char) (x : str) : bool := negb (existsb (N.eqb c) x).
Definition repeatable_opb (a : str) (o : op) (next : str) : bool :=
  match o with
  | OT _ | OTln _ | OI _ | OIln _ | OTlist _ _ | OTdf _ _ | OAssertln true _ | OMust _ true _ => true
  | OAnchor _ | OAnchorln _ | OKeyvalueln _ _ => line_startb a
  | OHeader _ | OH _ _ => line_startb a || has_nl a
  | OTset items p => line_startb a && nodupb items && freeb NL p && freeb NUL p && forallb (freeb NL) items && negb (starts_with p next)
  | OJump n => negb (has_nl next) || Nat.eqb n (S (newlines a)) || (match a with [] => true | _ => false end && Nat.eqb n 0)
  | OSeek ok b e => negb (has_nl next) || ok (tail_line a ++ head_line next) || match e with Some m => Nat.leb m (S (newlines a)) | None => false end ||
      (line_startb a && Nat.leb b (S (newlines a)) && match e with None => true | _ => false end && forallb (fun l => negb (ok l)) (ended_lines [] (a ++ next)))
  | _ => false
  end.
Fixpoint repeatableb (cc : CharClass) (a : str) (ops : list op) : bool :=
  match ops with
  | [] => true
  | o :: r => let b := a ++ concat (op_pieces cc (has_nl a) o) in repeatable_opb a o (concat (ops_pieces cc b r)) && repeatableb cc b r
  end.
Lemma line_startb_ok a : line_startb a = true -> line_start a.
Proof.
  unfold line_startb. destruct (rev a) as [|c r] eqn:E; intros H.
  - left. rewrite <- (rev_involutive a), E. reflexivity.
  - right. apply N.eqb_eq in H. subst c. exists (rev r). rewrite <- (rev_involutive a), E. reflexivity.
Qed.
Lemma nodupb_ok l : nodupb l = true -> NoDup l.
Proof.
  induction l as [|x l IH]; intros H; [constructor|]. cbn [nodupb] in H. apply andb_true_iff in H as [H1 H2]. constructor; [|auto].
  apply negb_true_iff in H1. now apply str_mem_not_In.
Qed.
Lemma freeb_ok c x : freeb c x = true -> ~ In c x.
Proof. unfold freeb. intros H I. apply negb_true_iff in H. assert (existsb (N.eqb c) x = true); [|congruence]. apply existsb_exists. exists c. split; [exact I|apply N.eqb_refl]. Qed.
Lemma repeatable_opb_ok a o next : repeatable_opb a o next = true -> repeatable_op a o next.
Proof.
  destruct o as [x|x|x|x| | |x|x|h|lv ti|k v|items p|items p|cols rows|v u|ov msg v|c m|ti c m|n|ok b e]; cbn [repeatable_op repeatable_opb]; intros H; try discriminate H; try exact I;
    try (now apply line_startb_ok); try (destruct c; [exact I|discriminate H]).
  - apply orb_true_iff in H as [H|H]; [left; now apply line_startb_ok|now right].
  - apply orb_true_iff in H as [H|H]; [left; now apply line_startb_ok|now right].
  - repeat (apply andb_true_iff in H; let H' := fresh in destruct H as [H H']). split; [now apply line_startb_ok|]. split; [now apply nodupb_ok|].
    split; [now apply freeb_ok|]. split; [now apply freeb_ok|]. split.
    + apply Forall_forall. intros x Hx. apply freeb_ok. match goal with K : forallb _ _ = true |- _ => rewrite forallb_forall in K; now apply K end.
    + intros [r E]. match goal with K : negb (starts_with _ _) = true |- _ => rewrite E, starts_with_app in K; discriminate K end.
  - intros HN. rewrite HN in H. apply orb_true_iff in H as [H|H]; [left; now apply Nat.eqb_eq|right]. apply andb_true_iff in H as [H1 H2]. apply Nat.eqb_eq in H2. destruct a; [auto|discriminate].
  - intros HN. rewrite HN in H. apply orb_true_iff in H as [H|H]; [apply orb_true_iff in H as [H|H]|].
    + now left.
    + right. left. destruct e as [m|]; [|discriminate]. exists m. split; [reflexivity|now apply Nat.leb_le].
    + right. right. repeat (apply andb_true_iff in H; let H' := fresh in destruct H as [H H']). split; [now apply line_startb_ok|]. split; [now apply Nat.leb_le|].
      split; [now destruct e|]. match goal with K : forallb _ _ = true |- _ => rewrite forallb_forall in K; apply Forall_forall; intros x Hx; now apply negb_true_iff, K end.
Qed.
Lemma repeatableb_ok cc ops : forall a, repeatableb cc a ops = true -> repeatable cc a ops.
Proof.
  induction ops as [|o ops IH]; intros a H; [exact I|]. cbn [repeatableb repeatable] in *. apply andb_true_iff in H as [H1 H2].
  split; [now apply repeatable_opb_ok|now apply IH].
Qed.

(** A test with all kinds of repeatable calls. *)
Definition demo_repeat : list op :=
  [ OH 1 (lit "Title"); OT (lit "count:"); OI (lit " "); OTln (lit "12"); OKeyvalueln (lit "key:") (lit "value");
    OTlist [lit "x"; lit "y"] (lit " * "); OTset [lit "b"; lit "a"] (lit " - "); OTln (lit "then"); OHeader (lit "## Table");
    OTdf [(lit "a", [lit "1"; lit "22"]); (lit "b", [lit "x y"; lit "z"])] 2; OAnchorln (lit "end"); OMust (lit "hold") true None; OAssertln true None;
    OSeek (fun l => starts_with (lit "s") l) 0 None; OT (lit "su"); OJump 20; OTln (lit " m"); OSeek (fun l => starts_with (lit "none") l) 3 None; OSeek (fun l => starts_with (lit "x") l) 5 (Some 9); OTln (lit "z"); OI (lit "tail"); OJump 2 ].
Example C12_example :
  (exists s1, run_body ascii_class no_float None true demo_repeat = Some s1 /\ ~ In CR (out s1)) /\
  repeatable ascii_class [] demo_repeat /\
  (exists ts, piece_tokens ascii_class (ops_pieces ascii_class [] demo_repeat) = Some ts /\ well_pieced ascii_class ts) /\
  passes_again demo_repeat.
Proof.
  split; [|split; [|split]].
  - eexists. split; [vm_compute; reflexivity|]. apply freeb_ok. vm_compute. reflexivity.
  - apply repeatableb_ok. vm_compute. reflexivity.
  - eexists. split; [vm_compute; reflexivity|]. apply well_pieced_of; [exact ascii_TokClassOK|]. apply tokenize_iff; [exact ascii_TokClassOK|]. vm_compute. reflexivity.
  - eexists. eexists. split; [vm_compute; reflexivity|]. split; [vm_compute; reflexivity|]. split; vm_compute; reflexivity.
Qed.
Example C12_whole_lines_example :
  let ops := [OH 1 (lit "A"); OTln (lit "one 1"); OIln (lit "time 3.5"); OTset [lit "b"; lit "a"] (lit " - "); OAssertln true None] in
  forallb line_call ops = true /\ repeatable ascii_class [] ops /\ Forall (fun p => ~ In NUL p) (ops_pieces ascii_class [] ops) /\ passes_again ops.
Proof.
  split; [reflexivity|]. split; [apply repeatableb_ok; vm_compute; reflexivity|]. split.
  - apply Forall_forall. intros x Hx. apply freeb_ok. revert x Hx. apply forallb_forall. vm_compute. reflexivity.
  - eexists. eexists. split; [vm_compute; reflexivity|]. split; [vm_compute; reflexivity|]. split; vm_compute; reflexivity.
Qed.
