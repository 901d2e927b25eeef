(** A test repeated against its own output keeps in step with it (C12). *)
From Verif Require Import PyStrFacts TokenizerSpec TokenizerProofs CaseRunModel CaseRunSpec ReaderProofs CaseRunProofs CaseRunFacts CaseRunLines
  SectionProofs TsetProofs RepeatModel.
From Coq Require Import Lia.

(** ** Token streams cut into lines *)
Definition is_nl (u : str) : bool := str_eqb u [NL].
Fixpoint tlines (cur : list str) (ts : list str) : list (list str) :=
  match ts with
  | [] => []
  | u :: r => if is_nl u then cur :: tlines [] r else tlines (cur ++ [u]) r
  end.
Definition nls (ts : list str) : nat := length (filter is_nl ts).
Definition cur_of (c : list str) (d : list str) : list str := fold_left (fun c u => if is_nl u then [] else c ++ [u]) d c.

Lemma nls_app a b : nls (a ++ b) = nls a + nls b.
Proof. unfold nls. now rewrite filter_app, app_length. Qed.
Lemma nls_cons u b : nls (u :: b) = (if is_nl u then 1 else 0) + nls b.
Proof. unfold nls. cbn [filter]. destruct (is_nl u); reflexivity. Qed.
Lemma cur_of_app c a b : cur_of c (a ++ b) = cur_of (cur_of c a) b.
Proof. apply fold_left_app. Qed.
Lemma cur_of_cons c u b : cur_of c (u :: b) = cur_of (if is_nl u then [] else c ++ [u]) b.
Proof. reflexivity. Qed.
Lemma cur_of_free us : forall c, Forall (fun u => u <> [NL]) us -> cur_of c us = c ++ us.
Proof.
  induction us as [|u us IH]; intros c H; [now rewrite app_nil_r|]. inversion H as [|? ? H1 H2]; subst. rewrite cur_of_cons. unfold is_nl.
  destruct (str_eqb_spec u [NL]); [congruence|]. rewrite IH by assumption. now rewrite <- app_assoc.
Qed.
Lemma nls_free us : Forall (fun u => u <> [NL]) us -> nls us = 0.
Proof. induction 1 as [|u us H _ IH]; [reflexivity|]. rewrite nls_cons, IH. unfold is_nl. destruct (str_eqb_spec u [NL]); [congruence|reflexivity]. Qed.
Lemma is_nl_NL : is_nl [NL] = true.
Proof. reflexivity. Qed.
Lemma tlines_length ts : forall c, length (tlines c ts) = nls ts.
Proof. induction ts as [|u ts IH]; intros c; [reflexivity|]. cbn [tlines]. rewrite nls_cons. destruct (is_nl u); cbn [length]; now rewrite IH. Qed.
Lemma tlines_nth us b : Forall (fun u => u <> [NL]) us -> forall d c,
  nth_error (tlines c (d ++ us ++ [NL] :: b)) (nls d) = Some (cur_of c d ++ us).
Proof.
  intros Hus. induction d as [|u d IH]; intros c.
  - cbn [app nls filter length cur_of fold_left]. revert c. induction Hus as [|u us Hu _ IH]; intros c.
    + cbn [app tlines]. rewrite is_nl_NL. cbn. now rewrite app_nil_r.
    + cbn [app tlines]. unfold is_nl. destruct (str_eqb_spec u [NL]); [congruence|]. rewrite IH. now rewrite <- app_assoc.
  - rewrite nls_cons. cbn [app tlines]. rewrite cur_of_cons. destruct (is_nl u); cbn [Nat.add nth_error]; apply IH.
Qed.
(** the next line end *)
Lemma next_nl ts : nls ts > 0 -> exists us b, ts = us ++ [NL] :: b /\ Forall (fun u => u <> [NL]) us.
Proof.
  induction ts as [|u ts IH]; [cbn; lia|]. rewrite nls_cons. unfold is_nl. destruct (str_eqb_spec u [NL]) as [-> |Hu].
  - intros _. exists [], ts. split; [reflexivity|constructor].
  - intros H. destruct IH as (us & b & -> & F); [exact H|]. exists (u :: us), b. split; [reflexivity|now constructor].
Qed.
Lemma tlines_text ts : forall c, exists r, concat c ++ concat ts = lines_text (map (@concat N) (tlines c ts)) ++ r /\
  (Forall (fun u => In NL u -> u = [NL]) (c ++ ts) -> Forall (fun u => u <> [NL]) c ->
   ~ In NL r /\ Forall (fun l => ~ In NL l) (map (@concat N) (tlines c ts))).
Proof.
  assert (FR : forall c : list str, Forall (fun u => In NL u -> u = [NL]) c -> Forall (fun u => u <> [NL]) c -> ~ In NL (concat c)).
  { intros c H1 H2 I. apply in_concat in I as (u & Iu & I). rewrite Forall_forall in H1, H2. apply (H2 u Iu). now apply H1. }
  induction ts as [|u ts IH]; intros c.
  - exists (concat c). split; [cbn; now rewrite app_nil_r|]. intros H1 H2. rewrite app_nil_r in H1. split; [now apply FR|constructor].
  - cbn [tlines]. unfold is_nl. destruct (str_eqb_spec u [NL]) as [-> |Hu].
    + destruct (IH []) as (r & E & G). exists r. split.
      * cbn [map lines_text flat_map concat]. fold (lines_text (map (@concat N) (tlines [] ts))). rewrite <- !app_assoc. f_equal. cbn [app]. f_equal. exact E.
      * intros H1 H2. apply Forall_app in H1 as [H1 H3]. inversion H3; subst. destruct G as [G1 G2]; [assumption|constructor|]. split; [exact G1|].
        constructor; [now apply FR|exact G2].
    + destruct (IH (c ++ [u])) as (r & E & G). exists r. split.
      * refine (eq_trans _ E). rewrite concat_app. cbn [concat]. rewrite app_nil_r, <- app_assoc. reflexivity.
      * intros H1 H2. apply G; [rewrite <- app_assoc; exact H1|]. apply Forall_app. split; [exact H2|]. constructor; [exact Hu|constructor].
Qed.

Lemma concat_snoc (us : list str) (x : str) : concat (us ++ [x]) = concat us ++ x.
Proof. rewrite concat_app. cbn [concat]. now rewrite app_nil_r. Qed.

Lemma has_nl_or (a b : str) : has_nl (a ++ b) = has_nl a || has_nl b.
Proof. apply existsb_app. Qed.

Section Repeat.
Variable cc : CharClass.
Hypothesis TOK : TokClassOK cc.
Variable refloat : str -> option str.

Lemma tokenization_suffix a : forall s b, tokenization cc s (a ++ b) -> tokenization cc (concat b) b.
Proof.
  induction a as [|u a IH]; intros s b H.
  - cbn [app] in H. now rewrite (tokenization_concat cc _ _ H).
  - inversion H; subst. eapply IH; eauto.
Qed.
Lemma tokenization_prefix_nl us : tokenization cc (concat us ++ [NL]) (us ++ [[NL]]) -> tokenize cc (concat us) = Some us.
Proof.
  intros H. assert (NN : ~ In NUL (concat us)).
  { intros I. apply tokenization_no_nul in H; [|exact TOK]. apply H. apply in_or_app. now left. }
  destruct (tokenize_total cc TOK (concat us) NN) as [ts Hts]. rewrite Hts. f_equal.
  pose proof (tokenize_app_nl cc TOK (concat us) [] ts [] Hts eq_refl) as E. apply tokenize_iff in E; [|exact TOK].
  pose proof (tokenization_det cc TOK _ _ _ E H) as D. apply app_inj_tail in D. apply D.
Qed.

Variable TS : list str.
Hypothesis WELL : well_pieced cc TS.
Hypothesis GOOD : Forall (fun u => u <> [] /\ (In NL u -> u = [NL])) TS.
Let ls : list str := map (@concat N) (tlines [] TS).
Let t : str := lines_text ls.
Hypothesis LINES : rlines t = ls.
Hypothesis LINES_NL : Forall (fun l => ~ In NL l) ls.

Lemma line_tokens d us b : TS = d ++ us ++ [NL] :: b -> Forall (fun u => u <> [NL]) us ->
  nth_error ls (nls d) = Some (concat (cur_of [] d ++ us)) /\ tokenize cc (concat (cur_of [] d ++ us)) = Some (cur_of [] d ++ us).
Proof.
  intros E F. split.
  - unfold ls. rewrite nth_error_map, E, tlines_nth by exact F. reflexivity.
  - assert (SPL : exists d1, d = d1 ++ cur_of [] d).
    { assert (G : forall e c, exists d1, c ++ e = d1 ++ cur_of c e); [|apply (G d [])]. clear.
      induction e as [|u e IH]; intros c; [exists []; cbn; now rewrite app_nil_r|]. rewrite cur_of_cons.
      destruct (is_nl u).
        + destruct (IH []) as (d1 & E). exists ((c ++ [u]) ++ d1). rewrite <- app_assoc. cbn in E. rewrite <- app_assoc, <- E. reflexivity.
        + destruct (IH (c ++ [u])) as (d1 & E). exists d1. rewrite <- E, <- app_assoc. reflexivity. }
    destruct SPL as [d1 Ed]. set (c := cur_of [] d) in *. clearbody c. subst d. assert (E2 : TS = (d1 ++ c ++ us) ++ [NL] :: b) by (rewrite E, <- !app_assoc; reflexivity).
    apply WELL in E2. apply tokenize_iff in E2; [|exact TOK].
    assert (A3 : (d1 ++ c ++ us) ++ [[NL]] = d1 ++ ((c ++ us) ++ [[NL]])) by (rewrite <- !app_assoc; reflexivity).
    apply (eq_ind _ (fun z => tokenization cc _ z) E2) in A3. clear E2. rename A3 into E2.
    apply (tokenization_suffix d1 _ ((c ++ us) ++ [[NL]])) in E2. apply tokenization_prefix_nl. exact (eq_ind _ (fun z => tokenization cc z _) E2 _ (concat_snoc _ _)).
Qed.

Lemma stream_expected d u r : TS = d ++ u :: r -> nls d < nls TS -> exp_tok cc (Some t) (nls d) (length (cur_of [] d)) = Some u.
Proof.
  intros E Hlt. assert (NL0 : nls (u :: r) > 0) by (rewrite E, nls_app in Hlt; lia).
  destruct (next_nl _ NL0) as (us & b & Eu & F). rewrite Eu in E. destruct (line_tokens d us b E F) as [L K].
  rewrite exp_tok_eq. unfold expected_token. rewrite LINES, L. cbn [option_map].
  rewrite (line_token_nth cc TOK _ _ _ K). rewrite app_nth2, Nat.sub_diag by lia. f_equal. destruct us as [|u' us]; cbn [app nth] in *; now injection Eu.
Qed.

(** ** In step *)
Definition Inv (d : list str) (a : ast) : Prop :=
  length (a_recs a) = nls d /\ ndiffs a = 0 /\ nfails a = 0 /\
  (nls d < nls TS -> a_k a = nls d /\ a_j a = length (cur_of [] d) /\ a_d a = None /\ a_e a = None).

Lemma nlines_TS : nlines (Some t) = nls TS.
Proof. cbn [nlines]. rewrite LINES. unfold ls. rewrite map_length. apply tlines_length. Qed.

Lemma Inv_token d a c u r : TS = d ++ u :: r -> Inv d a -> Inv (d ++ [u]) (astep cc (Some t) a (PTok c u)).
Proof.
  intros E (I1 & I2 & I3 & I4). unfold Inv. rewrite nls_app, nls_cons, cur_of_app. cbn [nls filter length cur_of fold_left]. rewrite Nat.add_0_r.
  cbn [astep]. fold (is_nl u). destruct (Nat.lt_ge_cases (nls d) (nls TS)) as [Hlt|Hge].
  - destruct (I4 Hlt) as (K & J & D0 & E0). rewrite K, J, (stream_expected d u r E Hlt). cbn [has_text token_differs andb]. rewrite str_eqb_refl. cbn [negb andb].
    destruct (is_nl u) eqn:EU; unfold ndiffs, nfails in *; cbn [a_recs a_k a_j a_d a_e].
    + rewrite app_length, !filter_snoc, I1, I2, I3. unfold rec_differs, rec_fails. cbn [lr_diff lr_err length]. rewrite D0, E0. cbn [marked].
      split; [lia|]. split; [lia|]. split; [lia|]. intros _. rewrite nlines_TS. split; [lia|]. auto.
    + repeat split; try lia; auto. rewrite app_length. cbn [length]. lia.
  - assert (NU : is_nl u = false).
    { rewrite E, nls_app, nls_cons in Hge. destruct (is_nl u); [lia|reflexivity]. }
    rewrite NU. unfold ndiffs, nfails in *. cbn [a_recs]. repeat split; auto; lia.
Qed.
Lemma Inv_tokens us : forall d a c r, TS = d ++ us ++ r -> Inv d a -> Inv (d ++ us) (asteps cc (Some t) (toks c us) a).
Proof.
  induction us as [|u us IH]; intros d a c r E H.
  - now rewrite app_nil_r.
  - cbn [toks map]. rewrite asteps_cons. fold (toks c us). replace (d ++ u :: us) with ((d ++ [u]) ++ us) by (rewrite <- app_assoc; reflexivity).
    apply IH with (r := r); [rewrite <- app_assoc; exact E|]. apply Inv_token with (r := us ++ r); [exact E|exact H].
Qed.

(** steps that feed given pieces keep in step *)
Definition in_step (f : state -> option state) (ps : list str) : Prop :=
  forall d a s us r, Rel cc (Some t) a s -> Inv d a -> piece_tokens cc ps = Some us -> TS = d ++ us ++ r ->
  exists s' a', f s = Some s' /\ Rel cc (Some t) a' s' /\ Inv (d ++ us) a'.

Lemma piece_tokens_app ps qs : forall us, piece_tokens cc (ps ++ qs) = Some us ->
  exists u1 u2, piece_tokens cc ps = Some u1 /\ piece_tokens cc qs = Some u2 /\ us = u1 ++ u2.
Proof.
  induction ps as [|p ps IH]; intros us H.
  - exists [], us. repeat split. exact H.
  - cbn [app piece_tokens] in *. destruct (tokenize cc p) as [tp|]; [|discriminate]. destruct (piece_tokens cc (ps ++ qs)) as [w|]; [|discriminate].
    injection H as <-. destruct (IH w eq_refl) as (u1 & u2 & -> & -> & ->). exists (tp ++ u1), u2. repeat split. apply app_assoc.
Qed.
Lemma in_step_feed c x : in_step (feed cc c x) [x].
Proof.
  intros d a s us r HR HI Hp HT. cbn [piece_tokens] in Hp. destruct (tokenize cc x) as [tx|] eqn:Ex; [|discriminate]. injection Hp as <-. rewrite app_nil_r in *.
  destruct (feed_exact cc TOK (Some t) a s c x tx HR Ex) as (s' & E & [_ R']). exists s', (asteps cc (Some t) (toks c tx) a).
  split; [exact E|]. split; [exact R'|]. now apply Inv_tokens with (r := r).
Qed.
Lemma in_step_bind f g ps qs : in_step f ps -> in_step g qs -> in_step (fun s => bind (f s) g) (ps ++ qs).
Proof.
  intros Hf Hg d a s us r HR HI Hp HT. apply piece_tokens_app in Hp as (u1 & u2 & P1 & P2 & ->).
  destruct (Hf d a s u1 (u2 ++ r) HR HI P1) as (s1 & a1 & E1 & R1 & I1); [rewrite HT, <- app_assoc; reflexivity|].
  destruct (Hg (d ++ u1) a1 s1 u2 r R1 I1 P2) as (s2 & a2 & E2 & R2 & I2); [rewrite HT, <- !app_assoc; reflexivity|].
  exists s2, a2. rewrite E1. cbn [bind]. split; [exact E2|]. split; [exact R2|]. now rewrite app_assoc.
Qed.
Lemma in_step_nil : in_step (fun s => Some s) [].
Proof.
  intros d a s us r HR HI Hp HT. injection Hp as <-. exists s, a. rewrite app_nil_r. split; [reflexivity|]. now split.
Qed.
Lemma in_step_line c x : in_step (fun s => bind (feed cc c x s) (feed cc c [NL])) (line_pieces x).
Proof. apply (in_step_bind (feed cc c x) (feed cc c [NL]) [x] [[NL]]); apply in_step_feed. Qed.
Lemma in_step_steps fs pss : Forall2 in_step fs pss -> in_step (steps fs) (concat pss).
Proof.
  induction 1 as [|f ps fs pss Hf _ IH]; [apply in_step_nil|]. cbn [steps concat]. now apply in_step_bind.
Qed.
Lemma in_step_map {A} (f : A -> state -> option state) (p : A -> list str) l :
  (forall x, in_step (f x) (p x)) -> in_step (steps (map f l)) (flat_map p l).
Proof. intros H. rewrite flat_map_concat_map. apply in_step_steps. induction l; constructor; auto. Qed.

Lemma in_step_row cols i : in_step (steps ([op_t cc bar] ++
    flat_map (fun col => let buf := cell_shown cc (nth i (snd col) []) in
      [op_t cc buf; op_i cc (repeat SP (col_width col - length buf)); op_t cc bar]) cols ++ [op_tln cc []])) (row_pieces cc cols i).
Proof.
  unfold row_pieces.
  set (g := fun col : str * list str => let buf := cell_shown cc (nth i (snd col) []) in [[buf]; [repeat SP (col_width col - length buf)]; [bar]]).
  set (h := fun col : str * list str => let buf := cell_shown cc (nth i (snd col) []) in [buf; repeat SP (col_width col - length buf); bar]).
  assert (E : [bar] ++ flat_map h cols ++ line_pieces [] = concat ([[bar]] ++ flat_map g cols ++ [line_pieces []])).
  { rewrite !concat_app. cbn [concat app]. f_equal. f_equal. induction cols as [|col cols IH]; [reflexivity|]. cbn [flat_map]. rewrite concat_app, <- IH. reflexivity. }
  refine (eq_ind_r (in_step _) _ E). apply in_step_steps. apply Forall2_app; [constructor; [apply in_step_feed|constructor]|].
  apply Forall2_app; [|constructor; [apply in_step_line|constructor]]. clear E.
  induction cols as [|col cols IH]; [constructor|]. cbn [flat_map]. apply Forall2_app; [|exact IH].
  cbn zeta. repeat constructor; apply in_step_feed.
Qed.
Lemma in_step_tdf cols rows : in_step (op_tdf cc cols rows) (op_pieces cc true (OTdf cols rows)).
Proof.
  cbn [op_pieces]. rewrite op_tdf_eq. rewrite app_assoc.
  apply (in_step_bind (fun s => bind (op_iln cc _ s) (op_tln cc _))).
  - apply (in_step_bind (op_iln cc _) (op_tln cc _)); apply in_step_line.
  - apply in_step_map. apply in_step_row.
Qed.

(** a seek that finds the current line, or is made after all lines *)
Lemma find_from_none ok l : forall k, Forall (fun x => ok x = false) l -> find_from ok l k = None.
Proof. induction l as [|x l IH]; intros k H; [reflexivity|]. inversion H as [|? ? H1 H2]; subst. cbn [find_from]. rewrite H1. now apply IH. Qed.
Lemma seek_in_step ok d a s : Rel cc (Some t) a s -> Inv d a ->
  (forall l, nth_error ls (nls d) = Some l -> ok l = true) \/ (Forall (fun l => ok l = false) ls /\ cur_of [] d = []) ->
  exists s' a', op_seek cc ok 0 None s = Some s' /\ Rel cc (Some t) a' s' /\ Inv d a'.
Proof.
  intros HR (I1 & I2 & I3 & I4) Hok. destruct (op_seek0_exact cc (Some t) a s ok HR) as (s' & E & [_ R']). cbn [asteps fold_left] in R'.
  exists s'. eexists. split; [exact E|]. split; [exact R'|]. unfold Inv, ndiffs, nfails in *. cbn [astep a_recs a_k a_j a_d a_e]. repeat (split; [assumption|]).
  intros Hlt. destruct (I4 Hlt) as (K & J & D0 & E0).
  unfold seek_pos. rewrite LINES, K. destruct Hok as [Hok|[Hno C]].
  - destruct (nth_error ls (nls d)) as [l|] eqn:El.
    + rewrite (nth_error_skipn_cons _ _ _ El). cbn [find_from]. rewrite (Hok l eq_refl), Nat.eqb_refl. auto.
    + apply nth_error_None in El. pose proof nlines_TS as NT. cbn [nlines] in NT. rewrite LINES in NT. unfold str, char in *. lia.
  - rewrite <- (firstn_skipn (nls d) ls) in Hno. apply Forall_app in Hno as [N1 N2]. rewrite !find_from_none by assumption. rewrite C. auto.
Qed.
Lemma no_line_with_nl (ok : str -> bool) : (forall l, ok l = true -> In NL l) -> Forall (fun l => ok l = false) ls.
Proof.
  intros H. eapply Forall_impl; [|exact LINES_NL]. cbn. intros l N. destruct (ok l) eqn:E; [|reflexivity]. exfalso. auto.
Qed.
Lemma nl_dec (x : str) : In NL x \/ ~ In NL x.
Proof. destruct (has_nl x) eqn:E; [left; now apply has_nl_iff|right; now apply has_nl_false]. Qed.

(** where the text stands *)
Lemma line_start_cur d r : TS = d ++ r -> line_start (concat d) -> cur_of [] d = [].
Proof.
  intros E H. assert (G : Forall (fun u => u <> [] /\ (In NL u -> u = [NL])) d) by (rewrite E in GOOD; now apply Forall_app in GOOD).
  destruct d as [|u0 d0]; [reflexivity|]. destruct (exists_last (l := u0 :: d0) ltac:(discriminate)) as (d' & u & Ed). rewrite Ed in *.
  apply Forall_app in G as [_ G]. apply Forall_inv in G as [Gn Gl]. rewrite cur_of_app. cbn [cur_of fold_left].
  enough (u = [NL]) as -> by reflexivity. rewrite concat_app in H. cbn [concat] in H. rewrite app_nil_r in H.
  destruct H as [H|[x H]]; [apply app_eq_nil in H as [_ H]; congruence|].
  destruct (exists_last Gn) as (u' & z & ->). rewrite app_assoc in H. apply app_inj_tail in H as [_ ->]. apply Gl. apply in_or_app. right. now left.
Qed.
Lemma has_nl_nls d r : TS = d ++ r -> has_nl (concat d) = Nat.ltb 0 (nls d).
Proof.
  intros E. assert (G : Forall (fun u => u <> [] /\ (In NL u -> u = [NL])) d) by (rewrite E in GOOD; now apply Forall_app in GOOD). clear E.
  induction G as [|u d [Gn Gl] _ IH]; [reflexivity|]. cbn [concat]. rewrite has_nl_or. rewrite nls_cons.
  unfold is_nl. destruct (str_eqb_spec u [NL]) as [-> |Hu]; [reflexivity|]. replace (has_nl u) with false; [exact IH|].
  symmetry. apply has_nl_false. auto.
Qed.

(** the line written next, from its start *)
Lemma current_line d us r l : TS = d ++ us ++ r -> cur_of [] d = [] -> Forall (fun u => u <> [NL]) us ->
  nth_error ls (nls d) = Some l ->
  exists us2 b, r = us2 ++ [NL] :: b /\ Forall (fun u => u <> [NL]) us2 /\ l = concat us ++ concat us2.
Proof.
  intros E C F Hl. assert (Hr : nls r > 0).
  { assert (nls d < length ls) by (apply nth_error_Some; congruence). unfold ls in H. rewrite map_length, tlines_length in H.
    rewrite E, !nls_app, (nls_free us F) in H. lia. }
  destruct (next_nl r Hr) as (us2 & b & -> & F2). exists us2, b. split; [reflexivity|]. split; [exact F2|].
  destruct (line_tokens d (us ++ us2) b) as [L _]; [rewrite E, <- app_assoc; reflexivity|now apply Forall_app|].
  rewrite C in L. cbn [app] in L. rewrite L in Hl. injection Hl as <-. now rewrite concat_app.
Qed.

Lemma anchor_in_step x d a s us r : Rel cc (Some t) a s -> Inv d a -> piece_tokens cc [x] = Some us -> TS = d ++ us ++ r ->
  line_start (concat d) ->
  exists s' a', op_anchor cc x s = Some s' /\ Rel cc (Some t) a' s' /\ Inv (d ++ us) a'.
Proof.
  intros HR HI Hp HT LS.
  assert (TX : tokenize cc x = Some us) by (cbn [piece_tokens] in Hp; destruct (tokenize cc x); [injection Hp as <-; now rewrite app_nil_r|discriminate]).
  unfold op_anchor, op_seek_prefix.
  destruct (seek_in_step (fun y => starts_with x y) d a s HR HI) as (s1 & a1 & E1 & R1 & I1).
  { destruct (nl_dec x) as [HN|HN].
    - right. split; [|now apply (line_start_cur d _ HT)]. apply no_line_with_nl. intros l El. apply starts_with_iff in El as [z ->]. apply in_or_app. now left.
    - left. pose proof (line_start_cur d _ HT LS) as C.
      intros l Hl. destruct (current_line d us r l HT C (tokens_no_nl cc TOK x us TX HN) Hl) as (us2 & b & _ & _ & ->).
      rewrite (tokenize_concat cc TOK x us TX). apply starts_with_app. }
  rewrite E1. cbn [bind]. now apply (in_step_feed true x d a1 s1 us r).
Qed.
Lemma anchorln_in_step x d a s us r : Rel cc (Some t) a s -> Inv d a -> piece_tokens cc (line_pieces x) = Some us -> TS = d ++ us ++ r ->
  cur_of [] d = [] ->
  exists s' a', op_anchorln cc x s = Some s' /\ Rel cc (Some t) a' s' /\ Inv (d ++ us) a'.
Proof.
  intros HR HI Hp HT C.
  assert (TX : exists tx, tokenize cc x = Some tx /\ us = tx ++ [[NL]]).
  { unfold line_pieces in Hp. cbn [piece_tokens] in Hp. rewrite (tokenize_NL cc TOK) in Hp. destruct (tokenize cc x) as [tx|]; [|discriminate]. injection Hp as <-.
    exists tx. now split. }
  destruct TX as (tx & TX & EU).
  unfold op_anchorln, op_seek_line.
  destruct (seek_in_step (fun y => str_eqb y x) d a s HR HI) as (s1 & a1 & E1 & R1 & I1).
  { destruct (nl_dec x) as [HN|HN].
    - right. split; [|exact C]. apply no_line_with_nl. intros l El. apply str_eqb_eq in El. now subst l.
    - left. intros l Hl. assert (HT2 : TS = d ++ tx ++ ([NL] :: r)) by (rewrite HT, EU, <- app_assoc; reflexivity).
      destruct (line_tokens d tx r HT2 (tokens_no_nl cc TOK x tx TX HN)) as [L _]. rewrite C in L. cbn [app] in L.
      rewrite L in Hl. injection Hl as <-. rewrite (tokenize_concat cc TOK x tx TX). apply str_eqb_refl. }
  rewrite E1. cbn [bind]. now apply (in_step_line true x d a1 s1 us r).
Qed.
Lemma header_in_step h d a s us r : Rel cc (Some t) a s -> Inv d a ->
  piece_tokens cc ((if has_nl (concat d) then [[NL]] else []) ++ line_pieces h ++ line_pieces []) = Some us -> TS = d ++ us ++ r ->
  line_start (concat d) \/ has_nl (concat d) = true ->
  exists s' a', op_header cc h s = Some s' /\ Rel cc (Some t) a' s' /\ Inv (d ++ us) a'.
Proof.
  intros HR HI Hp HT LS. unfold op_header. rewrite (Rel_started cc (Some t) a s HR).
  assert (ST : started a = has_nl (concat d)).
  { rewrite (has_nl_nls d _ HT). destruct HI as (I1 & _). unfold started. destruct (a_recs a); cbn [length] in I1; rewrite <- I1; reflexivity. }
  rewrite ST. apply piece_tokens_app in Hp as (u1 & u2 & P1 & P2 & ->). apply piece_tokens_app in P2 as (u3 & u4 & P3 & P4 & ->).
  set (s1 := if has_nl (concat d) then _ else s).
  assert (H1 : exists a1, Rel cc (Some t) a1 s1 /\ Inv (d ++ u1) a1 /\ cur_of [] (d ++ u1) = []).
  { subst s1. destruct (has_nl (concat d)) eqn:HH.
    - cbn [piece_tokens] in P1. rewrite (tokenize_NL cc TOK) in P1. injection P1 as <-.
      set (c := last_checked s && _). eexists. split; [apply (feed_token_Rel cc (Some t) a s c [NL] HR); auto|]. split.
      + apply Inv_token with (r := ((u3 ++ u4) ++ r)); [rewrite HT, <- !app_assoc; reflexivity|exact HI].
      + rewrite cur_of_app. reflexivity.
    - injection P1 as <-. exists a. rewrite app_nil_r. split; [exact HR|]. split; [exact HI|]. destruct LS as [LS|LS]; [|discriminate].
      now apply (line_start_cur d _ HT). }
  destruct H1 as (a1 & R1 & I1 & C1).
  destruct (anchorln_in_step h (d ++ u1) a1 s1 u3 (u4 ++ r) R1 I1 P3) as (s2 & a2 & E2 & R2 & I2); [rewrite HT, <- !app_assoc; reflexivity|exact C1|].
  rewrite E2. cbn [bind].
  destruct (in_step_line true [] ((d ++ u1) ++ u3) a2 s2 u4 r R2 I2 P4) as (s3 & a3 & E3 & R3 & I3); [rewrite HT, <- !app_assoc; reflexivity|].
  exists s3, a3. split; [exact E3|]. split; [exact R3|]. rewrite !app_assoc. exact I3.
Qed.

Lemma items_tokens (p : str) (items : list str) : forall us : list str, piece_tokens cc (flat_map (fun i => line_pieces (p ++ i)) items) = Some us -> ~ In NL p -> Forall (fun i => ~ In NL i) items ->
  nls us = length items /\ (items = [] -> us = []) /\ (items <> [] -> forall c, cur_of c us = []) /\
  (forall i x, nth_error items i = Some x -> exists u1 tx u2 : list str, us = u1 ++ tx ++ [NL] :: u2 /\ nls u1 = i /\ cur_of [] u1 = [] /\ tokenize cc (p ++ x) = Some tx).
Proof.
  intros us H Hp F. revert us H. induction F as [|i items Hi F IH]; intros us H.
  - injection H as <-. split; [reflexivity|]. split; [auto|]. split; [intros Z; now contradiction Z|]. intros i x Hx. destruct i; discriminate.
  - cbn [flat_map] in H. apply piece_tokens_app in H as (u1 & u2 & P1 & P2 & ->). specialize (IH u2 P2). destruct IH as (A1 & A2 & A3 & A4).
    unfold line_pieces in P1. cbn [piece_tokens] in P1. rewrite (tokenize_NL cc TOK) in P1. destruct (tokenize cc (p ++ i)) as [tx|] eqn:TX; [|discriminate].
    cbn [app] in P1. injection P1 as <-.
    assert (FX : Forall (fun u => u <> [NL]) tx) by (apply (tokens_no_nl cc TOK (p ++ i)); [exact TX|rewrite in_app_iff; tauto]).
    assert (N1 : nls (tx ++ [[NL]]) = 1) by (rewrite nls_app, (nls_free tx FX); reflexivity).
    assert (C1 : forall c, cur_of c (tx ++ [[NL]]) = []) by (intros c; rewrite cur_of_app; reflexivity).
    split; [rewrite nls_app; cbn [length]; rewrite <- A1; exact (f_equal (fun n => n + nls u2) N1)|]. split; [discriminate|]. split.
    + intros _ c. rewrite cur_of_app, C1. destruct items as [|i2 items]; [now rewrite A2|]. apply A3. discriminate.
    + intros [|j] x Hx.
      * injection Hx as <-. exists [], tx, u2. rewrite <- app_assoc. repeat split. exact TX.
      * destruct (A4 j x Hx) as (v1 & ty & v2 & -> & B1 & B2 & B3). exists ((tx ++ [[NL]]) ++ v1), ty, v2. split; [rewrite <- !app_assoc; reflexivity|].
        rewrite nls_app, N1, B1, cur_of_app, C1. repeat split; auto.
Qed.

Lemma piece_tokens_concat ps : forall us, piece_tokens cc ps = Some us -> concat us = concat ps.
Proof.
  induction ps as [|p ps IH]; intros us H; cbn [piece_tokens] in H; [now injection H as <-|].
  destruct (tokenize cc p) as [tp|] eqn:E; [|discriminate]. destruct (piece_tokens cc ps) as [w|]; [|discriminate]. injection H as <-.
  rewrite concat_app. cbn [concat]. now rewrite (tokenize_concat cc TOK p tp E), (IH w eq_refl).
Qed.

Lemma tset_in_step (items : list str) (p : str) d a s us r : Rel cc (Some t) a s -> Inv d a ->
  piece_tokens cc (flat_map (fun i => line_pieces (p ++ i)) items) = Some us -> TS = d ++ us ++ r ->
  line_start (concat d) -> NoDup items -> ~ In NL p -> ~ In NUL p -> Forall (fun i => ~ In NL i) items -> ~ (exists x, concat r = p ++ x) ->
  exists s' a', op_tset cc items p s = Some s' /\ Rel cc (Some t) a' s' /\ Inv (d ++ us) a'.
Proof.
  intros HR HI Hp HT LS ND HN HU HF NX. pose proof (line_start_cur d _ HT LS) as C. destruct (items_tokens p items us Hp HN HF) as (A1 & A2 & A3 & A4).
  destruct HI as (I1 & I2 & I3 & I4).
  assert (CU : cur_of [] (d ++ us) = []).
  { rewrite cur_of_app, C. destruct items as [|i items]; [now rewrite A2|]. apply A3. discriminate. }
  destruct (Nat.lt_ge_cases (nls d) (nls TS)) as [Hlt|Hge].
  - destruct (I4 Hlt) as (K & J & D0 & E0). rewrite C in J. cbn [length] in J.
    assert (FU : Forall (fun i => ~ In NL i /\ ~ In NUL i) items).
    { apply Forall_forall. intros x Hx. rewrite Forall_forall in HF. split; [now apply HF|]. apply In_nth_error in Hx as [i Hi].
      destruct (A4 i x Hi) as (u1 & tx & u2 & _ & _ & _ & TX). intros Z. apply tokenize_iff in TX; [|exact TOK]. apply tokenization_no_nul in TX; [|exact TOK].
      apply TX. apply in_or_app. now right. }
    destruct (tset_exact cc TOK t p items items a s HN HU FU HR) as (a' & s' & E' & R' & K' & D' & X' & N1 & N2 & LN & _ & J'); auto.
    + rewrite K. pose proof nlines_TS as NT. cbn [nlines] in NT. lia.
    + intros i x Hi. rewrite LINES, K. destruct (A4 i x Hi) as (u1 & tx & u2 & EU & B1 & B2 & B3).
      assert (HT2 : TS = (d ++ u1) ++ tx ++ [NL] :: (u2 ++ r)) by (rewrite HT, EU; rewrite <- !app_assoc; reflexivity).
      destruct (line_tokens (d ++ u1) tx (u2 ++ r) HT2) as [L _].
      { apply (tokens_no_nl cc TOK (p ++ x)); [exact B3|]. rewrite in_app_iff. intros [Z|Z]; [now apply HN|]. rewrite Forall_forall in HF. apply (HF x); [|exact Z].
        eapply nth_error_In; eauto. }
      rewrite nls_app, B1, cur_of_app, C, B2 in L. cbn [app] in L. rewrite (tokenize_concat cc TOK _ _ B3) in L. exact L.
    + intros l Hl. rewrite LINES, K in Hl. destruct (starts_with p l) eqn:ES; [|reflexivity]. exfalso. apply starts_with_iff in ES as [x ->]. apply NX.
      assert (HT2 : TS = (d ++ us) ++ [] ++ r) by (rewrite HT, <- app_assoc; reflexivity).
      destruct (current_line (d ++ us) [] r (p ++ x) HT2 CU (Forall_nil _)) as (us2 & b & -> & _ & EL).
      { rewrite nls_app, A1. exact Hl. }
      exists (x ++ NL :: concat b). rewrite concat_app. cbn [concat app] in *. rewrite <- EL, <- app_assoc. reflexivity.
    + exists s', a'. split; [exact E'|]. split; [exact R'|]. unfold Inv. rewrite nls_app, A1, CU.
      split; [rewrite LN, I1; reflexivity|]. split; [|split; [lia|]].
      * rewrite N1, I2. cbn [Nat.add]. apply misses_zero. split; [exact ND|apply incl_refl].
      * intros _. rewrite K', K. repeat split; [now apply J'|apply D'; apply incl_refl|exact X'].
  - assert (IT : items = []) by (destruct items; [reflexivity|]; rewrite HT, !nls_app, A1 in Hge; cbn [length] in Hge; lia).
    subst items. rewrite (A2 eq_refl), app_nil_r.
    destruct (total_tset cc TOK (Some t) [] p HU (Forall_nil _) a s HR) as (ps & s' & E' & [_ R']).
    assert (RECS : exists ps', Rel cc (Some t) (asteps cc (Some t) ps' a) s' /\ prims_text ps' = []).
    { destruct (writes_tset cc TOK (Some t) [] p a s s' HR E') as (ps' & [_ R''] & TX). exists ps'. split; [exact R''|exact TX]. }
    destruct RECS as (ps' & R'' & TX). exists s', (asteps cc (Some t) ps' a). split; [exact E'|]. split; [exact R''|].
    assert (RS : a_recs (asteps cc (Some t) ps' a) = a_recs a).
    { clear R'' R' HR I1 I2 I3 I4. revert a TX. induction ps' as [|q ps' IH]; intros a TX; [reflexivity|]. rewrite asteps_cons. cbn [prims_text flat_map] in TX.
      apply app_eq_nil in TX as [T1 T2]. rewrite IH by exact T2. destruct q as [c u| | |]; try reflexivity. cbn [prim_text] in T1. subst u. reflexivity. }
    unfold Inv, ndiffs, nfails in *. rewrite RS. repeat (split; [assumption|]). lia.
Qed.

(** ** Explicit seek and jump *)
Lemma newlines_nls d r : TS = d ++ r -> newlines (concat d) = nls d.
Proof.
  intros E. assert (G : Forall (fun u => u <> [] /\ (In NL u -> u = [NL])) d) by (rewrite E in GOOD; now apply Forall_app in GOOD). clear E.
  induction G as [|u d [Gn Gl] _ IH]; [reflexivity|]. unfold newlines in *. cbn [concat]. rewrite filter_app, app_length, nls_cons. f_equal; [|exact IH].
  unfold is_nl. destruct (str_eqb_spec u [NL]) as [-> |Hu]; [reflexivity|].
  assert (H : ~ In NL u) by auto. clear -H. induction u as [|c u IH]; [reflexivity|]. cbn [filter]. destruct (N.eqb_spec NL c) as [<-|_]; [elim H; now left|]. apply IH. intros I. apply H. now right.
Qed.
Lemma head_line_free (x y : str) : ~ In NL x -> head_line (x ++ y) = x ++ head_line y.
Proof.
  induction x as [|c x IH]; intros H; [reflexivity|]. cbn [app head_line]. destruct (N.eqb_spec c NL) as [-> |_]; [elim H; now left|]. f_equal. apply IH. intros I. apply H. now right.
Qed.
Lemma cur_of_free_nl d : Forall (fun u => u <> [] /\ (In NL u -> u = [NL])) d -> forall c, ~ In NL (concat c) -> ~ In NL (concat (cur_of c d)).
Proof.
  induction 1 as [|u d [_ Gl] _ IH]; intros c H; [exact H|]. rewrite cur_of_cons. apply IH. unfold is_nl. destruct (str_eqb_spec u [NL]) as [-> |Hu]; [tauto|].
  rewrite concat_snoc. intros I. apply in_app_or in I as [I|I]; [tauto|]. auto.
Qed.
Lemma tail_line_cur d r : TS = d ++ r -> tail_line (concat d) = concat (cur_of [] d).
Proof.
  intros E. assert (G : Forall (fun u => u <> [] /\ (In NL u -> u = [NL])) d) by (rewrite E in GOOD; now apply Forall_app in GOOD). clear E.
  induction d as [|u d IH] using rev_ind; [reflexivity|]. apply Forall_app in G as [G Gu]. apply Forall_inv in Gu as [_ Gl]. specialize (IH G).
  rewrite concat_snoc, cur_of_app, cur_of_cons. cbn [cur_of fold_left]. unfold is_nl. destruct (str_eqb_spec u [NL]) as [-> |Hu].
  - unfold tail_line. rewrite rev_app_distr. reflexivity.
  - rewrite concat_snoc. assert (H : ~ In NL (rev u)) by (rewrite <- in_rev; auto).
    unfold tail_line in *. rewrite rev_app_distr, head_line_free by exact H. rewrite rev_app_distr, rev_involutive. now f_equal.
Qed.
Lemma ended_lines_text (l : list str) : Forall (fun x => ~ In NL x) l -> forall r, ~ In NL r -> ended_lines [] (lines_text l ++ r) = l.
Proof.
  assert (A : forall (x : str), ~ In NL x -> forall c y, ended_lines c (x ++ y) = ended_lines (c ++ x) y).
  { induction x as [|z x IH]; intros H c y; [now rewrite app_nil_r|]. cbn [app ended_lines]. destruct (N.eqb_spec z NL) as [-> |_]; [elim H; now left|].
    rewrite IH by (intros I; apply H; now right). now rewrite <- app_assoc. }
  induction 1 as [|x l Hx _ IH]; intros r Hr.
  - cbn [lines_text flat_map app]. rewrite <- (app_nil_r r), A by exact Hr. reflexivity.
  - cbn [lines_text flat_map]. fold (lines_text l). rewrite <- !app_assoc, A by exact Hx. cbn [app ended_lines]. rewrite N.eqb_refl. f_equal. now apply IH.
Qed.
Lemma ended_lines_ls : ended_lines [] (concat TS) = ls.
Proof.
  destruct (tlines_text TS []) as (r & ER & GR). cbn [app concat] in ER, GR. destruct GR as [NR NF]; [|constructor|].
  { eapply Forall_impl; [|exact GOOD]. cbn. tauto. }
  rewrite ER. fold ls. now apply ended_lines_text.
Qed.
Lemma unended d r : TS = d ++ r -> has_nl (concat r) = false -> ~ nls d < nls TS.
Proof.
  intros E H. rewrite E, nls_app. enough (nls r = 0) by lia. assert (G : Forall (fun u => u <> [] /\ (In NL u -> u = [NL])) r) by (rewrite E in GOOD; now apply Forall_app in GOOD).
  clear E. induction G as [|u r _ _ IH]; [reflexivity|]. cbn [concat] in H. rewrite has_nl_or in H. apply orb_false_iff in H as [H1 H2]. rewrite nls_cons, IH by exact H2.
  unfold is_nl. destruct (str_eqb_spec u [NL]) as [-> |_]; [discriminate H1|reflexivity].
Qed.
Lemma line_here d r : TS = d ++ r -> nls d < nls TS -> nth_error ls (nls d) = Some (tail_line (concat d) ++ head_line (concat r)).
Proof.
  intros E L. assert (Hr : nls r > 0) by (rewrite E, nls_app in L; lia). destruct (next_nl r Hr) as (us & b & -> & F).
  destruct (line_tokens d us b E F) as [N _]. rewrite N. f_equal. rewrite (tail_line_cur _ _ E), !concat_app. f_equal. cbn [concat app].
  rewrite head_line_free; [cbn [head_line]; now rewrite app_nil_r|].
  assert (G : Forall (fun u => u <> [] /\ (In NL u -> u = [NL])) us) by (rewrite E in GOOD; apply Forall_app in GOOD as [_ G]; now apply Forall_app in G).
  clear -F G. induction us as [|u us IH]; [tauto|]. inversion F; subst. apply Forall_cons_iff in G as [[_ Gl] G]. cbn [concat]. intros I. apply in_app_or in I as [I|I]; [auto|now apply IH].
Qed.

Lemma jump_in_step n d a s r : Rel cc (Some t) a s -> Inv d a -> TS = d ++ r -> repeatable_op (concat d) (OJump n) (concat r) ->
  exists s' a', op_jump cc n s = Some s' /\ Rel cc (Some t) a' s' /\ Inv d a'.
Proof.
  intros HR (I1 & I2 & I3 & I4) HT HO. destruct (op_jump_exact cc (Some t) a s n HR) as (s' & E & [_ R']). cbn [asteps fold_left] in R'.
  exists s'. eexists. split; [exact E|]. split; [exact R'|]. unfold Inv, ndiffs, nfails in *. cbn [astep a_recs a_k a_j a_d a_e]. repeat (split; [assumption|]).
  intros Hlt. destruct (I4 Hlt) as (K & J & D0 & E0). cbn [repeatable_op] in HO. destruct (has_nl (concat r)) eqn:HN; [|now apply (unended d r HT) in HN].
  rewrite (newlines_nls d r HT) in HO. rewrite nlines_TS, K. destruct (HO eq_refl) as [-> |[C ->]].
  - rewrite Nat.eqb_refl. split; [lia|]. auto.
  - assert (d = []) as -> by (destruct d as [|u d]; [reflexivity|]; assert (G := GOOD); rewrite HT in G; apply Forall_inv in G as [G _]; cbn [concat] in C; now apply app_eq_nil in C as [C _]).
    cbn. auto.
Qed.
Lemma seek_stays lc ok b e k j l : nth_error ls k = Some l -> (ok l = true \/ exists m, e = Some m /\ m <= S k) ->
  seek cc lc ok b e (rpos cc (Some t) k j) = Some (rpos cc (Some t) k j).
Proof.
  intros L H. unfold seek. rewrite r_text_rpos. assert (Hf : reader_fuel (rpos cc (Some t) k j) = S (length t)) by reflexivity. rewrite Hf.
  cbn [next_while]. rewrite r_line_rpos. cbn [line_at]. rewrite LINES, L. rewrite r_num_rpos.
  assert (negb (ok l) && before_end (S k) e = false) as ->.
  { destruct H as [-> |(m & -> & M)]; [reflexivity|]. cbn [before_end]. apply andb_false_iff. right. apply Nat.ltb_ge. exact M. }
  rewrite r_line_rpos. cbn [line_at]. now rewrite LINES, L.
Qed.
Lemma seek_back lc ok b k j : k < length ls -> b <= S k -> Forall (fun l => ok l = false) ls ->
  seek cc lc ok b None (rpos cc (Some t) k j) = Some (rpos cc (Some t) k 0).
Proof.
  intros Hk Hb Hno. pose proof (rlines_length t) as Hlen. unfold seek. rewrite r_text_rpos.
  assert (Hf : reader_fuel (rpos cc (Some t) k j) = S (length t)) by reflexivity. rewrite Hf. rewrite LINES in Hlen.
  rewrite next_while_rpos by (rewrite LINES; lia). cbn zeta. rewrite LINES, scan_from_find.
  assert (NO : forall n, Forall (fun l => ok l = false) (firstn n ls) /\ Forall (fun l => ok l = false) (skipn n ls)) by (intros n; apply Forall_app; now rewrite firstn_skipn).
  rewrite find_from_none by apply NO. rewrite skipn_length. replace (k + (length ls - k)) with (length ls) by lia.
  rewrite r_line_rpos. cbn [line_at]. rewrite LINES, (proj2 (nth_error_None _ _)) by lia.
  rewrite jump_rpos by (rewrite LINES; lia). rewrite LINES. rewrite next_while_rpos by (rewrite LINES; lia). cbn zeta. rewrite LINES, r_num_rpos.
  rewrite scan_from_before by (rewrite ?skipn_length; lia).
  rewrite (find_from_none ok (firstn _ _)).
  2: { apply Forall_forall. intros x Hx. assert (Hx2 : In x (skipn (Nat.min (b - 1) (length ls)) ls)) by (rewrite <- (firstn_skipn (k - Nat.min (b - 1) (length ls))); apply in_or_app; now left).
       revert x Hx2 Hx. intros x Hx2 _. revert x Hx2. apply Forall_forall. apply NO. }
  destruct (Nat.eqb_spec k (Nat.min (b - 1) (length ls))); [|reflexivity]. destruct (Nat.eqb_spec b (S (length ls))); [lia|reflexivity].
Qed.
Lemma any_seek_in_step ok b e d a s r : Rel cc (Some t) a s -> Inv d a -> TS = d ++ r -> repeatable_op (concat d) (OSeek ok b e) (concat r) ->
  exists s' a', op_seek cc ok b e s = Some s' /\ Rel cc (Some t) a' s' /\ Inv d a'.
Proof.
  intros HR HI HT HO. destruct (Nat.lt_ge_cases (nls d) (nls TS)) as [Hlt|Hge].
  - cbn [repeatable_op] in HO. destruct (has_nl (concat r)) eqn:HN; [|now apply (unended d r HT) in HN]. specialize (HO eq_refl). rewrite (newlines_nls d r HT) in HO.
    pose proof HI as (I1 & I2 & I3 & I4). destruct (I4 Hlt) as (K & J & D0 & E0). pose proof (line_here d r HT Hlt) as L.
    unfold op_seek, with_reader. rewrite (R_rd _ _ _ _ HR), K, J.
    assert (HL : length ls = nls TS) by (unfold ls; now rewrite map_length, tlines_length).
    destruct HO as [HO|[HO|(LS & B & -> & NO)]].
    + rewrite (seek_stays _ ok b e _ _ _ L (or_introl HO)). exists (set_rd (rpos cc (Some t) (nls d) (length (cur_of [] d))) s), a. split; [reflexivity|]. split; [|exact HI].
      rewrite <- K at 1. rewrite <- J, <- (R_rd _ _ _ _ HR). destruct s; exact HR.
    + rewrite (seek_stays _ ok b e _ _ _ L (or_intror HO)). exists (set_rd (rpos cc (Some t) (nls d) (length (cur_of [] d))) s), a. split; [reflexivity|]. split; [|exact HI].
      rewrite <- K at 1. rewrite <- J, <- (R_rd _ _ _ _ HR). destruct s; exact HR.
    + assert (EQ : concat d ++ concat r = concat TS) by (rewrite HT; symmetry; apply concat_app).
      apply (eq_ind _ (fun z => Forall (fun l => ok l = false) (ended_lines [] z)) NO) in EQ. rewrite ended_lines_ls in EQ. clear NO. rename EQ into NO. rewrite seek_back by (try exact NO; unfold str, char in *; lia).
      exists (set_rd (rpos cc (Some t) (nls d) (length (cur_of [] d))) s), a. rewrite (line_start_cur d r HT LS). split; [reflexivity|]. split; [|exact HI].
      rewrite (line_start_cur d r HT LS) in J. rewrite <- K at 1. rewrite <- J, <- (R_rd _ _ _ _ HR). destruct s; exact HR.
  - destruct (op_seek_exact cc (Some t) a s ok b e HR) as (k & j & s' & E & [_ R'] & _). cbn [asteps fold_left] in R'. exists s'. eexists. split; [exact E|]. split; [exact R'|].
    destruct HI as (I1 & I2 & I3 & I4). unfold Inv, ndiffs, nfails in *. cbn [astep a_recs]. repeat (split; [assumption|]). lia.
Qed.

(** ** Whole tests *)
Lemma op_in_step o d a s us r next : Rel cc (Some t) a s -> Inv d a ->
  piece_tokens cc (op_pieces cc (has_nl (concat d)) o) = Some us -> TS = d ++ us ++ r -> next = concat r ->
  repeatable_op (concat d) o next ->
  exists s' a', exec cc refloat o s = Some s' /\ Rel cc (Some t) a' s' /\ Inv (d ++ us) a'.
Proof.
  intros HR HI Hp HT -> HO.
  destruct o as [x|x|x|x| | |x|x|h|lv ti|k v|items p|items p|cols rows|v u|ov msg v|c m|ti c m|n|ok b e]; cbn [repeatable_op] in HO; try contradiction; cbn [exec].
  - now apply (in_step_feed true x d a s us r).
  - now apply (in_step_line true x d a s us r).
  - now apply (in_step_feed false x d a s us r).
  - now apply (in_step_line false x d a s us r).
  - now apply (anchor_in_step x d a s us r).
  - apply (anchorln_in_step x d a s us r); auto. now apply (line_start_cur d _ HT).
  - now apply (header_in_step h d a s us r).
  - apply (header_in_step (repeat HASH lv ++ [SP] ++ ti) d a s us r); auto.
  - cbn [op_pieces] in Hp. apply piece_tokens_app in Hp as (u1 & u2 & P1 & P2 & ->).
    destruct (anchor_in_step k d a s u1 (u2 ++ r) HR HI P1) as (s1 & a1 & E1 & R1 & I1); [rewrite HT, <- app_assoc; reflexivity|exact HO|].
    unfold op_keyvalueln. rewrite E1. cbn [bind].
    destruct (in_step_line true ([SP] ++ v) (d ++ u1) a1 s1 u2 r R1 I1 P2) as (s2 & a2 & E2 & R2 & I2); [rewrite HT, <- !app_assoc; reflexivity|].
    exists s2, a2. rewrite app_assoc. auto.
  - apply (in_step_map (fun i => op_tln cc (p ++ i)) (fun i => line_pieces (p ++ i)) items (fun i => in_step_line true (p ++ i)) d a s us r HR HI Hp HT).
  - destruct HO as (LS & ND & HN & HU & HF & NX). now apply (tset_in_step items p d a s us r).
  - now apply (in_step_tdf cols rows d a s us r).
  - destruct c; [|contradiction]. now apply (in_step_line false (lit "ok") d a s us r).
  - destruct c; [|contradiction]. unfold op_must.
    now apply (in_step_bind (op_i cc (lit " * MUST " ++ ti ++ lit "...")) (op_iln cc (lit "ok")) [_] (line_pieces (lit "ok")) (in_step_feed false _) (in_step_line false _) d a s us r).
  - cbn [op_pieces piece_tokens] in Hp. injection Hp as <-. rewrite app_nil_r. now apply (jump_in_step n d a s r).
  - cbn [op_pieces piece_tokens] in Hp. injection Hp as <-. rewrite app_nil_r. now apply (any_seek_in_step ok b e d a s r).
Qed.

Lemma ops_in_step ops : forall d a s us, Rel cc (Some t) a s -> Inv d a ->
  piece_tokens cc (ops_pieces cc (concat d) ops) = Some us -> TS = d ++ us -> repeatable cc (concat d) ops ->
  exists s' a', exec_all cc refloat ops s = Some s' /\ Rel cc (Some t) a' s' /\ Inv TS a'.
Proof.
  induction ops as [|o ops IH]; intros d a s us HR HI Hp HT HO.
  - injection Hp as <-. rewrite app_nil_r in HT. subst d. exists s, a. split; [reflexivity|]. now split.
  - cbn [ops_pieces repeatable] in *. destruct HO as [HO HOs]. apply piece_tokens_app in Hp as (u1 & u2 & P1 & P2 & ->).
    destruct (op_in_step o d a s u1 u2 _ HR HI P1 HT (eq_sym (piece_tokens_concat _ _ P2)) HO) as (s1 & a1 & E1 & R1 & I1).
    assert (EC : concat d ++ concat (op_pieces cc (has_nl (concat d)) o) = concat (d ++ u1)) by (rewrite concat_app; f_equal; symmetry; now apply piece_tokens_concat).
    rewrite EC in *. destruct (IH (d ++ u1) a1 s1 u2 R1 I1 P2) as (s' & a' & E' & R' & I'); [rewrite HT, app_assoc; reflexivity|exact HOs|].
    exists s', a'. split; [|split; assumption]. unfold exec_all. cbn [map steps]. rewrite E1. exact E'.
Qed.
End Repeat.
