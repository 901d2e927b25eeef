(** A test repeated with other information keeps in step with the accepted output (C91). *)
From Verif Require Import PyStrFacts TokenizerSpec TokenizerProofs CaseRunModel CaseRunSpec ReaderProofs CaseRunProofs CaseRunFacts CaseRunLines
  SectionProofs TsetProofs RepeatModel RepeatProofs InfoModel.
From Coq Require Import Lia.

Lemma one_line_app a b : one_line (a ++ b) <-> one_line a /\ one_line b.
Proof. unfold one_line. rewrite !in_app_iff. tauto. Qed.

Section Info.
Variable cc : CharClass.
Hypothesis TOK : TokClassOK cc.

Lemma piece_tokens_cat ps qs us vs : piece_tokens cc ps = Some us -> piece_tokens cc qs = Some vs -> piece_tokens cc (ps ++ qs) = Some (us ++ vs).
Proof.
  revert us. induction ps as [|p ps IH]; intros us H1 H2; cbn [app piece_tokens] in *; [injection H1 as <-; exact H2|].
  destruct (tokenize cc p) as [tp|]; [|discriminate]. destruct (piece_tokens cc ps) as [w|]; [|discriminate]. injection H1 as <-.
  rewrite (IH w eq_refl H2). now rewrite app_assoc.
Qed.
(** the tokens of pieces without line ends *)
Lemma one_line_tokens xs : Forall one_line xs -> exists us, piece_tokens cc xs = Some us /\ Forall (fun u => u <> [NL]) us.
Proof.
  induction 1 as [|x xs [HN HU] _ (us & E & F)]; [exists []; split; [reflexivity|constructor]|].
  destruct (tokenize_total cc TOK x HU) as [tx Tx]. exists (tx ++ us). cbn [piece_tokens]. rewrite Tx, E. split; [reflexivity|].
  apply Forall_app. split; [now apply (tokens_no_nl cc TOK x)|exact F].
Qed.

Variable refloat : str -> option str.
Hypothesis NUMBERS : forall x y, refloat x = Some y -> one_line y.

Lemma exec_all_app l m s : exec_all cc refloat (l ++ m) s = bind (exec_all cc refloat l s) (exec_all cc refloat m).
Proof.
  revert s. induction l as [|o l IH]; intros s; [reflexivity|]. unfold exec_all in *. cbn [app map steps].
  destruct (exec cc refloat o s) as [s1|]; cbn [bind]; [apply IH|reflexivity].
Qed.

(** the text after a value *)
Definition was_of (u : option str) (s : state) : str :=
  match head_exp_token (rd s) with
  | Some x => match refloat x with Some o => lit " (was " ++ o ++ unit_text u ++ lit ")" | None => [] end
  | None => []
  end.
Lemma one_line_lit (x : String.string) : existsb (fun c => N.eqb NL c || N.eqb NUL c) (lit x) = false -> one_line (lit x).
Proof.
  intros H. split; intros I; (assert (existsb (fun c => N.eqb NL c || N.eqb NUL c) (lit x) = true); [|congruence]); apply existsb_exists; eexists; split; try exact I; reflexivity.
Qed.
Lemma was_of_text u s : was_text u (was_of u s) /\ (one_line (unit_text u) -> one_line (was_of u s)).
Proof.
  unfold was_of. destruct (head_exp_token (rd s)) as [x|]; [|split; [now left|intros _; split; intros []]].
  destruct (refloat x) as [o|] eqn:E; [|split; [now left|intros _; split; intros []]]. split; [right; now exists o|].
  intros U. rewrite !one_line_app. split; [now apply one_line_lit|]. split; [now apply (NUMBERS x)|]. split; [exact U|now apply one_line_lit].
Qed.
Lemma ifloatln_eq v u s : op_ifloatln cc refloat v u s = bind (op_i cc (v ++ unit_text u) s) (op_iln cc (was_of u s)).
Proof.
  unfold op_ifloatln, was_of. change (match u with Some u0 => [SP] ++ u0 | None => [] end) with (unit_text u).
  destruct (head_exp_token (rd s)) as [x|]; [destruct (refloat x)|]; reflexivity.
Qed.
Lemma exec_float v u s : exec cc refloat (OIfloatln v u) s = exec_all cc refloat [OI (v ++ unit_text u); OIln (was_of u s)] s.
Proof.
  cbn [exec]. rewrite ifloatln_eq. unfold exec_all. cbn [map steps exec]. destruct (op_i cc (v ++ unit_text u) s) as [s1|]; [|reflexivity]. cbn [bind].
  now destruct (op_iln cc (was_of u s) s1).
Qed.
Lemma exec_ms g v s : exec cc refloat (OTmsln false g v) s = exec_all cc refloat [OI (v ++ unit_text (Some (lit "ms"))); OIln (was_of (Some (lit "ms")) s)] s.
Proof. exact (exec_float v (Some (lit "ms")) s). Qed.

(** ** Writing the floats out *)
Definition units_ok (o : op) : Prop := match o with OIfloatln _ u => one_line (unit_text u) | _ => True end.
Lemma written_out_exists ops : Forall units_ok ops -> forall s s', exec_all cc refloat ops s = Some s' ->
  exists ops0, written_out ops ops0 /\ exec_all cc refloat ops0 s = Some s'.
Proof.
  induction 1 as [|o ops U _ IH]; intros s s' H.
  - exists []. split; [constructor|exact H].
  - unfold exec_all in H. cbn [map steps] in H. apply bind_Some in H as (s1 & E1 & E2). destruct (IH s1 s' E2) as (ops0 & W & E0).
    assert (F : forall v u, exec cc refloat o s = exec_all cc refloat [OI (v ++ unit_text u); OIln (was_of u s)] s ->
              exec_all cc refloat (OI (v ++ unit_text u) :: OIln (was_of u s) :: ops0) s = Some s').
    { intros v u Eo. change (OI (v ++ unit_text u) :: OIln (was_of u s) :: ops0) with ([OI (v ++ unit_text u); OIln (was_of u s)] ++ ops0).
      rewrite exec_all_app, <- Eo, E1. exact E0. }
    assert (S : (match o with OIfloatln _ _ | OTmsln false _ _ => False | _ => True end) -> exists ops0', written_out (o :: ops) ops0' /\ exec_all cc refloat ops0' s = Some s').
    { intros N. exists (o :: ops0). split; [now constructor|]. change (o :: ops0) with ([o] ++ ops0). rewrite exec_all_app. unfold exec_all at 1. cbn [map steps]. rewrite E1. exact E0. }
    destruct o as [x|x|x|x| | |x|x|h|lv ti|k v|items p|items p|cols rows|v u|[|] msg v|c m|ti c m|n|ok b e]; try (apply S; exact I); clear S.
    + exists (OI (v ++ unit_text u) :: OIln (was_of u s) :: ops0). split; [|apply F, exec_float]. destruct (was_of_text u s) as [WT WO]. constructor; auto.
    + exists (OI (v ++ unit_text (Some (lit "ms"))) :: OIln (was_of (Some (lit "ms")) s) :: ops0). split; [|apply F, (exec_ms msg)].
      destruct (was_of_text (Some (lit "ms")) s) as [WT WO]. constructor; auto. apply WO. now apply (one_line_lit " ms").
Qed.

(** the first list may be written out without losing the resemblance *)
Lemma written_out_app l : forall m r, written_out (l ++ m) r -> exists l0 m0, r = l0 ++ m0 /\ written_out l l0 /\ written_out m m0.
Proof.
  induction l as [|o l IH]; intros m r H; [exists [], r; repeat split; [constructor|exact H]|].
  cbn [app] in H. inversion H; subst.
  - destruct (IH _ _ H4) as (lx & mx & -> & A & B). exists (o :: lx), mx. repeat split; [now constructor|exact B].
  - destruct (IH _ _ H5) as (lx & mx & -> & A & B). exists (OI (v ++ unit_text u) :: OIln w :: lx), mx. repeat split; [now constructor|exact B].
  - destruct (IH _ _ H5) as (lx & mx & -> & A & B). exists (OI (v ++ unit_text (Some (lit "ms"))) :: OIln w :: lx), mx. repeat split; [now constructor|exact B].
Qed.
(** a line of information without floats *)
Definition plain_line (l : list op) : Prop :=
  exists xs x, Forall one_line xs /\ one_line x /\ (l = map OI xs ++ [OIln x] \/ x = lit "ok" /\ exists m, l = map OI xs ++ [OAssertln true m]).
Lemma written_info l l0 : info_line l -> written_out l l0 -> plain_line l0.
Proof.
  intros (xs & o & -> & F & E) W. apply written_out_app in W as (a & b & -> & Wa & Wb).
  assert (Ea : a = map OI xs).
  { clear -Wa. revert a Wa. induction xs as [|x xs IH]; intros a W; inversion W; subst; [reflexivity|]. cbn [map]. f_equal. now apply IH. }
  subst a.
  inversion Wb; subst.
  - inversion H3; subst. destruct o as [x|x|x|x| | |x|x|h|lv ti|k v|items p|items p|cols rows|v u|[|] msg v|[|] m|ti c m|n|ok b e]; cbn in E; try contradiction.
    + exists xs, x. auto.
    + exists xs, (lit "ok"). split; [exact F|]. split; [now apply one_line_lit|]. right. split; [reflexivity|]. now exists m.
  - inversion H4; subst. exists (xs ++ [v ++ unit_text u]), w. cbn in E. split; [apply Forall_app; split; [exact F|now constructor]|]. split; [assumption|].
    left. rewrite map_app, <- app_assoc. reflexivity.
  - inversion H4; subst. exists (xs ++ [v ++ unit_text (Some (lit "ms"))]), w. cbn in E. split; [apply Forall_app; split; [exact F|]|].
    + constructor; [|constructor]. apply one_line_app. split; [exact E|now apply (one_line_lit " ms")].
    + split; [assumption|]. left. rewrite map_app, <- app_assoc. reflexivity.
Qed.

(** two lists of calls in step: like [alike], the first without floats *)
Inductive matched : list op -> list op -> Prop :=
| m_nil : matched [] []
| m_same o l m : matched l m -> matched (o :: l) (o :: m)
| m_info x y tx ty l m : one_line x -> one_line y -> tokenize cc x = Some tx -> tokenize cc y = Some ty -> length tx = length ty ->
    matched l m -> matched (OI x :: l) (OI y :: m)
| m_line f g l m : plain_line f -> info_line g -> matched l m -> matched (f ++ l) (g ++ m).
Lemma alike_matched l m : alike cc l m -> Forall (fun o => match o with OIfloatln v u => one_line (v ++ unit_text u) | OTmsln false _ v => one_line v | _ => True end) l ->
  forall l0, written_out l l0 -> matched l0 m.
Proof.
  induction 1 as [|o l m A IH|x y tx ty l m Cx Cy Tx Ty L A IH|f g l m Hf Hg A IH]; intros OK l0 W.
  - inversion W; subst. constructor.
  - apply Forall_cons_iff in OK as [Oo OK]. inversion W; subst; [constructor; now apply IH| |].
    + change (matched ([OI (v ++ unit_text u); OIln w] ++ m0) ([OIfloatln v u] ++ m)). apply m_line; [|exists [], (OIfloatln v u); repeat split; [constructor|apply Oo|apply Oo]|now apply IH].
      exists [v ++ unit_text u], w. split; [now constructor|]. split; [assumption|now left].
    + change (matched ([OI (v ++ unit_text (Some (lit "ms"))); OIln w] ++ m0) ([OTmsln false g v] ++ m)).
      apply m_line; [|exists [], (OTmsln false g v); repeat split; [constructor|apply Oo|apply Oo]|now apply IH].
      exists [v ++ unit_text (Some (lit "ms"))], w. split; [constructor; [|constructor]|split; [assumption|now left]].
      apply one_line_app. split; [exact Oo|now apply (one_line_lit " ms")].
  - apply Forall_cons_iff in OK as [_ OK]. inversion W; subst. apply (m_info x y tx ty); auto.
  - apply Forall_app in OK as [_ OK]. apply written_out_app in W as (f0 & l1 & -> & Wf & Wl). apply m_line; auto. now apply (written_info f).
Qed.

(** ** In step *)
Variable TS : list str.
Hypothesis WELL : well_pieced cc TS.
Hypothesis GOOD : Forall (fun u => u <> [] /\ (In NL u -> u = [NL])) TS.
Let ls : list str := map (@concat N) (tlines [] TS).
Let t : str := lines_text ls.
Hypothesis LINES : rlines t = ls.
Hypothesis LINES_NL : Forall (fun l => ~ In NL l) ls.

Lemma is_nl_ne u : u <> [NL] -> is_nl u = false.
Proof. unfold is_nl. destruct (str_eqb_spec u [NL]); [congruence|reflexivity]. Qed.

Lemma info_token d a u v r : TS = d ++ u :: r -> u <> [NL] -> v <> [NL] -> Inv TS d a -> Inv TS (d ++ [u]) (astep cc (Some t) a (PTok false v)).
Proof.
  intros E Hu Hv (I1 & I2 & I3 & I4). unfold Inv. rewrite nls_app, nls_cons, cur_of_app, (is_nl_ne u Hu). cbn [nls filter length cur_of fold_left]. rewrite Nat.add_0_r, (is_nl_ne u Hu).
  cbn [astep andb]. fold (is_nl v). rewrite (is_nl_ne v Hv). unfold ndiffs, nfails in *. cbn [a_recs a_k a_j a_d a_e Nat.add]. repeat (split; [assumption|]).
  intros Hlt. destruct (I4 Hlt) as (K & J & D0 & E0). rewrite app_length, J, K. cbn [length]. repeat split; auto; try (now rewrite Nat.add_1_r). now rewrite Bool.andb_false_r.
Qed.
Lemma info_tokens us : forall vs d a r, length us = length vs -> TS = d ++ us ++ r -> Forall (fun u => u <> [NL]) us -> Forall (fun u => u <> [NL]) vs ->
  Inv TS d a -> Inv TS (d ++ us) (asteps cc (Some t) (toks false vs) a).
Proof.
  induction us as [|u us IH]; intros [|v vs] d a r L E Fu Fv H; try discriminate.
  - now rewrite app_nil_r.
  - apply Forall_cons_iff in Fu as [Hu Fu]. apply Forall_cons_iff in Fv as [Hv Fv]. cbn [toks map]. rewrite asteps_cons. fold (toks false vs).
    replace (d ++ u :: us) with ((d ++ [u]) ++ us) by (rewrite <- app_assoc; reflexivity).
    apply IH with (r := r); auto; [rewrite <- app_assoc; exact E|]. apply info_token with (r := us ++ r); auto.
Qed.
(** information up to the end of the line *)
Lemma info_to_end us vs d a r : TS = d ++ us ++ [NL] :: r -> Forall (fun u => u <> [NL]) us -> Forall (fun u => u <> [NL]) vs ->
  Inv TS d a -> Inv TS (d ++ us ++ [[NL]]) (asteps cc (Some t) (toks false (vs ++ [[NL]])) a).
Proof.
  intros E Fu Fv (I1 & I2 & I3 & I4). rewrite asteps_line; [|exact Fv|discriminate].
  assert (Hlt : nls d < nls TS) by (rewrite E, !nls_app, nls_cons, is_nl_NL; lia). destruct (I4 Hlt) as (K & J & D0 & E0).
  unfold Inv. rewrite !nls_app, (nls_free us Fu), !cur_of_app, nls_cons, is_nl_NL. cbn [nls filter length cur_of fold_left]. rewrite is_nl_NL.
  unfold ndiffs, nfails, next_line in *. cbn [a_recs a_k a_j a_d a_e]. rewrite app_length, !filter_snoc, I1, I2, I3. unfold rec_differs, rec_fails. cbn [lr_diff lr_err length].
  rewrite D0, E0. cbn [marked]. repeat (split; [lia|]). intros _. pose proof (nlines_TS TS LINES) as NT. fold ls in NT. fold t in NT. rewrite NT, K. repeat split; lia.
Qed.
(** pieces of a line of information *)
Lemma infos_pieces xs : forall a l, ops_pieces cc a (map OI xs ++ l) = xs ++ ops_pieces cc (a ++ concat xs) l /\
  (repeatable cc a (map OI xs ++ l) -> repeatable cc (a ++ concat xs) l).
Proof.
  induction xs as [|x xs IH]; intros a l; [cbn [map app concat]; rewrite app_nil_r; auto|].
  cbn [map app ops_pieces repeatable op_pieces concat]. rewrite app_nil_r, app_assoc. destruct (IH (a ++ x) l) as [E R]. rewrite E. split; [reflexivity|].
  intros [_ H]. exact (R H).
Qed.
Lemma plain_pieces f a l : plain_line f -> exists xs, Forall one_line xs /\ ops_pieces cc a (f ++ l) = xs ++ [NL] :: ops_pieces cc (a ++ concat xs ++ [NL]) l /\
  (repeatable cc a (f ++ l) -> repeatable cc (a ++ concat xs ++ [NL]) l).
Proof.
  intros (xs & x & F & X & H). exists (xs ++ [x]). split; [apply Forall_app; split; [exact F|now constructor]|].
  assert (G : forall o, (forall st, op_pieces cc st o = line_pieces x) -> f = map OI xs ++ [o] ->
    ops_pieces cc a (f ++ l) = (xs ++ [x]) ++ [NL] :: ops_pieces cc (a ++ concat (xs ++ [x]) ++ [NL]) l /\
    (repeatable cc a (f ++ l) -> repeatable cc (a ++ concat (xs ++ [x]) ++ [NL]) l)).
  { intros o Ho ->. rewrite <- app_assoc. destruct (infos_pieces xs a ([o] ++ l)) as [E R]. rewrite E. cbn [app ops_pieces repeatable] in *. rewrite Ho in *.
    assert (EC : (a ++ concat xs) ++ concat (line_pieces x) = a ++ concat (xs ++ [x]) ++ [NL]).
    { rewrite concat_snoc. cbn [line_pieces concat]. rewrite app_nil_r, <- !app_assoc. reflexivity. }
    rewrite EC in *. split; [rewrite <- !app_assoc; reflexivity|]. intros HH. apply (R HH). }
  destruct H as [H|[-> [m H]]]; [apply (G (OIln x))|apply (G (OAssertln true m))]; auto.
Qed.

(** what a line of information feeds *)
Lemma infos_exec xs : Forall one_line xs -> forall a s, Rel cc (Some t) a s ->
  exists s' vs, exec_all cc refloat (map OI xs) s = Some s' /\ Rel cc (Some t) (asteps cc (Some t) (toks false vs) a) s' /\ Forall (fun u => u <> [NL]) vs.
Proof.
  induction 1 as [|x xs [HN HU] _ IH]; intros a s HR.
  - exists s, []. split; [reflexivity|]. split; [exact HR|constructor].
  - destruct (tokenize_total cc TOK x HU) as [tx Tx]. destruct (feed_exact cc TOK (Some t) a s false x tx HR Tx) as (s1 & E1 & [_ R1]).
    destruct (IH _ s1 R1) as (s' & vs & E & R & F). exists s', (tx ++ vs). unfold exec_all in *. cbn [map steps exec]. unfold op_i. rewrite E1. cbn [bind].
    split; [exact E|]. split; [|apply Forall_app; split; [now apply (tokens_no_nl cc TOK x)|exact F]]. unfold toks. rewrite map_app, asteps_app. exact R.
Qed.
Lemma line_exec xs x : Forall one_line xs -> one_line x -> forall a s, Rel cc (Some t) a s ->
  exists s' vs, exec_all cc refloat (map OI xs ++ [OIln x]) s = Some s' /\ Rel cc (Some t) (asteps cc (Some t) (toks false (vs ++ [[NL]])) a) s' /\ Forall (fun u => u <> [NL]) vs.
Proof.
  intros F [HN HU] a s HR. destruct (infos_exec xs F a s HR) as (s1 & vs & E1 & R1 & F1). destruct (tokenize_total cc TOK x HU) as [tx Tx].
  destruct (feedln_exact cc TOK (Some t) _ s1 false x tx R1 Tx) as (s2 & E2 & [_ R2]). exists s2, (vs ++ tx). rewrite exec_all_app, E1. cbn [bind].
  split; [unfold exec_all; cbn [map steps exec]; unfold op_iln; rewrite E2; reflexivity|]. split; [|apply Forall_app; split; [exact F1|now apply (tokens_no_nl cc TOK x)]].
  rewrite <- app_assoc. unfold toks in *. rewrite map_app, asteps_app. exact R2.
Qed.
Lemma info_exec g : info_line g -> forall a s, Rel cc (Some t) a s ->
  exists s' vs, exec_all cc refloat g s = Some s' /\ Rel cc (Some t) (asteps cc (Some t) (toks false (vs ++ [[NL]])) a) s' /\ Forall (fun u => u <> [NL]) vs.
Proof.
  intros (xs & o & -> & F & H) a s HR.
  assert (FL : forall v u, one_line (v ++ unit_text u) -> (forall s, exec cc refloat o s = exec_all cc refloat [OI (v ++ unit_text u); OIln (was_of u s)] s) ->
    exists s' vs, exec_all cc refloat (map OI xs ++ [o]) s = Some s' /\ Rel cc (Some t) (asteps cc (Some t) (toks false (vs ++ [[NL]])) a) s' /\ Forall (fun u => u <> [NL]) vs).
  { intros v u O Eo. destruct (infos_exec xs F a s HR) as (s1 & vs & E1 & R1 & F1).
    destruct (line_exec [v ++ unit_text u] (was_of u s1) (Forall_cons _ O (Forall_nil _))
      (proj2 (was_of_text u s1) (proj2 (proj1 (one_line_app _ _) O))) _ s1 R1) as (s2 & vs2 & E2 & R2 & F2).
    exists s2, (vs ++ vs2). rewrite exec_all_app, E1. cbn [bind]. split; [|split; [|apply Forall_app; now split]].
    - unfold exec_all at 1. cbn [map steps]. rewrite Eo. cbn [map app] in E2. rewrite E2. reflexivity.
    - rewrite <- app_assoc. unfold toks in *. rewrite map_app, asteps_app. exact R2. }
  destruct o as [x|x|x|x| | |x|x|h|lv ti|k v|items p|items p|cols rows|v u|[|] msg v|[|] m|ti c m|n|ok b e]; cbn in H; try contradiction.
  - now apply line_exec.
  - apply (FL v u); [exact H|]. intros s0. apply exec_float.
  - apply (FL v (Some (lit "ms"))); [|intros s0; apply (exec_ms msg)]. apply one_line_app. split; [exact H|now apply (one_line_lit " ms")].
  - destruct (line_exec xs (lit "ok") F (one_line_lit "ok" eq_refl) a s HR) as (s' & vs & E & R). exists s', vs. split; [|exact R].
    rewrite <- E, !exec_all_app. reflexivity.
Qed.

(** ** Whole tests *)
Lemma matched_in_step ops ops2 : matched ops ops2 -> forall d a s us, Rel cc (Some t) a s -> Inv TS d a ->
  piece_tokens cc (ops_pieces cc (concat d) ops) = Some us -> TS = d ++ us -> repeatable cc (concat d) ops ->
  exists s' a', exec_all cc refloat ops2 s = Some s' /\ Rel cc (Some t) a' s' /\ Inv TS TS a'.
Proof.
  induction 1 as [|o l m A IH|x y tx ty l m Cx Cy Tx Ty L A IH|f g l m Hf Hg A IH]; intros d a s us HR HI Hp HT HO.
  - injection Hp as <-. rewrite app_nil_r in HT. exists s, a. split; [reflexivity|]. split; [exact HR|]. rewrite HT at 2. exact HI.
  - cbn [ops_pieces repeatable] in *. destruct HO as [HO HOs]. apply (piece_tokens_app cc) in Hp as (u1 & u2 & P1 & P2 & ->).
    destruct (op_in_step cc TOK refloat TS WELL GOOD LINES LINES_NL o d a s u1 u2 _ HR HI P1 HT (eq_sym (piece_tokens_concat cc TOK _ _ P2)) HO) as (s1 & a1 & E1 & R1 & I1).
    assert (EC : concat d ++ concat (op_pieces cc (has_nl (concat d)) o) = concat (d ++ u1)) by (rewrite concat_app; f_equal; symmetry; now apply (piece_tokens_concat cc TOK)).
    rewrite EC in *. destruct (IH (d ++ u1) a1 s1 u2 R1 I1 P2) as (s' & a' & E' & R' & I'); [rewrite HT, app_assoc; reflexivity|exact HOs|].
    exists s', a'. split; [|split; assumption]. unfold exec_all. cbn [map steps]. rewrite E1. exact E'.
  - cbn [ops_pieces repeatable op_pieces] in *. destruct HO as [_ HOs]. apply (piece_tokens_app cc) in Hp as (u1 & u2 & P1 & P2 & ->).
    assert (EU : u1 = tx) by (cbn [piece_tokens] in P1; rewrite Tx, app_nil_r in P1; now injection P1). subst u1.
    assert (EC : concat d ++ concat [x] = concat (d ++ tx)) by (rewrite concat_app; f_equal; symmetry; now apply (piece_tokens_concat cc TOK)).
    rewrite EC in *. destruct (feed_exact cc TOK (Some t) a s false y ty HR Ty) as (s1 & E1 & [_ R1]).
    destruct (IH (d ++ tx) _ s1 u2 R1) as (s' & a' & E' & R' & I'); [|exact P2|rewrite HT, app_assoc; reflexivity|exact HOs|].
    { apply info_tokens with (r := u2); auto; [exact (tokens_no_nl cc TOK x tx Tx (proj1 Cx))|exact (tokens_no_nl cc TOK y ty Ty (proj1 Cy))]. }
    exists s', a'. split; [|split; assumption]. unfold exec_all. cbn [map steps exec]. unfold op_i. rewrite E1. exact E'.
  - destruct (plain_pieces f (concat d) l Hf) as (xs & Fx & EP & RP). rewrite EP in Hp. specialize (RP HO).
    apply (piece_tokens_app cc) in Hp as (u1 & u2 & P1 & P2 & ->). cbn [piece_tokens] in P2. rewrite (tokenize_NL cc TOK) in P2.
    destruct (piece_tokens cc (ops_pieces cc (concat d ++ concat xs ++ [NL]) l)) as [u3|] eqn:P3; [|discriminate]. injection P2 as <-.
    assert (F1 : Forall (fun u => u <> [NL]) u1).
    { destruct (one_line_tokens xs Fx) as (v1 & E & F). rewrite E in P1. injection P1 as <-. exact F. }
    destruct (info_exec g Hg a s HR) as (s1 & vs & E1 & R1 & Fv).
    assert (EC : concat d ++ concat xs ++ [NL] = concat (d ++ u1 ++ [[NL]])).
    { rewrite !concat_app. cbn [concat]. rewrite app_nil_r, (piece_tokens_concat cc TOK _ _ P1). reflexivity. }
    rewrite EC in *.
    destruct (IH (d ++ u1 ++ [[NL]]) _ s1 u3 R1) as (s' & a' & E' & R' & I'); [|exact P3|rewrite HT, <- !app_assoc; reflexivity|exact RP|].
    { apply info_to_end with (r := u3); auto. }
    exists s', a'. split; [|split; assumption]. rewrite exec_all_app, E1. exact E'.
Qed.
End Info.
