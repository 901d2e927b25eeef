(** C110: a test that writes a character its files cannot hold takes the whole run down. *)
From Verif Require Import CaseRunProofs TokenizerProps CaseRunFacts CaseRunProps EncodeModel.

(** what the test writes *)
Definition call_text (c : call) : str := match c with CT x | CI x => x | _ => [] end.
Definition test_text (l : list call) (exc : option (str * str)) : str :=
  flat_map call_text l ++ match exc with Some (m, tb) => [NL] ++ m ++ [NL] ++ tb ++ [NL] | None => [] end.

(** a line that was ended holds a character that cannot be stored *)
Definition unstorable (enc : char -> bool) (text : str) : Prop :=
  exists before after x, text = before ++ NL :: after /\ In x before /\ enc x = false.

Section Encode.
Variable cc : CharClass.
Hypothesis Hcc : TokClassOK cc.
Variable enc : char -> bool.
Hypothesis Hascii : forall x, N.lt x 128 -> enc x = true.

Local Notation encs := (Forall (fun x => enc x = true)).

Lemma encs_lit (l : str) : Forall (fun x => N.lt x 128) l -> encs l.
Proof. apply Forall_impl. auto. Qed.
Lemma encs_app a b : encs (a ++ b) <-> encs a /\ encs b.
Proof. apply Forall_app. Qed.
Lemma forallb_encs l : forallb enc l = true <-> encs l.
Proof. rewrite forallb_forall, Forall_forall. tauto. Qed.

Lemma readline_app s : fst (readline s) ++ snd (readline s) = s.
Proof.
  induction s as [|x s IH]; [reflexivity|]. cbn [readline]. destruct (N.eqb x NL); [reflexivity|].
  destruct (readline s) as [l r]. cbn [fst snd] in *. now rewrite <- IH.
Qed.

(** everything the reader holds can be stored *)
Definition rok (r : reader) : Prop :=
  (forall t, r_text r = Some t -> encs t) /\ (forall t, r_rest r = Some t -> encs t) /\ (forall t, r_line r = Some t -> encs t).

Lemma rok_next lc r : rok r -> rok (next_exp_line cc lc r).
Proof.
  intros HR. pose proof HR as (A & B & C). unfold next_exp_line. destruct (r_text r) as [t|] eqn:Et; [|exact HR].
  destruct (r_rest r) as [s|] eqn:Er.
  - pose proof (readline_app s) as Hs. destruct (readline s) as [line s'] eqn:El. cbn [fst snd] in Hs.
    assert (Hl : encs line /\ encs s') by (apply encs_app; rewrite Hs; now apply B).
    destruct line as [|x line].
    + split; [|split]; cbn [r_text r_rest r_line]; try discriminate; exact A.
    + split; [|split]; cbn [r_text r_rest r_line].
      * exact A.
      * intros u [= <-]. apply Hl.
      * intros u [= <-]. destruct Hl as [Hl _]. unfold drop_last.
        rewrite <- (firstn_skipn (length (x :: line) - 1) (x :: line)) in Hl. apply encs_app in Hl. apply Hl.
  - destruct lc; [|exact HR]. split; [|split]; cbn [r_text r_rest r_line]; try discriminate; exact A.
Qed.

Lemma rok_reset lc r : rok r -> rok (reset_exp_reader cc lc r).
Proof.
  intros (A & _ & _). apply rok_next. repeat split; cbn; try exact A. discriminate.
Qed.

Lemma rok_while fuel cond lc r r' : rok r -> next_while cc fuel cond lc r = Some r' -> rok r'.
Proof.
  revert r. induction fuel as [|fuel IH]; intros r H; cbn [next_while].
  - destruct (r_line r); [destruct cond; [discriminate|]|]; intros [= <-]; exact H.
  - destruct (r_line r) as [l|]; [destruct cond|]; intros E; try (injection E as <-; exact H).
    apply (IH _ (rok_next lc r H) E).
Qed.

Lemma rok_jump lc n r r' : rok r -> jump cc lc n r = Some r' -> rok r'.
Proof.
  intros H. unfold jump. destruct (r_text r); [|intros [= <-]; exact H].
  apply rok_while. destruct (Nat.ltb n (r_num r)); [now apply rok_reset|exact H].
Qed.

Lemma rok_seek lc ok b e r r' : rok r -> seek cc lc ok b e r = Some r' -> rok r'.
Proof.
  intros H. unfold seek. destruct (r_text r); [|intros [= <-]; exact H].
  destruct next_while as [r1|] eqn:E1; [|discriminate]. apply rok_while in E1; [|exact H].
  destruct (r_line r1); [intros [= <-]; exact E1|].
  destruct (jump cc lc b r1) as [r2|] eqn:E2; [|discriminate]. apply rok_jump in E2; [|exact E1].
  now apply rok_while.
Qed.

Lemma rok_token r : rok r -> rok (snd (next_exp_token cc r)).
Proof.
  intros H. unfold next_exp_token. destruct (r_tok r) as [b|]; [|exact H].
  destruct (bi_next cc b) as [[t b']|]; exact H.
Qed.

(** ** The invariant: what was written is storable lines and the current line *)
Definition holds (s : state) (w : str) : Prop :=
  rok (rd s) /\ ~ In NL (out_line s) /\ exists a, w = a ++ out_line s /\ encs a.

Lemma space_ok : encs (lit "  ").
Proof. apply encs_lit. repeat constructor. Qed.

Lemma flagged_ok symbol s : encs symbol -> rok (rd s) -> (encs (flagged_line symbol s) <-> encs (out_line s)).
Proof.
  intros Hs (_ & _ & C). unfold flagged_line, ljust. rewrite !encs_app. split; [tauto|]. intros H.
  split; [exact Hs|]. split; [apply encs_lit; repeat constructor|]. split; [split; [exact H|]|split].
  - apply Forall_forall. intros x Hx. apply repeat_spec in Hx. subst x. apply Hascii. reflexivity.
  - apply encs_lit. repeat constructor.
  - destruct (r_line (rd s)) as [l|]; [now apply C|apply encs_lit; repeat constructor].
Qed.

(** a line is committed exactly when it can be stored; else it stays *)
Lemma commit_cases s : rok (rd s) ->
  (encs (out_line s) /\ commit_line_e cc enc s = Done (commit_line cc s)) \/
  (~ encs (out_line s) /\ exists s', commit_line_e cc enc s = Raised s' /\ out_line s' = out_line s /\ rd s' = rd s).
Proof.
  intros H.
  assert (Hd : encs (out_line s) \/ ~ encs (out_line s)).
  { destruct (forallb enc (out_line s)) eqn:E; [left; now apply forallb_encs|].
    right. rewrite <- forallb_encs. congruence. }
  unfold commit_line_e, commit_line.
  assert (Hplain : (line_error s = None /\ line_diff s = None) \/ (line_error s <> None \/ line_diff s <> None)).
  { destruct (line_error s), (line_diff s); (now left) || (right; now left) || (right; now right). }
  destruct Hplain as [[-> ->]|Hm].
  - destruct Hd as [Hd|Hd]; [left|right]; (split; [exact Hd|]).
    + unfold report_e. rewrite (proj2 (forallb_encs _)) by (rewrite encs_app; split; [apply space_ok|exact Hd]).
      cbn [andthen]. unfold write_line_e. rewrite (proj2 (forallb_encs _)) by exact Hd. reflexivity.
    + unfold report_e. destruct (forallb enc (lit "  " ++ out_line s)) eqn:E.
      * exfalso. apply forallb_encs, encs_app in E. now apply Hd.
      * exists s. now repeat split.
  - assert (G : forall d e symbol pos, encs symbol ->
      let s1 := add_counts d e s in
      let oe := andthen (report_e enc (flagged_line symbol s1) s1) (fun s2 =>
                andthen (if point_pos s then report_e enc (lit "  " ++ repeat SP pos ++ lit "^") s2 else Done s2) (fun s3 =>
                andthen (write_line_e cc enc s3) (fun s4 => Done (set_line_diff None (set_line_error None s4))))) in
      let s2 := report (flagged_line symbol s1) s1 in
      let s3 := if point_pos s then report (lit "  " ++ repeat SP pos ++ lit "^") s2 else s2 in
      (encs (out_line s) /\ oe = Done (set_line_diff None (set_line_error None (write_line cc s3)))) \/
      (~ encs (out_line s) /\ exists s', oe = Raised s' /\ out_line s' = out_line s /\ rd s' = rd s)).
    { intros d e symbol pos Hs s1 oe s2 s3. pose proof (flagged_ok symbol s1 Hs H) as F. cbn [out_line s1 add_counts] in F.
      destruct Hd as [Hd|Hd]; [left|right]; (split; [exact Hd|]); unfold oe, report_e.
      - rewrite (proj2 (forallb_encs (flagged_line symbol s1))) by (now apply F). cbn [andthen].
        assert (P : encs (lit "  " ++ repeat SP pos ++ lit "^")).
        { rewrite !encs_app. split; [apply space_ok|]. split; [|apply encs_lit; repeat constructor].
          apply Forall_forall. intros x Hx. apply repeat_spec in Hx. subst x. apply Hascii. reflexivity. }
        rewrite (proj2 (forallb_encs _) P). unfold s3, s2.
        destruct (point_pos s); cbn [andthen]; unfold write_line_e; cbn [out_line report];
          (rewrite (proj2 (forallb_encs _)) by exact Hd); reflexivity.
      - destruct (forallb enc (flagged_line symbol s1)) eqn:E.
        + exfalso. apply forallb_encs in E. apply Hd. now apply F.
        + exists s1. now repeat split. }
    destruct (line_error s) as [pe|], (line_diff s) as [pd|].
    + apply (G 1 1 (lit "!") pe). apply encs_lit. repeat constructor.
    + apply (G 0 1 (lit "!") pe). apply encs_lit. repeat constructor.
    + apply (G 1 0 (lit "?") pd). apply encs_lit. repeat constructor.
    + destruct Hm as [Hm|Hm]; now destruct Hm.
Qed.

Lemma commit_line_fields s : rok (rd s) -> rok (rd (commit_line cc s)) /\ out_line (commit_line cc s) = [].
Proof.
  intros H. unfold commit_line.
  destruct (line_error s), (line_diff s), (point_pos s); split; try reflexivity;
    cbn [rd set_line_diff set_line_error write_line report add_counts]; apply rok_next; exact H.
Qed.

Lemma bad_char l : ~ encs l -> exists x, In x l /\ enc x = false.
Proof.
  intros H. destruct (existsb (fun x => negb (enc x)) l) eqn:E.
  - apply existsb_exists in E as (x & Hx & Hn). exists x. split; [exact Hx|]. now destruct (enc x).
  - exfalso. apply H. apply Forall_forall. intros x Hx. destruct (enc x) eqn:Ex; [reflexivity|].
    assert (T : existsb (fun x => negb (enc x)) l = true) by (apply existsb_exists; exists x; now rewrite Ex).
    congruence.
Qed.

(** one token: the same as in CaseRunModel, unless a line cannot be stored *)
Lemma token_ok check s t w : holds s w -> (In NL t -> t = [NL]) ->
  (feed_token_e cc enc check s t = Done (feed_token cc check s t) /\ holds (feed_token cc check s t) (w ++ t)) \/
  (exists s', feed_token_e cc enc check s t = Raised s' /\ rok (rd s') /\ ~ encs (out_line s') /\ unstorable enc (w ++ t)).
Proof.
  intros (Hr & Hn & a & -> & Ha) Ht. unfold feed_token_e, feed_token.
  pose proof (rok_token _ Hr) as Hr'. destruct (next_exp_token cc (rd s)) as [e r] eqn:En. cbn [snd] in Hr'.
  cbv zeta.
  set (s2 := if match r_text r with Some _ => true | None => false end && token_differs t e && check then _ else _).
  assert (E2 : rd s2 = r /\ out_line s2 = out_line s).
  { unfold s2. destruct (_ && check); [|now split]. unfold do_diff.
    destruct (line_diff _); now split. }
  destruct E2 as [Er Eo]. clearbody s2. rewrite <- Er in Hr'. rewrite <- Eo in *.
  destruct (str_eqb_spec t [NL]) as [->|Hneq].
  - destruct (commit_cases s2 Hr') as [[Hs ->]|[Hs (s' & -> & Eo' & Er')]].
    + left. split; [reflexivity|]. destruct (commit_line_fields s2 Hr') as [F1 F2].
      split; [exact F1|]. rewrite F2. split; [easy|]. exists ((a ++ out_line s2) ++ [NL]). rewrite app_nil_r.
      split; [reflexivity|]. rewrite !encs_app. repeat split; auto. constructor; [now apply Hascii|constructor].
    + right. exists s'. rewrite Er', Eo'. repeat split; auto; try apply Hr'.
      destruct (bad_char _ Hs) as (x & Hx & Ex). exists (a ++ out_line s2), [], x. repeat split; auto.
      apply in_or_app. now right.
  - left. split; [reflexivity|]. unfold set_out_line. split; [exact Hr'|]. cbn [out_line]. split.
    + intros Hi. apply in_app_or in Hi as [Hi|Hi]; [now apply Hn|]. apply Ht in Hi. congruence.
    + exists a. now rewrite app_assoc.
Qed.

Lemma unstorable_app w u : unstorable enc w -> unstorable enc (w ++ u).
Proof.
  intros (b & c & x & -> & Hx & Ex). exists b, (c ++ u), x. rewrite <- app_assoc. now repeat split.
Qed.

Lemma tokens_ok check ts s w : holds s w -> Forall (fun t => In NL t -> t = [NL]) ts ->
  (feed_tokens_e cc enc check ts s = Done (fold_left (feed_token cc check) ts s) /\
   holds (fold_left (feed_token cc check) ts s) (w ++ concat ts)) \/
  (exists s', feed_tokens_e cc enc check ts s = Raised s' /\ rok (rd s') /\ ~ encs (out_line s') /\ unstorable enc (w ++ concat ts)).
Proof.
  revert s w. induction ts as [|t ts IH]; intros s w H Ht; cbn [feed_tokens_e fold_left concat].
  - left. now rewrite app_nil_r.
  - inversion_clear Ht. destruct (token_ok check s t w H) as [[-> H']|(s' & -> & A & B & C)]; auto.
    + cbn [andthen]. rewrite app_assoc. now apply IH.
    + right. exists s'. cbn [andthen]. rewrite app_assoc. repeat split; auto; try apply A. now apply unstorable_app.
Qed.

Variable refloat : str -> option str.

Lemma call_ok c s w o : holds s w -> call_e cc enc c s = Some o ->
  (exists s', o = Done s' /\ exec cc refloat (call_op c) s = Some s' /\ holds s' (w ++ call_text c)) \/
  (exists s', o = Raised s' /\ rok (rd s') /\ ~ encs (out_line s') /\ unstorable enc (w ++ call_text c)).
Proof.
  intros H E.
  assert (Hf : forall check x, feed_e cc enc check x s = Some o ->
    (exists s', o = Done s' /\ feed cc check x s = Some s' /\ holds s' (w ++ x)) \/
    (exists s', o = Raised s' /\ rok (rd s') /\ ~ encs (out_line s') /\ unstorable enc (w ++ x))).
  { intros check x. unfold feed_e, feed. destruct (tokenize cc x) as [ts|] eqn:Et; [|discriminate]. intros [= <-].
    pose proof (tokenize_good cc Hcc _ _ Et) as G. rewrite <- (tokenize_concat cc Hcc _ _ Et).
    destruct (tokens_ok check ts s w H G) as [[-> A]|(s' & -> & A)].
    - left. eauto.
    - right. eauto. }
  assert (Hw : forall f, option_map Done (with_reader f s) = Some o ->
      (forall r', f (last_checked s) (rd s) = Some r' -> rok r') ->
      exists s', o = Done s' /\ with_reader f s = Some s' /\ holds s' (w ++ [])).
  { intros f. unfold with_reader. destruct (f (last_checked s) (rd s)) as [r'|]; [|discriminate].
    intros [= <-] K. eexists. split; [reflexivity|]. split; [reflexivity|]. rewrite app_nil_r.
    destruct H as (_ & H). split; [now apply K|exact H]. }
  destruct c as [x|x| | |n|ok b e]; cbn [call_e call_op exec call_text] in *.
  - now apply Hf.
  - now apply Hf.
  - injection E as <-. left. eexists. split; [reflexivity|]. split; [reflexivity|]. rewrite app_nil_r.
    unfold do_fail. destruct (line_error s); exact H.
  - injection E as <-. left. eexists. split; [reflexivity|]. split; [reflexivity|]. rewrite app_nil_r.
    unfold do_diff. destruct (line_diff s); exact H.
  - left. apply Hw; [exact E|]. intros r'. apply rok_jump. apply H.
  - left. apply Hw; [exact E|]. intros r'. apply rok_seek. apply H.
Qed.

Lemma calls_ok l s w o : holds s w -> calls_e cc enc l s = Some o ->
  (exists s', o = Done s' /\ exec_all cc refloat (map call_op l) s = Some s' /\ holds s' (w ++ flat_map call_text l)) \/
  (exists s', o = Raised s' /\ rok (rd s') /\ ~ encs (out_line s') /\ unstorable enc (w ++ flat_map call_text l)).
Proof.
  revert s w. induction l as [|c l IH]; intros s w H; cbn [calls_e flat_map].
  - intros [= <-]. left. exists s. rewrite app_nil_r. now repeat split; try apply H.
  - destruct (call_e cc enc c s) as [o1|] eqn:E1; [|discriminate].
    destruct (call_ok c s w o1 H E1) as [(s1 & -> & A & B)|(s1 & -> & A & B & C)].
    + intros E. destruct (IH s1 _ B E) as [(s' & -> & K1 & K2)|(s' & -> & K1 & K2 & K3)]; rewrite <- app_assoc in *.
      * left. exists s'. split; [reflexivity|]. split; [|exact K2]. unfold exec_all in *. cbn [map steps].
        rewrite A. exact K1.
      * right. exists s'. now repeat split; try apply K1.
    + intros [= <-]. right. exists s1. rewrite app_assoc. repeat split; auto; try apply A. now apply unstorable_app.
Qed.

(** nothing unstorable was written as long as the invariant holds *)
Lemma holds_storable s w : holds s w -> ~ unstorable enc w.
Proof.
  intros (_ & Hn & a & -> & Ha) (b & c & x & E & Hx & Ex).
  assert (L : exists u, a = b ++ NL :: u).
  { clear Hx Ha. revert b E. induction a as [|y a IH]; intros b E.
    - exfalso. apply Hn. cbn in E. rewrite E. apply in_or_app. right. now left.
    - destruct b as [|z b]; cbn in E.
      + injection E as -> _. now exists a.
      + injection E as -> E. destruct (IH b E) as (u & ->). now exists u. }
  destruct L as (u & ->). apply encs_app in Ha as [Ha _]. rewrite Forall_forall in Ha. rewrite (Ha x Hx) in Ex. discriminate.
Qed.

(** the first thing the handler does is to end the line that cannot be stored *)
Lemma handler_raises m tb s : rok (rd s) -> ~ encs (out_line s) ->
  exists s', calls_e cc enc (handler_calls m tb) s = Some (Raised s').
Proof.
  intros Hr Hs. unfold handler_calls. cbn [calls_e]. unfold call_e at 1, feed_e. rewrite tokenize_nil. cbn [feed_tokens_e].
  unfold call_e at 1, feed_e. rewrite tokenize_NL by exact Hcc. cbn [feed_tokens_e].
  unfold feed_token_e.
  pose proof (rok_token _ Hr) as Hr'. destruct (next_exp_token cc (rd s)) as [e r] eqn:En. cbn [snd] in Hr'.
  rewrite andb_false_r. rewrite str_eqb_refl.
  destruct (commit_cases (set_last_checked false (set_rd r s)) Hr') as [[K _]|[_ (s' & -> & _)]].
  - exfalso. apply Hs. exact K.
  - now exists s'.
Qed.

Lemma univ_newlines_encs_all t : encs t -> encs (univ_newlines t).
Proof.
  intros H. apply Forall_forall. intros x Hx.
  assert (K : In x t \/ x = NL).
  { clear H. revert Hx. remember (length t) as n eqn:En. assert (Hn : length t <= n) by lia. clear En. revert t Hn.
    induction n as [|n IH]; intros [|y t] Hn; cbn [length] in Hn; try lia; cbn [univ_newlines]; try easy.
    destruct (N.eqb y CR).
    - destruct t as [|z t]; [cbn; intuition|]. destruct (N.eqb z NL); intros [<-|Hx]; auto.
      + apply IH in Hx; [|cbn in *; lia]. cbn. tauto.
      + apply IH in Hx; [|cbn in *; lia]. cbn in *. tauto.
    - intros [<-|Hx]; [left; now left|]. apply IH in Hx; [|cbn in *; lia]. cbn. tauto. }
  destruct K as [K| ->]; [|now apply Hascii]. rewrite Forall_forall in H. now apply H.
Qed.

Lemma start_holds file point : (forall t, file = Some t -> encs t) -> holds (start cc file point) [].
Proof.
  intros H. unfold start. split; [|split; [easy|exists []; now split]]. cbn [rd]. apply rok_reset.
  split; [|split]; cbn [r_text r_rest r_line]; try discriminate.
  destruct file as [t|]; [|discriminate]. intros u [= <-]. apply univ_newlines_encs_all. now apply H.
Qed.

Theorem test_exact file point l exc msg tb o :
  (forall t, file = Some t -> encs t) ->
  test_e cc enc file point l exc msg tb = Some o ->
  (unstorable enc (test_text l exc) /\ exists s, o = Raised s) \/
  (~ unstorable enc (test_text l exc) /\ exists s, o = Done s /\
   run_body cc refloat file point
     (map call_op (l ++ match exc with Some (m, t) => handler_calls m t | None => [] end)) = Some s).
Proof.
  intros Hfile. unfold test_e, test_text.
  destruct (calls_e cc enc l (start cc file point)) as [o1|] eqn:E1; [|discriminate].
  destruct (calls_ok _ _ _ _ (start_holds file point Hfile) E1) as [(s1 & -> & A & B)|(s1 & -> & A & B & C)].
  - cbn [app] in B. destruct exc as [[m t]|].
    + intros E2. destruct (calls_ok _ _ _ _ B E2) as [(s2 & -> & K1 & K2)|(s2 & -> & K1 & K2 & K3)].
      * right. unfold handler_calls in K2. cbn [flat_map call_text app] in K2. rewrite ?app_nil_r in K2.
        split; [exact (holds_storable _ _ K2)|]. exists s2. split; [reflexivity|].
        unfold run_body, exec_all. rewrite map_app, map_app. unfold exec_all in A, K1.
        revert A K1. generalize (start cc file point). intros s0. generalize (map call_op (handler_calls m t)). intros q.
        clear. revert s0. induction l as [|c l IH]; intros s0; cbn [map steps app].
        -- intros [= <-]. auto.
        -- destruct (exec cc refloat (call_op c) s0) as [s|]; cbn [bind]; [|discriminate]. apply IH.
      * left. split; [|eauto]. unfold handler_calls in K3. cbn [flat_map call_text app] in K3. rewrite ?app_nil_r in K3. exact K3.
    + intros [= <-]. right. rewrite !app_nil_r. split; [exact (holds_storable _ _ B)|]. exists s1. split; [reflexivity|exact A].
  - intros E2. destruct (handler_raises msg tb s1 A B) as (s2 & E3). rewrite E3 in E2. injection E2 as <-.
    left. split; [now apply unstorable_app|]. eauto.
Qed.
End Encode.

(** ** C110: "a test that writes a character that its files cannot hold is recorded as failed, and the tests after it run". *)

(** a surrogate, between U+D800 and U+DFFF, is not a character of UTF-8 *)
Definition utf8 (x : char) : bool := negb (N.leb 55296 x && N.leb x 57343).

(** Refuted: the test writes one line with a surrogate. The exception is caught (testrun.py:96), but what is printed of it comes
    after the end of the line that cannot be written, and ending that line raises again: the exception leaves the run. The test
    after it, which would pass, is not run, and neither of the two is recorded. *)
Theorem C110_refuted : exists cc enc l l2 s,
  TokClassOK cc /\ enc = utf8 /\ (forall x, N.lt x 128 -> enc x = true) /\
  test_e cc enc None false l None (lit "e") (lit "tb") = Some (Raised s) /\
  (exists s2, test_e cc enc None false l2 None (lit "e") (lit "tb") = Some (Done s2) /\ errors s2 = 0 /\ diffs s2 = 0) /\
  loop_e (verdict true) [test_e cc enc None false l None (lit "e") (lit "tb");
                         test_e cc enc None false l2 None (lit "e") (lit "tb")] = Some ([], false).
Proof.
  exists ascii_class, utf8, [CT (lit "a" ++ [55296%N; NL])], [CT (lit "ok" ++ [NL])].
  eexists. split; [apply ascii_TokClassOK|]. split; [reflexivity|]. split.
  { intros x Hx. unfold utf8. destruct (N.leb_spec 55296 x) as [H|H]; [|reflexivity]. exfalso.
    apply (N.lt_irrefl 128). apply N.lt_trans with 55296%N; [reflexivity|]. now apply N.le_lt_trans with x. }
  split; [vm_compute; reflexivity|]. split; [|vm_compute; reflexivity]. eexists. split; [vm_compute; reflexivity|]. now split.
Qed.
Print Assumptions C110_refuted.

(** Partial: exactly when. The exception leaves the run if, and only if, a line that the test ended holds a character that cannot
    be stored; the line that is not ended at the end of the test is never written and may hold any. In every other run the writes
    do not fail, and the state of the test is that of CaseRunModel, where a test that raises is failed (C09). *)
Theorem C110_partial : forall cc enc refloat file point l exc msg tb o,
  TokClassOK cc -> (forall x, N.lt x 128 -> enc x = true) ->
  (forall t, file = Some t -> Forall (fun x => enc x = true) t) ->
  test_e cc enc file point l exc msg tb = Some o ->
  ((exists s, o = Raised s) <->
   (exists before after x, test_text l exc = before ++ NL :: after /\ In x before /\ enc x = false)) /\
  (forall s, o = Done s ->
   run_body cc refloat file point
     (map call_op l ++ match exc with Some (m, t) => [OIln []; OFail; OIln m; OIln t] | None => [] end) = Some s) /\
  (forall s m t, o = Done s -> exc = Some (m, t) -> nul_free m -> nul_free t -> verdict true s = FAIL).
Proof.
  intros cc enc refloat file point l exc msg tb o Hcc Ha Hf E.
  destruct (test_exact cc Hcc enc Ha refloat file point l exc msg tb o Hf E) as [[A [s ->]]|[A (s & -> & B)]].
  - split; [split; eauto|split; discriminate].
  - split; [split; [intros [s' [=]]|intros K; now destruct A]|]. rewrite map_app in B.
    assert (B' : run_body cc refloat file point (map call_op l ++ match exc with Some (m, t) => [OIln []; OFail; OIln m; OIln t] | None => [] end) = Some s).
    { destruct exc as [[m t]|]; [|exact B]. unfold run_body in *. rewrite exec_all_app in B |- *. destruct (exec_all cc refloat (map call_op l) (start cc file point)) as [s1|]; [|discriminate].
      cbn [bind] in B |- *. rewrite <- B. unfold exec_all, handler_calls. cbn [map call_op steps exec bind]. unfold op_iln, op_i, bind.
      repeat match goal with |- context[match feed ?cc ?b ?x ?s with _ => _ end] => destruct (feed cc b x s); [|reflexivity] end; reflexivity. }
    split; [now intros s' [= <-]|]. intros s' m t [= <-] -> Nm Nt. unfold run_body in B'. rewrite exec_all_app in B'.
    destruct (exec_all cc refloat (map call_op l) (start cc file point)) as [s1|] eqn:E1; [|discriminate].
    destruct (C09_exception_fails cc Hcc refloat file point (map call_op l) s1 m t true E1 Nm Nt) as (s2 & E2 & V).
    cbn [bind] in B'. change (exec_all cc refloat (exception_ops m t) s1 = Some s) in B'. congruence.
Qed.
Print Assumptions C110_partial.

(** The run: the tests before the one that cannot be written are recorded, it and all the tests after it are not, whatever they
    are. *)
Theorem C110_run_partial : forall verdict_of before s after,
  loop_e verdict_of (map (fun s => Some (Done s)) before ++ Some (Raised s) :: after) = Some (map verdict_of before, false) /\
  loop_e verdict_of (map (fun s => Some (Done s)) before) = Some (map verdict_of before, true).
Proof.
  intros v before s after. split; induction before as [|b before IH]; cbn [map app loop_e]; try reflexivity; now rewrite IH.
Qed.
Print Assumptions C110_run_partial.

(** the unfinished line may hold anything; a line that was flagged keeps the flag *)
Example c110_unfinished : exists s,
  test_e ascii_class utf8 (Some (lit "a" ++ [NL])) true [CT (lit "a" ++ [NL; 57343%N])] None [] [] = Some (Done s) /\
  out s = lit "a" ++ [NL] /\ errors s = 0 /\ diffs s = 0.
Proof. eexists. split; [vm_compute; reflexivity|]. now repeat split. Qed.
(** ... unless the test raises after it: then the line is ended *)
Example c110_raises : exists s,
  test_e ascii_class utf8 (Some (lit "a" ++ [NL])) true [CT (lit "a" ++ [NL; 57343%N])] (Some (lit "m", lit "t")) [] [] =
  Some (Raised s).
Proof. eexists. vm_compute. reflexivity. Qed.
