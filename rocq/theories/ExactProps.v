(** Partial properties said exactly: not only when the code does what it should, also what it does otherwise. *)
From Verif Require Import PyStrFacts ReportsModel ReportsProofs SuiteModel SuiteProps RunnerProofs.
From Verif Require Import ConfigModel ConfigProofs ConfigProps.
From Coq Require Import Lia.

(** ** C57 *)
Theorem C57_lines_exact ls : read_lines (Some (write_lines ls)) = ls <-> ls <> [] /\ Forall (fun l => ~ In NL l /\ ~ In CR l) ls.
Proof.
  split.
  - intros H. split; [intros ->; revert H; discriminate|]. rewrite <- H. apply Forall_forall. intros l I.
    assert (X : In l (split_on NL (univ_newlines (write_lines ls)))).
    { revert I. unfold read_lines. cbv zeta. generalize (split_on NL (univ_newlines (write_lines ls))). intros parts.
      destruct (last parts []); [|trivial]. induction parts as [|x r IH]; [trivial|]. destruct r as [|y r]; [intros []|]. intros [<-|Y]; [now left|right; now apply IH]. }
    apply univ_split_no_CR in X. tauto.
  - intros [A B]. now apply write_read_lines.
Qed.
Print Assumptions C57_lines_exact.

(** ** C53 *)
Lemma drop_length M p (cs : cases M) : length (drop_prefix p cs) <= length cs.
Proof. induction cs as [|[n m] cs IH]; [apply le_n|]. unfold drop_prefix in *. cbn [flat_map fst snd]. rewrite app_length. destruct (starts_with _ n); cbn [length app]; [apply le_n_S|apply le_S]; exact IH. Qed.
Theorem C53_drop_undoes_exact M p (cs : cases M) :
  drop_prefix p (test_suite p cs) = cs <-> cs = [] \/ p <> [] /\ Forall (fun c => starts_with (lit "/") (fst c) = false) cs.
Proof.
  split.
  - intros H. destruct cs as [|c0 cs0]; [now left|]. right.
    assert (KEPT : forall cs : list (str * M), @length (str * M) (drop_prefix p (test_suite p cs)) = length cs -> forall c, In c cs -> starts_with (full_prefix p) (path_join p (fst c)) = true).
    { induction cs as [|c cs IH]; [intros _ c []|]. cbn [test_suite map drop_prefix flat_map fst snd]. rewrite app_length. intros L.
      assert (LE : @length (str * M) (drop_prefix p (test_suite p cs)) <= length cs) by (pose proof (drop_length M p (test_suite p cs)) as LE; unfold test_suite at 2 in LE; rewrite map_length in LE; exact LE).
      match type of L with context [flat_map ?F (map ?G cs)] => change (flat_map F (map G cs)) with (drop_prefix p (test_suite p cs)) in L end.
      destruct (starts_with (full_prefix p) (path_join p (fst c))) eqn:S; cbn [length] in L; [|exfalso; unfold cases, str in *; lia].
      intros d [<-|I]; [exact S|]. apply IH; [unfold cases, str in *; lia|exact I]. }
    set (cs := c0 :: cs0) in *.
    assert (NAMES : forall c, In c cs -> skipn (length (full_prefix p)) (path_join p (fst c)) = fst c).
    { assert (Y : map fst (drop_prefix p (test_suite p cs)) = map fst cs) by now rewrite H.
      specialize (KEPT cs (f_equal (@length _) H)). clear H. revert KEPT Y. generalize cs. induction cs1 as [|c cs1 IH]; [intros _ _ c []|].
      intros K Y. cbn [test_suite map drop_prefix flat_map fst snd] in Y. rewrite (K c (or_introl eq_refl)) in Y. cbn [app map fst] in Y.
      injection Y as Y1 Y2. intros d [<-|I]; [exact Y1|]. apply IH; [intros e He; apply K; now right|exact Y2|exact I]. }
    assert (NOT : forall c, In c cs -> starts_with [SLASH] (fst c) = false /\ p <> []).
    { intros c I. specialize (KEPT cs (f_equal (@length _) H) c I). specialize (NAMES c I).
      assert (LEN : length (path_join p (fst c)) = length (full_prefix p) + length (fst c)).
      { apply starts_with_iff in KEPT as [r E]. rewrite E in NAMES |- *. rewrite skipn_app, skipn_all, Nat.sub_diag in NAMES. cbn [skipn app] in NAMES. rewrite app_length. now rewrite NAMES. }
      assert (POS : 0 < length (full_prefix p)).
      { unfold full_prefix. destruct (ends_with [SLASH] p) eqn:X; [|rewrite app_length; cbn [length]; lia]. destruct p; [discriminate X|cbn [length]; lia]. }
      split.
      - destruct (starts_with [SLASH] (fst c)) eqn:X; [|reflexivity]. unfold path_join in LEN. rewrite X in LEN. lia.
      - intros ->. unfold path_join in LEN. destruct (starts_with [SLASH] (fst c)); [lia|]. cbn in LEN. lia. }
    split; [apply (NOT c0); now left|]. apply Forall_forall. intros c I. exact (proj1 (NOT c I)).
  - intros [->|[NE F]]; [reflexivity|]. now apply C53_drop_undoes_partial.
Qed.
Print Assumptions C53_drop_undoes_exact.

(** ** C58 *)
(** a setting is what the last of this and the earlier invocations in the process set it to; if none did, what it is without them *)
Theorem C58_flags_exact cc f environ calls n c k :
  nth_error (exec_many cc None f environ calls) n = Some (Some c) ->
  let settings := flat_map (fun call => fst call ++ flag_settings (snd call)) (firstn (S n) calls) in
  (exists before v after, settings = before ++ (k, v) :: after /\ ~ In k (map fst after) /\ dget k c = Some v) \/
  (~ In k (map fst settings) /\ exists c0, resolve_default_config cc f environ (lit ".booktest") = Some c0 /\ dget k c = dget k c0).
Proof.
  assert (PUT : forall l c0 k, (exists before v after, l = before ++ (k, v) :: after /\ ~ In k (map fst after) /\ dget k (put_all l c0) = Some v) \/
    (~ In k (map fst l) /\ dget k (put_all l c0) = dget k c0)).
  { induction l as [|[k' v] l IH] using rev_ind; intros c0 k0; [right; split; [intros []|reflexivity]|].
    unfold put_all. rewrite fold_left_app. cbn [fold_left fst snd]. fold (put_all l c0).
    destruct (str_eqb_spec k0 k') as [->|NE].
    - left. exists l, v, []. split; [reflexivity|]. split; [intros []|]. apply dget_dput_same.
    - rewrite dget_dput_other by congruence. destruct (IH c0 k0) as [(b & w & a & -> & NI & G)|[NI G]].
      + left. exists b, w, (a ++ [(k', v)]). split; [now rewrite <- app_assoc|]. split; [|exact G]. rewrite map_app, in_app_iff. cbn. intuition congruence.
      + right. split; [|exact G]. rewrite map_app, in_app_iff. cbn. intuition congruence. }
  assert (MANY : forall calls n global c0 c, get_default_config cc global f environ = Some c0 ->
    nth_error (exec_many cc global f environ calls) n = Some (Some c) ->
    c = put_all (flat_map (fun call => fst call ++ flag_settings (snd call)) (firstn (S n) calls)) c0).
  { clear - cc. induction calls as [|[extra p] calls IH]; intros n global c0 c G H; [destruct n; discriminate H|].
    cbn [exec_many] in H. unfold exec_config in H. rewrite G in H.
    assert (ONE : forall l c0, put_all ((extra ++ flag_settings p) ++ l) c0 = put_all l (put_all (flag_settings p) (put_all extra c0))).
    { intros l c1. unfold put_all. now rewrite !fold_left_app. }
    destruct n as [|n].
    - cbn [nth_error] in H. injection H as <-. cbn [firstn flat_map fst snd]. now rewrite ONE.
    - cbn [nth_error] in H. change (firstn (S (S n)) ((extra, p) :: calls)) with ((extra, p) :: firstn (S n) calls). cbn [flat_map fst snd].
      rewrite ONE. refine (IH n _ _ c _ H). reflexivity. }
  intros H settings. destruct (get_default_config cc None f environ) as [c0|] eqn:G.
  - rewrite (MANY calls n None c0 c G H). destruct (PUT settings c0 k) as [X|[NI X]]; [now left|]. right. split; [exact NI|]. exists c0. split; [exact G|exact X].
  - exfalso. clear MANY PUT. unfold settings in *. clear settings. revert n H. induction calls as [|[extra p] calls IH]; intros n H; [destruct n; discriminate H|].
    cbn [exec_many] in H. unfold exec_config in H. rewrite G in H. destruct n; [discriminate H|]. exact (IH n H).
Qed.
Print Assumptions C58_flags_exact.

(** ** C52 *)
(** What each setting is after --setup, for all answers that fit on a line: the answer without the white space at its end, where 0 and 1
    are read as truth values. *)
Theorem C52_setup_exact cc show old answers :
  cc_space cc NL = true -> (forall c, In c (lit "abcdefghijklmnopqrstuvwxyz_=") -> cc_space cc c = false) ->
  length answers = length setup_keys ->
  let value key answer := match answer with
                          | [] => match dget key old with Some v => show_cval show v | None => config_defaults key end
                          | _ => answer end in
  (forall key answer, In (key, answer) (combine setup_keys answers) -> ~ In NL (value key answer) /\ ~ In CR (value key answer)) ->
  exists c, parse_config_file cc (Some (setup_file show old answers)) [] = Some c /\
    (forall key answer read spaces, In (key, answer) (combine setup_keys answers) ->
       value key answer = read ++ spaces -> Forall (fun x => cc_space cc x = true) spaces -> (forall w s, read = w ++ [s] -> cc_space cc s = false) ->
       dget key c = Some (if str_eqb read (lit "1") then VBool true else if str_eqb read (lit "0") then VBool false else VStr read)) /\
    (forall key, ~ In key setup_keys -> dget key c = None).
Proof.
  intros SN SL LN value HV.
  set (items := map (fun ka => (fst ka, prompt_value show old (fst ka) (snd ka))) (combine setup_keys answers)).
  set (cut := fun kv : str * str => (fst kv, rstrip (cc_space cc) (snd kv))).
  assert (PV : forall k a, prompt_value show old k a = value k a) by (intros k [|? ?]; reflexivity).
  assert (RS : forall sp s, exists ws, s = rstrip sp s ++ ws /\ Forall (fun x => sp x = true) ws /\ (forall w c, rstrip sp s = w ++ [c] -> sp c = false)).
  { intros sp s. induction s as [|c s IH] using rev_ind.
    - exists []. split; [reflexivity|]. split; [constructor|]. intros w c X. apply app_cons_not_nil in X. destruct X.
    - destruct (sp c) eqn:E.
      + rewrite rstrip_space by exact E. destruct IH as (ws & A & B & C). exists (ws ++ [c]). split; [rewrite app_assoc; congruence|]. split; [|exact C].
        apply Forall_app. split; [exact B|]. now constructor.
      + rewrite rstrip_last by exact E. exists []. rewrite app_nil_r. split; [reflexivity|]. split; [constructor|]. intros w d X. apply app_inj_tail in X as [_ <-]. exact E. }
  assert (UNIQ : forall sp r ws, Forall (fun x => sp x = true) ws -> (forall w c, r = w ++ [c] -> sp c = false) -> rstrip sp (r ++ ws) = r).
  { intros sp r ws F L. induction ws as [|x ws IH] using rev_ind.
    - rewrite app_nil_r. destruct r as [|y r'] using rev_ind; [reflexivity|]. apply rstrip_last. eapply L. reflexivity.
    - apply Forall_app in F as [F X]. inversion X; subst. rewrite app_assoc, rstrip_space by assumption. now apply IH. }
  assert (KEYS : map fst items = setup_keys).
  { unfold items. rewrite map_map. cbn [fst]. clear -LN. revert LN. generalize setup_keys.
    induction answers as [|a answers IH]; intros [|k ks]; try discriminate; [reflexivity|].
    cbn. intros [= L]. f_equal. now apply IH. }
  assert (KEYS' : map fst (map cut items) = setup_keys) by (rewrite map_map; exact KEYS).
  assert (KOK : forall k, In k setup_keys -> (forall c, In c k -> In c (lit "abcdefghijklmnopqrstuvwxyz_")) /\ k <> [] /\ starts_with [HASH] k = false).
  { intros k IK. assert (K : forallb (fun c => existsb (N.eqb c) (lit "abcdefghijklmnopqrstuvwxyz_")) k = true /\ k <> [] /\ starts_with [HASH] k = false).
    { clear -IK. repeat (destruct IK as [<-|IK]; [repeat split; discriminate|]). destruct IK. }
    destruct K as (K & KN & KH). split; [|split; assumption]. rewrite forallb_forall in K.
    intros c Ic. apply K in Ic. apply existsb_exists in Ic. destruct Ic as (d & Id & E). apply N.eqb_eq in E. now subst. }
  assert (ITEM : forall k v, In (k, v) items -> In k setup_keys /\ ~ In NL v /\ ~ In CR v).
  { intros k v I. split; [rewrite <- KEYS; apply in_map_iff; now exists (k, v)|]. unfold items in I. apply in_map_iff in I. destruct I as ([k' a] & [= -> <-] & I).
    cbn [fst snd]. rewrite PV. exact (HV k a I). }
  (* the file parses like the one with the white space cut off *)
  assert (SAME : parse_config_file cc (Some (setup_text items)) [] = parse_config_file cc (Some (setup_text (map cut items))) []).
  { cbn [parse_config_file].
    assert (NC : forall l, (forall k v, In (k, v) l -> In k setup_keys /\ ~ In NL v /\ ~ In CR v) -> ~ In CR (setup_text l)).
    { induction l as [|[k v] l IH]; intros Hl; [intros []|]. cbn [setup_text]. unfold setup_item. destruct (Hl k v (or_introl eq_refl)) as (IK & _ & NR).
      destruct (KOK k IK) as (KC & _). rewrite !in_app_iff. intros [[I|[I|[I|[I|I]]]]|I].
      - apply in_flat_map in I. destruct I as (m & Im & I). pose proof (comments_ok k) as CO. rewrite Forall_forall in CO.
        destruct (CO m Im) as (_ & _ & NR'). rewrite in_app_iff in I. destruct I as [I|[I|[]]]; [contradiction|discriminate I].
      - apply KC in I. cbn in I. intuition discriminate.
      - destruct I as [I|[]]; discriminate I.
      - contradiction.
      - destruct I as [I|[I|[]]]; discriminate I.
      - revert I. apply IH. intros k' v' I'. apply Hl. now right. }
    assert (ITEM' : forall k v, In (k, v) (map cut items) -> In k setup_keys /\ ~ In NL v /\ ~ In CR v).
    { intros k v I. apply in_map_iff in I as ([k' v'] & [= <- <-] & I). destruct (ITEM k' v' I) as (A & B & C). split; [exact A|].
      destruct (RS (cc_space cc) v') as (ws & E & _). split; intros X; [apply B|apply C]; rewrite E; apply in_app_iff; now left. }
    rewrite (univ_newlines_id _ (NC items ITEM)), (univ_newlines_id _ (NC _ ITEM')). clear NC ITEM'.
    generalize (@nil (str * cval)). revert ITEM. generalize items. clear - SN SL KOK RS UNIQ. intros items. induction items as [|[k v] items IH]; intros ITEM c; [reflexivity|].
    cbn [map setup_text cut fst snd]. unfold setup_item. rewrite <- !app_assoc. rewrite !lines_of_comments by apply comments_ok.
    rewrite !parse_lines_app, !parse_comments by apply comments_ok.
    destruct (ITEM k v (or_introl eq_refl)) as (IK & NN & NR). destruct (KOK k IK) as (KC & KN & KH).
    destruct (RS (cc_space cc) v) as (ws & E & F & L). set (r := rstrip (cc_space cc) v) in *. clearbody r. subst v.
    rewrite in_app_iff in NN.
    assert (NL1 : ~ In NL (k ++ [EQS] ++ r ++ ws)).
    { rewrite !in_app_iff. intros [I|[I|[I|I]]]; [apply KC in I; cbn in I; intuition discriminate|cbn in I; intuition discriminate|tauto|tauto]. }
    assert (NL2 : ~ In NL (k ++ [EQS] ++ r)).
    { rewrite !in_app_iff. intros [I|[I|I]]; [apply KC in I; cbn in I; intuition discriminate|cbn in I; intuition discriminate|tauto]. }
    replace (k ++ [EQS] ++ (r ++ ws) ++ [NL; NL] ++ setup_text items) with ((k ++ [EQS] ++ r ++ ws) ++ NL :: ([] ++ NL :: setup_text items)) by (rewrite <- !app_assoc; reflexivity).
    replace (k ++ [EQS] ++ r ++ [NL; NL] ++ setup_text (map cut items)) with ((k ++ [EQS] ++ r) ++ NL :: ([] ++ NL :: setup_text (map cut items))) by (rewrite <- !app_assoc; reflexivity).
    rewrite !file_lines_cons by first [assumption|intros []]. cbn [parse_lines].
    assert (EQ : parse_line cc ((k ++ [EQS] ++ r ++ ws) ++ [NL]) c = parse_line cc ((k ++ [EQS] ++ r) ++ [NL]) c).
    { unfold parse_line. destruct k as [|k0 k]; [congruence|]. 
      assert (S0 : cc_space cc k0 = false) by (apply SL; change (lit "abcdefghijklmnopqrstuvwxyz_=") with (lit "abcdefghijklmnopqrstuvwxyz_" ++ lit "="); apply in_app_iff; left; apply KC; now left).
      assert (ST : strip (cc_space cc) (((k0 :: k) ++ [EQS] ++ r ++ ws) ++ [NL]) = strip (cc_space cc) (((k0 :: k) ++ [EQS] ++ r) ++ [NL])).
      { unfold strip. cbn [app]. rewrite !lstrip_head by exact S0. 
        assert (CUT : forall l ws, Forall (fun x => cc_space cc x = true) ws -> rstrip (cc_space cc) (l ++ ws) = rstrip (cc_space cc) l).
        { intros l ws'. induction ws' as [|x ws' IHw] using rev_ind; [now rewrite app_nil_r|]. intros F'. apply Forall_app in F' as [F' X]. inversion X; subst. rewrite app_assoc, rstrip_space by assumption. now apply IHw. }
        change (k0 :: (k ++ EQS :: r ++ ws) ++ [NL]) with ((k0 :: k ++ EQS :: r ++ ws) ++ [NL]). change (k0 :: (k ++ EQS :: r) ++ [NL]) with ((k0 :: k ++ EQS :: r) ++ [NL]).
        rewrite !rstrip_space by exact SN.
        replace (k0 :: k ++ EQS :: r ++ ws) with ((k0 :: k ++ EQS :: r) ++ ws) by (cbn [app]; rewrite <- app_assoc; reflexivity). now apply CUT. }
      rewrite ST. reflexivity. }
    rewrite EQ. destruct (parse_line cc ((k ++ [EQS] ++ r) ++ [NL]) c); [|reflexivity]. destruct (parse_line cc ([] ++ [NL]) c0); [|reflexivity].
    apply IH. intros k' v' I'. apply ITEM. now right. }
  assert (OK : Forall (item_ok cc) (map cut items)).
  { apply Forall_forall. intros [k v] I. apply in_map_iff in I as ([k' v'] & [= <- <-] & I). destruct (ITEM k' v' I) as (IK & NN & NR). destruct (KOK k' IK) as (KC & KN & KH).
    destruct (RS (cc_space cc) v') as (ws & E & F & L). set (r := rstrip (cc_space cc) v') in *. clearbody r. subst v'. rewrite in_app_iff in NN, NR.
    assert (NO : forall x, ~ In x (lit "abcdefghijklmnopqrstuvwxyz_") -> ~ In x k') by (intros x H X; now apply H, KC).
    unfold item_ok. cbn [cut fst snd]. split; [|split; [|split; [|split]]].
    - split; [destruct k'; discriminate|]. split.
      + destruct k' as [|c k']; [congruence|]. cbn [app hd]. apply SL. change (lit "abcdefghijklmnopqrstuvwxyz_=") with (lit "abcdefghijklmnopqrstuvwxyz_" ++ lit "=").
        rewrite in_app_iff. left. apply KC. now left.
      + destruct r as [|z r'] using rev_ind.
        * rewrite app_nil_r, last_last. apply SL. cbn. tauto.
        * rewrite !app_assoc, last_last. eapply L. reflexivity.
    - rewrite !in_app_iff. intros [I2|[I2|I2]]; [revert I2; apply NO; cbn; intuition discriminate|cbn in I2; intuition discriminate|tauto].
    - rewrite !in_app_iff. intros [I2|[I2|I2]]; [revert I2; apply NO; cbn; intuition discriminate|cbn in I2; intuition discriminate|tauto].
    - apply NO. cbn. intuition discriminate.
    - destruct k' as [|c k']; [congruence|]. exact KH. }
  assert (ND : NoDup (map fst (map cut items))).
  { rewrite KEYS'. repeat constructor; cbn; intuition discriminate. }
  destruct (put_items (map cut items) [] ND) as [A B].
  eexists. split; [|split].
  - change (setup_file show old answers) with (setup_text items). etransitivity; [exact SAME|]. exact (parse_setup cc SN (map cut items) OK []).
  - intros key answer read spaces I E F L. rewrite (A key read); [reflexivity|].
    apply in_map_iff. exists (key, value key answer). split.
    + unfold cut. cbn [fst snd]. f_equal. rewrite E. now apply UNIQ.
    + unfold items. apply in_map_iff. exists (key, answer). cbn [fst snd]. now rewrite PV.
  - intros key NK. rewrite B; [reflexivity|]. now rewrite KEYS'.
Qed.
Print Assumptions C52_setup_exact.
(** answers with white space at the end, and 1 for a tool *)
Example C52_exact_ex : exists c, parse_config_file ascii_class (Some (setup_file (fun _ => []) [] [lit "meld "; lit "1"; []; []; []; []; []])) [] = Some c /\
  dget (lit "diff_tool") c = Some (VStr (lit "meld")) /\ dget (lit "fast_diff_tool") c = Some (VBool true) /\ dget (lit "books_path") c = Some (VStr (lit "books")).
Proof. eexists. split; [vm_compute; reflexivity|]. repeat split. Qed.
Example C58_exact_ex : exists c,
  nth_error (exec_many ascii_class None [] [] [([], accept_flag); ([(lit "accept", VBool false)], no_flags); ([], no_flags)]) 2 = Some (Some c) /\
  dget (lit "accept") c = Some (VBool false).
Proof. eexists. split; [vm_compute; reflexivity|reflexivity]. Qed.
Example C53_exact_ex : drop_prefix [] (test_suite [] [(lit "a", 1)]) = [] /\ drop_prefix (lit "t") (test_suite (lit "t") [(lit "a", 1); (lit "/b", 2)]) = [(lit "a", 1)].
Proof. split; reflexivity. Qed.
