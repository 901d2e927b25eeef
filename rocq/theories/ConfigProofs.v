From Verif Require Import PyStrFacts ConfigModel.
From Coq Require Import Lia.

Section Dict.
  Context {V : Type}.
  Implicit Types d : list (str * V).
  Lemma dget_dput k v d m : dget m (dput k v d) = if str_eqb m k then Some v else dget m d.
  Proof.
    induction d as [|[n w] d IH]; cbn [dput dget]; [reflexivity|].
    destruct (str_eqb k n) eqn:E; cbn [dget].
    - apply str_eqb_eq in E. subst n. destruct (str_eqb m k); reflexivity.
    - rewrite IH. destruct (str_eqb m n) eqn:E2; [|reflexivity]. apply str_eqb_eq in E2. subst n.
      destruct (str_eqb m k) eqn:E3; [|reflexivity]. apply str_eqb_eq in E3. subst k.
      rewrite str_eqb_refl in E. discriminate.
  Qed.
  Lemma dget_dput_same k v d : dget k (dput k v d) = Some v.
  Proof. rewrite dget_dput, str_eqb_refl. reflexivity. Qed.
  Lemma dget_dput_other k v d m : m <> k -> dget m (dput k v d) = dget m d.
  Proof. intros H. rewrite dget_dput. apply str_eqb_neq in H. now rewrite H. Qed.
End Dict.

(** the last element of a list that sets something *)
Definition last_of {A V} (sets : A -> V -> Prop) (l : list A) (r : option V) : Prop :=
  match r with
  | Some v => exists l1 a l2, l = l1 ++ a :: l2 /\ sets a v /\ forall b w, In b l2 -> ~ sets b w
  | None => forall b w, In b l -> ~ sets b w
  end.

Lemma last_of_cons {A V} (sets : A -> V -> Prop) a l r :
  last_of sets l r -> match r with Some v => last_of sets (a :: l) (Some v) | None =>
    (forall v, sets a v -> last_of sets (a :: l) (Some v)) /\ ((forall v, ~ sets a v) -> last_of sets (a :: l) None) end.
Proof.
  destruct r as [v|]; cbn.
  - intros (l1 & x & l2 & -> & S & N). exists (a :: l1), x, l2. auto.
  - intros N. split.
    + intros v S. exists [], a, l. auto.
    + intros NA b w [<-|I]; auto.
Qed.

(** ** lines *)
Lemma file_lines_concat s : concat (file_lines s) = s.
Proof.
  induction s as [|c s IH]; [reflexivity|]. cbn [file_lines]. destruct (N.eqb c NL) eqn:E.
  - cbn. now rewrite IH.
  - destruct (file_lines s) as [|l ls]; cbn in *; [now rewrite <- IH|]. now rewrite IH.
Qed.

Definition is_line (l : str) : Prop := exists x, ~ In NL x /\ (l = x ++ [NL] \/ (l = x /\ x <> [])).

Lemma file_lines_shape s :
  Forall is_line (file_lines s) /\
  (forall a l b, file_lines s = a ++ l :: b -> b <> [] -> exists x, ~ In NL x /\ l = x ++ [NL]).
Proof.
  induction s as [|c s [IH1 IH2]]; [split; [constructor|]; intros [|? ?]; discriminate|]. cbn [file_lines].
  destruct (N.eqb_spec c NL) as [->|NE].
  - split.
    + constructor; [|assumption]. exists []. split; [tauto|now left].
    + intros a l b E Hb. destruct a as [|a0 a].
      * injection E as <- <-. exists []. split; [tauto|reflexivity].
      * injection E as <- E. eapply IH2; eauto.
  - destruct (file_lines s) as [|l ls] eqn:EL.
    + split.
      * constructor; [|constructor]. exists [c]. split; [intros [X|[]]; congruence|]. right. split; [reflexivity|discriminate].
      * intros a l b E Hb. destruct a as [|a0 [|? ?]]; [|discriminate|discriminate]. now injection E as <- <-.
    + inversion IH1 as [|? ? HL HLS]; subst. destruct HL as (x & NX & HX). split.
      * constructor; [|assumption]. exists (c :: x). split; [intros [X|]; [congruence|contradiction]|].
        destruct HX as [->|[-> _]]; [now left|right; split; [reflexivity|discriminate]].
      * intros a l' b E Hb. destruct a as [|a0 a].
        -- injection E as <- <-. destruct (IH2 [] l ls eq_refl Hb) as (y & NY & ->). exists (c :: y).
           split; [intros [X|]; [congruence|contradiction]|reflexivity].
        -- injection E as <- E. apply (IH2 (l :: a) l' b); [now rewrite E|assumption].
Qed.

Lemma file_lines_cons x s : ~ In NL x -> file_lines (x ++ NL :: s) = (x ++ [NL]) :: file_lines s.
Proof.
  induction x as [|c x IH]; intros H; [reflexivity|]. cbn [app file_lines].
  destruct (N.eqb_spec c NL) as [->|NE]; [exfalso; apply H; now left|].
  rewrite IH; [reflexivity|]. intros I. apply H. now right.
Qed.

(** ** split('=', 1) *)
Lemma split_eq_iff s k v : split_eq s = Some (k, v) <-> s = k ++ EQS :: v /\ ~ In EQS k.
Proof.
  unfold split_eq. destruct (span (fun c => negb (N.eqb c EQS)) s) as [a b] eqn:E. split.
  - destruct b as [|c b]; [discriminate|]. intros [= -> ->].
    pose proof (span_app _ _ _ _ E) as EA. pose proof (span_forall _ _ _ _ E) as EF. pose proof (span_head _ _ _ _ E) as EH.
    cbn in EH. apply negb_false_iff, N.eqb_eq in EH. subst c. split; [assumption|].
    intros I. rewrite Forall_forall in EF. apply EF in I. now rewrite N.eqb_refl in I.
  - intros [-> NI]. assert (span (fun c => negb (N.eqb c EQS)) (k ++ EQS :: v) = (k, EQS :: v)) as X.
    { apply span_unique; [|now cbn]. apply Forall_forall. intros c I. apply negb_true_iff, N.eqb_neq. now intros ->. }
    rewrite X in E. injection E as <- <-. reflexivity.
Qed.

Lemma split_eq_none s : split_eq s = None <-> ~ In EQS s.
Proof.
  split.
  - intros H I. apply in_split in I. destruct I as (a & b & ->).
    destruct (in_dec N.eq_dec EQS a) as [I|NI].
    + (* first occurrence *)
      assert (X : exists u w, a ++ EQS :: b = u ++ EQS :: w /\ ~ In EQS u).
      { clear H. revert I. generalize (EQS :: b) as t. induction a as [|c a IH]; [intros ? []|]. intros t I.
        destruct (N.eq_dec c EQS) as [->|NE]; [exists [], (a ++ t); auto|].
        destruct I as [->|I]; [congruence|]. destruct (IH t I) as (u & w & E & N). exists (c :: u), w.
        split; [cbn; now rewrite E|]. intros [->|]; congruence. }
      destruct X as (u & w & E & N). assert (split_eq (a ++ EQS :: b) = Some (u, w)) by (apply split_eq_iff; auto). congruence.
    + assert (split_eq (a ++ EQS :: b) = Some (a, b)) by (apply split_eq_iff; auto). congruence.
  - intros NI. destruct (split_eq s) as [[k v]|] eqn:E; [|reflexivity]. apply split_eq_iff in E. destruct E as [-> _].
    destruct NI. rewrite in_app_iff. right. now left.
Qed.

Section Config.
  Variable cc : CharClass.

  (** [line] sets [k] to [v] *)
  Definition line_sets (k : str) (line v : str) : Prop :=
    starts_with [HASH] line = false /\ strip (cc_space cc) line = k ++ [EQS] ++ v /\ ~ In EQS k.

  Lemma parse_line_spec line c c' : parse_line cc line c = Some c' ->
    (exists k v, line_sets k line v /\ c' = dput k (parse_config_value v) c) \/
    ((forall k v, ~ line_sets k line v) /\ c' = c).
  Proof.
    unfold parse_line, line_sets. destruct (starts_with [HASH] line); cbn [orb].
    - intros [= <-]. right. split; [|reflexivity]. now intros k v [H _].
    - destruct (strip (cc_space cc) line) as [|x s] eqn:E.
      + intros [= <-]. right. split; [|reflexivity]. intros k v (_ & H & _). destruct k; discriminate.
      + destruct (split_eq (x :: s)) as [[k v]|] eqn:ES; [|discriminate]. intros [= <-].
        apply split_eq_iff in ES. left. exists k, v. repeat split; tauto.
  Qed.

  Lemma line_sets_fun line k v k' v' : line_sets k line v -> line_sets k' line v' -> k = k' /\ v = v'.
  Proof.
    intros (_ & E & N) (_ & E' & N'). assert (split_eq (strip (cc_space cc) line) = Some (k, v)) by (apply split_eq_iff; auto).
    assert (split_eq (strip (cc_space cc) line) = Some (k', v')) by (apply split_eq_iff; auto).
    rewrite H in H0. now injection H0.
  Qed.

  Lemma parse_lines_spec lines : forall c c' k, parse_lines cc lines c = Some c' ->
    exists r, last_of (line_sets k) lines r /\
      dget k c' = match r with Some v => Some (parse_config_value v) | None => dget k c end.
  Proof.
    induction lines as [|l lines IH]; intros c c' k; cbn [parse_lines].
    - intros [= <-]. exists None. split; [intros ? ? []|reflexivity].
    - destruct (parse_line cc l c) as [c1|] eqn:E; [|discriminate]. intros H.
      destruct (IH c1 c' k H) as (r & L & D). pose proof (last_of_cons _ l _ _ L) as LC.
      destruct r as [v|]; [exists (Some v); split; [exact LC|exact D]|]. destruct LC as [LA LB].
      destruct (parse_line_spec _ _ _ E) as [(k1 & v1 & S & ->)|[NS ->]].
      + rewrite dget_dput in D. destruct (str_eqb_spec k k1) as [->|NE].
        * exists (Some v1). split; [apply LA, S|exact D].
        * exists None. split; [|exact D]. apply LB. intros v S'. apply NE. eapply line_sets_fun in S; [|exact S']. tauto.
      + exists None. split; [apply LB; intros; apply NS|exact D].
  Qed.

  Definition bad_line (l : str) : Prop :=
    starts_with [HASH] l = false /\ strip (cc_space cc) l <> [] /\ ~ In EQS (strip (cc_space cc) l).

  Lemma parse_lines_none lines : forall c, parse_lines cc lines c = None <-> exists l, In l lines /\ bad_line l.
  Proof.
    induction lines as [|l lines IH]; intros c; cbn [parse_lines].
    - split; [discriminate|]. intros (? & [] & _).
    - destruct (parse_line cc l c) as [c1|] eqn:E.
      + rewrite IH. split; [intros (x & I & B); exists x; split; [now right|exact B]|].
        intros (x & [<-|I] & B); [|eauto]. exfalso. destruct B as (B1 & B2 & B3). unfold parse_line in E.
        rewrite B1 in E. cbn [orb] in E. destruct (strip (cc_space cc) l) eqn:ES; [congruence|].
        apply split_eq_none in B3. rewrite B3 in E. discriminate.
      + split; [|reflexivity]. intros _. exists l. split; [now left|]. unfold parse_line in E. unfold bad_line.
        destruct (starts_with [HASH] l); [discriminate|]. cbn [orb] in E.
        destruct (strip (cc_space cc) l) eqn:ES; [discriminate|].
        destruct (split_eq _) as [[? ?]|] eqn:EQ in E; [discriminate|]. apply split_eq_none in EQ. repeat split; [discriminate|exact EQ].
  Qed.

  (** an environment variable sets [k] *)
  Definition env_sets (k : str) (var : str * str) (v : str) : Prop :=
    snd var = v /\ exists r, fst var = lit "BOOKTEST_" ++ r /\ str_lower cc r = k.

  Lemma add_env_spec environ : forall c k,
    exists r, last_of (env_sets k) environ r /\
      dget k (add_env cc environ c) = match r with Some v => Some (parse_config_value v) | None => dget k c end.
  Proof.
    induction environ as [|[n v] environ IH]; intros c k; cbn [add_env].
    - exists None. split; [intros ? ? []|reflexivity].
    - set (c1 := if starts_with env_prefix n then _ else _).
      destruct (IH c1 k) as (r & L & D). pose proof (last_of_cons _ (n, v) _ _ L) as LC.
      destruct r as [w|]; [exists (Some w); split; [exact LC|exact D]|]. destruct LC as [LA LB].
      unfold c1 in D. destruct (starts_with env_prefix n) eqn:E.
      + apply starts_with_iff in E. destruct E as [s ->].
        rewrite skipn_app, skipn_all, Nat.sub_diag in D. cbn [skipn app] in D. rewrite dget_dput in D.
        destruct (str_eqb_spec k (str_lower cc s)) as [->|NE].
        * exists (Some v). split; [|exact D]. apply LA. split; [reflexivity|]. now exists s.
        * exists None. split; [|exact D]. apply LB. intros w (_ & s' & E & EL). cbn [fst] in E. apply app_inv_head in E. congruence.
      + exists None. split; [|exact D]. apply LB. intros w (_ & s' & E' & _). cbn [fst] in E'. subst n.
        unfold env_prefix in E. rewrite starts_with_app in E. discriminate.
  Qed.

  Definition text_lines (file : option str) : list str :=
    match file with Some t => file_lines (univ_newlines t) | None => [] end.

  Lemma parse_file_lines file c : parse_config_file cc file c = parse_lines cc (text_lines file) c.
  Proof. now destruct file. Qed.

  Lemma resolve_spec f environ cf c k : resolve_default_config cc f environ cf = Some c ->
    exists e p h, last_of (env_sets k) environ e /\ last_of (line_sets k) (text_lines (lookup cf f)) p /\
      last_of (line_sets k) (text_lines (lookup (lit "~/.booktest") f)) h /\
      dget k c = match e, p, h with
                 | Some v, _, _ => Some (parse_config_value v)
                 | None, Some v, _ => Some (parse_config_value v)
                 | None, None, Some v => Some (parse_config_value v)
                 | None, None, None => None
                 end.
  Proof.
    unfold resolve_default_config. rewrite parse_file_lines.
    destruct (parse_lines cc _ []) as [c1|] eqn:E1; [|discriminate]. rewrite parse_file_lines.
    destruct (parse_lines cc _ c1) as [c2|] eqn:E2; [|discriminate]. intros [= <-].
    destruct (parse_lines_spec _ _ _ k E1) as (h & LH & DH). destruct (parse_lines_spec _ _ _ k E2) as (p & LP & DP).
    destruct (add_env_spec environ c2 k) as (e & LE & DE). exists e, p, h. repeat (split; [assumption|]).
    rewrite DE, DP, DH. destruct e, p, h; reflexivity.
  Qed.
End Config.

(** ** setup *)
Lemma parse_lines_app cc a b c : parse_lines cc (a ++ b) c =
  match parse_lines cc a c with Some c' => parse_lines cc b c' | None => None end.
Proof.
  revert c. induction a as [|l a IH]; intros c; cbn [app parse_lines]; [reflexivity|].
  destruct (parse_line cc l c); [apply IH|reflexivity].
Qed.

Lemma comments_ok k : Forall (fun l => starts_with [HASH] l = true /\ ~ In NL l /\ ~ In CR l) (config_comments k).
Proof.
  assert (D : forall l, Forall (fun l => starts_with [HASH] l && forallb (fun c => negb (N.eqb c NL) && negb (N.eqb c CR)) l = true) l ->
     Forall (fun l => starts_with [HASH] l = true /\ ~ In NL l /\ ~ In CR l) l).
  { intros l. apply Forall_impl. intros x H. apply andb_true_iff in H. destruct H as [A B].
    rewrite forallb_forall in B. split; [exact A|].
    split; intros I; apply B in I; rewrite N.eqb_refl in I; rewrite ?andb_false_r in I; discriminate. }
  apply D. unfold config_comments.
  repeat match goal with |- context [if ?b then _ else _] => destruct b end; repeat constructor.
Qed.

Lemma lines_of_comments cs s : Forall (fun l => starts_with [HASH] l = true /\ ~ In NL l /\ ~ In CR l) cs ->
  file_lines (flat_map (fun l => l ++ [NL]) cs ++ s) = map (fun l => l ++ [NL]) cs ++ file_lines s.
Proof.
  induction 1 as [|l cs (_ & N & _) _ IH]; [reflexivity|]. cbn [flat_map map app].
  rewrite <- !app_assoc. cbn [app]. rewrite file_lines_cons by assumption. now rewrite IH.
Qed.

Lemma parse_comments cc cs c : Forall (fun l => starts_with [HASH] l = true /\ ~ In NL l /\ ~ In CR l) cs ->
  parse_lines cc (map (fun l => l ++ [NL]) cs) c = Some c.
Proof.
  induction 1 as [|l cs (H & _) _ IH]; [reflexivity|]. cbn [map parse_lines]. unfold parse_line.
  assert (starts_with [HASH] (l ++ [NL]) = true) as ->.
  { apply starts_with_iff in H. destruct H as [r ->]. rewrite <- app_assoc. apply starts_with_app. }
  exact IH.
Qed.

Lemma rstrip_space sp s c : sp c = true -> rstrip sp (s ++ [c]) = rstrip sp s.
Proof. intros H. unfold rstrip, lstrip. rewrite rev_app_distr. cbn [rev app span]. rewrite H. now destruct (span sp (rev s)). Qed.

(** a text that neither starts nor ends with white space *)
Definition tight (sp : char -> bool) (s : str) : Prop :=
  s <> [] /\ sp (hd 0%N s) = false /\ sp (last s 0%N) = false.

Lemma strip_tight sp s : tight sp s -> sp NL = true -> strip sp (s ++ [NL]) = s.
Proof.
  intros (NE & H & L) N. unfold strip. destruct s as [|x s]; [congruence|]. cbn [hd] in H.
  cbn [app]. rewrite lstrip_head by assumption. change (x :: s ++ [NL]) with ((x :: s) ++ [NL]).
  rewrite rstrip_space by assumption. destruct (exists_last NE) as (t & z & E). rewrite E in *.
  rewrite last_last in L. now apply rstrip_last.
Qed.

Section Setup.
  Variable cc : CharClass.
  Hypothesis space_nl : cc_space cc NL = true.

  Definition item_ok (kv : str * str) : Prop :=
    let line := fst kv ++ [EQS] ++ snd kv in
    tight (cc_space cc) line /\ ~ In NL line /\ ~ In CR line /\ ~ In EQS (fst kv) /\ starts_with [HASH] line = false.

  Lemma parse_setup items : Forall item_ok items -> forall c,
    parse_config_file cc (Some (setup_text items)) c =
    Some (fold_left (fun c kv => dput (fst kv) (parse_config_value (snd kv)) c) items c).
  Proof.
    intros H. cbn [parse_config_file].
    assert (NC : ~ In CR (setup_text items)).
    { induction H as [|[k v] items OK _ IH]; [intros []|]. cbn [setup_text]. unfold setup_item.
      destruct OK as (_ & _ & NCR & _). cbn [fst snd] in NCR.
      rewrite !in_app_iff in *. cbn [In] in *. intros [[I|[I|[I|[I|I]]]]|I]; try tauto.
      - apply in_flat_map in I. destruct I as (l & Il & I). pose proof (comments_ok k) as CO. rewrite Forall_forall in CO.
        destruct (CO l Il) as (_ & _ & NR). rewrite in_app_iff in I. destruct I as [I|[I|[]]]; [contradiction|discriminate].
      - destruct I as [I|[I|[]]]; discriminate. }
    rewrite univ_newlines_id by assumption. clear NC.
    induction H as [|[k v] items OK _ IH]; intros c; [reflexivity|]. cbn [setup_text fold_left fst snd].
    unfold setup_item. rewrite <- !app_assoc. rewrite lines_of_comments by apply comments_ok.
    rewrite parse_lines_app, parse_comments by apply comments_ok.
    destruct OK as (T & NN & _ & NE & NH). cbn [fst snd] in *.
    set (line := k ++ [EQS] ++ v) in *.
    replace (k ++ [EQS] ++ v ++ [NL; NL] ++ setup_text items) with (line ++ NL :: ([] ++ NL :: setup_text items))
      by (unfold line; rewrite <- !app_assoc; reflexivity).
    rewrite file_lines_cons by assumption. rewrite file_lines_cons by (intros []). cbn [parse_lines].
    assert (P1 : parse_line cc (line ++ [NL]) c = Some (dput k (parse_config_value v) c)).
    { unfold parse_line. rewrite strip_tight by assumption.
      assert (starts_with [HASH] (line ++ [NL]) = false) as ->.
      { destruct T as (TE & _). destruct line; [congruence|]. exact NH. }
      cbn [orb]. destruct line as [|x s] eqn:EL; [now destruct T|].
      assert (split_eq (x :: s) = Some (k, v)) as ->; [|reflexivity].
      apply split_eq_iff. split; [|assumption]. rewrite <- EL. unfold line. reflexivity. }
    rewrite P1. cbn [app].
    assert (P2 : forall c, parse_line cc [NL] c = Some c).
    { intros c0. unfold parse_line. replace (strip (cc_space cc) [NL]) with (@nil char).
      - now rewrite orb_true_r.
      - symmetry. apply strip_nil_iff. now repeat constructor. }
    rewrite P2. apply IH.
  Qed.

  Lemma put_items items : forall c, NoDup (map fst items) ->
    (forall k v, In (k, v) items -> dget k (fold_left (fun c kv => dput (fst kv) (parse_config_value (snd kv)) c) items c) = Some (parse_config_value v)) /\
    (forall k, ~ In k (map fst items) -> dget k (fold_left (fun c kv => dput (fst kv) (parse_config_value (snd kv)) c) items c) = dget k c).
  Proof.
    induction items as [|[k0 v0] items IH]; intros c ND; cbn [fold_left map fst snd].
    - split; [intros ? ? []|reflexivity].
    - inversion ND as [|? ? NI ND']; subst. destruct (IH (dput k0 (parse_config_value v0) c) ND') as [A B]. split.
      + intros k v [[= <- <-]|I]; [|now apply A]. rewrite B by assumption. apply dget_dput_same.
      + intros k HN. cbn in HN. rewrite B by tauto. apply dget_dput_other. intros ->. tauto.
  Qed.
End Setup.

(** ** invocations *)
Lemma put_all_get settings : forall c k, ~ In k (map fst settings) -> dget k (put_all settings c) = dget k c.
Proof.
  unfold put_all. induction settings as [|[n v] settings IH]; intros c k H; [reflexivity|]. cbn [fold_left fst snd].
  cbn in H. rewrite IH by tauto. apply dget_dput_other. intros ->. tauto.
Qed.

Lemma put_all_same settings : forall c c' k, dget k c = dget k c' -> dget k (put_all settings c) = dget k (put_all settings c').
Proof.
  unfold put_all. induction settings as [|[n v] settings IH]; intros c c' k H; [exact H|]. cbn [fold_left fst snd].
  apply IH. rewrite !dget_dput. now destruct (str_eqb k n).
Qed.

Definition call_sets (k : str) (call : list (str * cval) * flags) : Prop :=
  In k (map fst (fst call ++ flag_settings (snd call))).

Lemma exec_many_get cc f environ k : forall calls global c0,
  get_default_config cc global f environ = Some c0 ->
  forall n call c, nth_error calls n = Some call -> nth_error (exec_many cc global f environ calls) n = Some (Some c) ->
  (forall j earlier, j < n -> nth_error calls j = Some earlier -> ~ call_sets k earlier) ->
  dget k c = dget k (put_all (flag_settings (snd call)) (put_all (fst call) c0)).
Proof.
  induction calls as [|[extra p] calls IH]; intros global c0 G n call c HC HN HE; [destruct n; discriminate|].
  cbn [exec_many] in HN. unfold exec_config in HN. rewrite G in HN. destruct n as [|n].
  - cbn [nth_error] in *. injection HC as <-. injection HN as <-. reflexivity.
  - cbn [nth_error] in *. set (c1 := put_all (flag_settings p) (put_all extra c0)) in *.
    assert (K : dget k c1 = dget k c0).
    { assert (NS : ~ call_sets k (extra, p)) by (apply (HE 0); [lia|reflexivity]).
      unfold call_sets in NS. cbn [fst snd] in NS. rewrite map_app, in_app_iff in NS.
      unfold c1. rewrite !put_all_get; tauto. }
    rewrite (IH (Some c1) c1 eq_refl n call c HC HN).
    + apply put_all_same, put_all_same, K.
    + intros j earlier Hj. apply (HE (S j)). lia.
Qed.

(** ** accepted arguments *)
Lemma prefixes_acc acc parts x : acc <> [] ->
  (In x (prefixes acc parts) <-> exists l1 l2, parts = l1 ++ l2 /\ l1 <> [] /\ x = acc ++ [SLASH] ++ join_with [SLASH] l1).
Proof.
  revert acc. induction parts as [|p parts IH]; intros acc HA; cbn [prefixes].
  - split; [intros []|]. intros (l1 & l2 & E & N & _). destruct l1; [congruence|discriminate].
  - destruct acc as [|a0 acc0] eqn:EA; [congruence|]. rewrite <- EA in *.
    replace ((acc ++ [SLASH]) ++ p) with (acc ++ [SLASH] ++ p) by now rewrite <- app_assoc.
    cbn [In]. rewrite IH by (subst; discriminate). split.
    + intros [<-|(l1 & l2 & -> & N & ->)].
      * exists [p], parts. repeat split. discriminate.
      * exists (p :: l1), l2. repeat split; [discriminate|]. rewrite join_cons by assumption. now rewrite <- !app_assoc.
    + intros (l1 & l2 & E & N & ->). destruct l1 as [|q l1]; [congruence|]. injection E as <- ->.
      destruct l1 as [|q' l1]; [left; reflexivity|]. right. exists (q' :: l1), l2. repeat split; [discriminate|].
      rewrite join_cons by discriminate. now rewrite <- !app_assoc.
Qed.

Lemma prefixes_top p0 parts x : p0 <> [] ->
  (In x (prefixes [] (p0 :: parts)) <-> exists l1 l2, p0 :: parts = l1 ++ l2 /\ l1 <> [] /\ x = join_with [SLASH] l1).
Proof.
  intros H. cbn [prefixes app In]. rewrite prefixes_acc by assumption. split.
  - intros [<-|(l1 & l2 & -> & N & ->)].
    + exists [p0], parts. repeat split. discriminate.
    + exists (p0 :: l1), l2. repeat split; [discriminate|]. now rewrite join_cons.
  - intros (l1 & l2 & E & N & ->). destruct l1 as [|q l1]; [congruence|]. injection E as <- ->.
    destruct l1 as [|q' l1]; [left; reflexivity|]. right. exists (q' :: l1), l2. repeat split; try discriminate.
Qed.

Lemma join_app sep a b : a <> [] -> b <> [] -> join_with sep (a ++ b) = join_with sep a ++ sep ++ join_with sep b.
Proof.
  induction a as [|p a IH]; [congruence|]. intros _ Hb. destruct a as [|q a].
  - cbn [app]. now rewrite join_cons.
  - change ((p :: q :: a) ++ b) with (p :: (q :: a) ++ b). rewrite join_cons by discriminate. rewrite IH by (try discriminate; assumption).
    rewrite (join_cons sep p (q :: a)) by discriminate. now rewrite <- !app_assoc.
Qed.

Lemma prefixes_split name x : starts_with [SLASH] name = false -> name <> [] ->
  (In x (prefixes [] (split_on SLASH name)) <-> name = x \/ exists r, name = x ++ SLASH :: r).
Proof.
  intros NS NE. pose proof (split_on_parts SLASH name) as SP. pose proof (join_split SLASH name) as JS.
  assert (X : exists p0 parts, split_on SLASH name = p0 :: parts /\ p0 <> []).
  { destruct (split_on SLASH name) as [|p0 parts] eqn:ES; [now apply split_on_nonempty in ES|].
    exists p0, parts. split; [reflexivity|]. intros ->. destruct parts as [|q parts].
    - cbn in JS. congruence.
    - rewrite join_cons in JS by discriminate. cbn [app] in JS. subst name. cbn in NS. discriminate. }
  destruct X as (p0 & parts & ES & P0).
  assert (X : In x (prefixes [] (split_on SLASH name)) <->
              exists l1 l2, split_on SLASH name = l1 ++ l2 /\ l1 <> [] /\ x = join_with [SLASH] l1).
  { rewrite ES. now apply prefixes_top. }
  rewrite X. clear X ES. split.
  - intros (l1 & l2 & E & N & ->). rewrite E in JS. destruct l2 as [|q l2].
    + rewrite app_nil_r in JS. now left.
    + right. exists (join_with [SLASH] (q :: l2)). rewrite <- JS. rewrite join_app by (try assumption; discriminate). reflexivity.
  - intros [->|[r Hr]].
    + exists (split_on SLASH x), []. rewrite app_nil_r. repeat split; [apply split_on_nonempty|now rewrite join_split].
    + exists (split_on SLASH x), (split_on SLASH r). split; [|split; [apply split_on_nonempty|now rewrite join_split]].
      rewrite Hr. rewrite <- (split_join SLASH (split_on SLASH x ++ split_on SLASH r)).
      * f_equal. rewrite join_app by apply split_on_nonempty. now rewrite !join_split.
      * destruct (split_on SLASH x) eqn:EX; [now apply split_on_nonempty in EX|discriminate].
      * apply Forall_app. split; apply split_on_parts.
Qed.

Lemma add_choices_In l : forall ch a,
  (In a (fold_left add_choice l ch) -> In a ch \/ exists p, In p l /\ (a = p \/ a = lit "skip:" ++ p)) /\
  (In a ch -> In a (fold_left add_choice l ch)) /\
  (In a l -> In a (fold_left add_choice l ch)).
Proof.
  induction l as [|p l IH]; intros ch a; cbn [fold_left].
  - split; [now left|]. split; [easy|intros []].
  - destruct (IH (add_choice ch p) a) as (A & B & C). unfold add_choice in A, B, C |- *.
    destruct (str_mem p ch) eqn:E.
    + split; [|split].
      * intros I. destruct (A I) as [I'|(q & Iq & H)]; [now left|right; exists q; split; [now right|exact H]].
      * exact B.
      * intros [<-|I]; [apply B, str_mem_In, E|now apply C].
    + split; [|split].
      * intros I. destruct (A I) as [I'|(q & Iq & H)]; [|right; exists q; split; [now right|exact H]].
        rewrite in_app_iff in I'. destruct I' as [I'|[<-|[<-|[]]]]; [now left| |]; right; exists p; split; auto; now left.
      * intros I. apply B. rewrite in_app_iff. now left.
      * intros [<-|I]; [|now apply C]. apply B. rewrite in_app_iff. right. now left.
Qed.

(** what a list of choices has to look like for skip forms to be there *)
Definition skips (ch : list str) : Prop :=
  forall p, In p ch -> p <> lit "*" -> starts_with (lit "skip:") p = false -> In (lit "skip:" ++ p) ch.

Lemma add_choice_skips ch p : skips ch -> skips (add_choice ch p).
Proof.
  intros H. unfold add_choice. destruct (str_mem p ch) eqn:E; [exact H|]. intros q I N S.
  rewrite in_app_iff in *. destruct I as [I|[<-|[<-|[]]]].
  - left. now apply H.
  - right. right. now left.
  - rewrite starts_with_app in S. discriminate.
Qed.

Lemma add_choices_skips l : forall ch, skips ch -> skips (fold_left add_choice l ch).
Proof. induction l as [|p l IH]; intros ch H; [exact H|]. cbn [fold_left]. apply IH, add_choice_skips, H. Qed.

Lemma choices_In names : forall ch a, skips ch ->
  let out := fold_left (fun ch name => fold_left add_choice (prefixes [] (split_on SLASH name)) ch) names ch in
  skips out /\
  (In a out -> In a ch \/ exists name p, In name names /\ In p (prefixes [] (split_on SLASH name)) /\ (a = p \/ a = lit "skip:" ++ p)) /\
  (In a ch -> In a out) /\
  (forall name, In name names -> In a (prefixes [] (split_on SLASH name)) -> In a out).
Proof.
  induction names as [|n names IH]; intros ch a SK; cbn [fold_left].
  - split; [exact SK|]. split; [now left|]. split; [easy|intros ? []].
  - destruct (add_choices_In (prefixes [] (split_on SLASH n)) ch a) as (A & B & C).
    destruct (IH (fold_left add_choice (prefixes [] (split_on SLASH n)) ch) a) as (S & A' & B' & C').
    { now apply add_choices_skips. }
    split; [exact S|]. split; [|split].
    + intros I. destruct (A' I) as [I'|(m & p & Im & Ip & H)].
      * destruct (A I') as [I2|(p & Ip & H)]; [now left|]. right. exists n, p. repeat split; auto. now left.
      * right. exists m, p. repeat split; auto. now right.
    + auto.
    + intros m [<-|Im] Ip; [auto|eapply C'; eassumption].
Qed.
