(** The parser accepts exactly the lines of ArgsSpec.v. *)
From Verif Require Import PyStrFacts ConfigProofs ArgsSpec.

Lemma begins_iff w o : starts_with w o = true <-> begins w o.
Proof. apply starts_with_iff. Qed.

(** ** facts about the options *)
Lemma os_check (P : str * act -> bool) : forallb P option_strings = true -> forall o a, In (o, a) option_strings -> P (o, a) = true.
Proof. intros H o a I. rewrite forallb_forall in H. exact (H _ I). Qed.
Lemma os_eqs o a : In (o, a) option_strings -> ~ In EQS o.
Proof.
  intros I J. pose proof (os_check (fun oa => negb (existsb (N.eqb EQS) (fst oa))) eq_refl o a I) as H. cbn [fst] in H.
  apply negb_true_iff in H. assert (X : existsb (N.eqb EQS) o = true) by (apply existsb_exists; exists EQS; split; [exact J|apply N.eqb_refl]).
  rewrite X in H. discriminate.
Qed.
Fixpoint distinct (l : list str) : bool := match l with [] => true | x :: r => negb (str_mem x r) && distinct r end.
Lemma distinct_nodup l : distinct l = true -> NoDup l.
Proof.
  induction l as [|x r IH]; [constructor|]. cbn [distinct]. rewrite andb_true_iff, negb_true_iff. intros [H K]. constructor; [|auto].
  intros I. apply str_mem_In in I. congruence.
Qed.
Lemma os_nodup : NoDup (map fst option_strings).
Proof. apply distinct_nodup. vm_compute. reflexivity. Qed.
Lemma nodup_dget {V} o (a : V) l : NoDup (map fst l) -> In (o, a) l -> dget o l = Some a.
Proof.
  induction l as [|[m v] l IH]; [intros _ []|]. cbn [map fst dget]. intros ND [H|H]; inversion ND as [|? ? N ND']; subst.
  - inversion H; subst. destruct (str_eqb_spec o o); congruence.
  - destruct (str_eqb_spec o m) as [E|_]; [|auto]. exfalso. apply N. apply in_map_iff. exists (o, a). auto.
Qed.
Lemma os_dget o a : In (o, a) option_strings -> dget o option_strings = Some a.
Proof. apply nodup_dget, os_nodup. Qed.
Lemma dget_in {V} o (d : list (str * V)) a : dget o d = Some a -> In (o, a) d.
Proof.
  induction d as [|[m v] r IH]; cbn [dget]; [discriminate|]. destruct (str_eqb_spec o m) as [->|N].
  - intros H. inversion H. now left.
  - intros H. right. auto.
Qed.
Lemma os_fun o a b : In (o, a) option_strings -> In (o, b) option_strings -> a = b.
Proof. intros H K. apply os_dget in H, K. congruence. Qed.
Lemma os_minus o a : In (o, a) option_strings -> exists c t, o = MINUS :: c :: t.
Proof.
  intros I. pose proof (os_check (fun oa => match fst oa with m :: _ :: _ => N.eqb m MINUS | _ => false end) eq_refl o a I) as H. cbn [fst] in H.
  destruct o as [|m [|c t]]; try discriminate. apply N.eqb_eq in H as ->. eauto.
Qed.
Lemma os_letter c a : In ([MINUS; c], a) option_strings -> c <> MINUS /\ c <> EQS /\ takes_value a = false.
Proof.
  intros I. pose proof (os_check (fun oa => match fst oa with [m; c] => negb (N.eqb c MINUS) && negb (N.eqb c EQS) && negb (takes_value (snd oa)) | _ => true end) eq_refl _ _ I) as H.
  cbn [fst snd] in H. rewrite !andb_true_iff, !negb_true_iff, !N.eqb_neq in H. tauto.
Qed.
Definition letterb (c : char) : bool := match dget [MINUS; c] option_strings with Some _ => true | None => false end.
Lemma os_long x y t a : In (MINUS :: x :: y :: t, a) option_strings -> letterb x && letterb y = false.
Proof.
  intros I. pose proof (os_check (fun oa => match fst oa with _ :: x :: y :: _ => negb (letterb x && letterb y) | _ => true end) eq_refl _ _ I) as H.
  cbn [fst] in H. now apply negb_true_iff in H.
Qed.

(** ** "=" *)
Lemma no_eqs p : ~ In EQS p -> Forall (fun c : char => negb (N.eqb c EQS) = true) p.
Proof. intros H. apply Forall_forall. intros c I. apply negb_true_iff, N.eqb_neq. intros ->. contradiction. Qed.
Lemma eq_split p t : ~ In EQS p -> before_eq (p ++ EQS :: t) = p /\ after_eq (p ++ EQS :: t) = Some t.
Proof. intros H. unfold before_eq, after_eq. rewrite (span_unique _ p (EQS :: t) (no_eqs _ H)); [auto|reflexivity]. Qed.
Lemma eq_none p : ~ In EQS p -> before_eq p = p /\ after_eq p = None.
Proof.
  intros H. unfold before_eq, after_eq. rewrite <- (app_nil_r p), (span_unique _ p [] (no_eqs _ H)); [|exact I]. split; [now rewrite app_nil_r|reflexivity].
Qed.
Lemma after_some w t : after_eq w = Some t -> w = before_eq w ++ EQS :: t /\ ~ In EQS (before_eq w).
Proof.
  unfold after_eq, before_eq. destruct (span _ w) as [a b] eqn:E. cbn [fst snd]. destruct b as [|c b]; [discriminate|]. intros H. inversion H; subst.
  pose proof (span_app _ _ _ _ E) as A. pose proof (span_head _ _ _ _ E) as B. cbn [head_not] in B. apply negb_false_iff, N.eqb_eq in B as ->. split; [exact A|].
  pose proof (span_forall _ _ _ _ E) as F. rewrite Forall_forall in F. intros I. apply F in I. rewrite N.eqb_refl in I. discriminate.
Qed.
Lemma after_none w : after_eq w = None -> before_eq w = w /\ ~ In EQS w.
Proof.
  unfold after_eq, before_eq. destruct (span _ w) as [a b] eqn:E. cbn [fst snd]. destruct b as [|c b]; [|discriminate]. intros _.
  pose proof (span_app _ _ _ _ E) as A. rewrite app_nil_r in A. subst a. split; [reflexivity|].
  pose proof (span_forall _ _ _ _ E) as F. rewrite Forall_forall in F. intros I. apply F in I. rewrite N.eqb_refl in I. discriminate.
Qed.

Section Proofs.
Variable int_of : str -> option nat.
Variable digit : char -> bool.
Hypothesis digit_dot : digit 46%N = false.
Hypothesis digit_nl : digit NL = false.

(** ** numbers below zero *)
Definition cut_nl (w : str) : str := match rev w with c :: r => if N.eqb c NL then rev r else w | [] => w end.
Lemma cut_nl_parts w : exists e, w = cut_nl w ++ e /\ (e = [] \/ e = [NL]).
Proof.
  unfold cut_nl. destruct (rev w) as [|c r] eqn:R; [exists []; rewrite app_nil_r; auto|]. destruct (N.eqb_spec c NL) as [->|N]; [|exists []; rewrite app_nil_r; auto].
  exists [NL]. split; [|auto]. rewrite <- (rev_involutive w), R. reflexivity.
Qed.
Lemma cut_nl_nl x : cut_nl (x ++ [NL]) = x.
Proof. unfold cut_nl. rewrite rev_app_distr. cbn [rev app]. rewrite N.eqb_refl. apply rev_involutive. Qed.
Lemma cut_nl_digit x d : digit d = true -> cut_nl (x ++ [d]) = x ++ [d].
Proof. intros H. unfold cut_nl. rewrite rev_app_distr. cbn [rev app]. destruct (N.eqb_spec d NL) as [->|_]; [congruence|reflexivity]. Qed.
Lemma negative_core w : negative_number digit w =
  match cut_nl w with
  | m :: r => let '(_, rest) := span digit r in
      N.eqb m MINUS && match r, rest with _ :: _, [] => true | _, d :: ((_ :: _) as fraction) => N.eqb d 46 && forallb digit fraction | _, _ => false end
  | [] => false
  end.
Proof. reflexivity. Qed.
Lemma last_digit a : a <> [] -> Forall (fun c => digit c = true) a -> exists x d, a = x ++ [d] /\ digit d = true.
Proof. intros N F. destruct (exists_last N) as (x & d & ->). exists x, d. split; [reflexivity|]. apply Forall_app in F as [_ F]. now inversion F. Qed.
Lemma negative_iff w : negative_number digit w = true <-> negative digit w.
Proof.
  rewrite negative_core. split.
  - destruct (cut_nl_parts w) as (e & W & E). destruct (cut_nl w) as [|m r]; [discriminate|]. destruct (span digit r) as [a rest] eqn:S. intros H. apply andb_true_iff in H as [M H].
    apply N.eqb_eq in M as ->. pose proof (span_app _ _ _ _ S) as A. pose proof (span_forall _ _ _ _ S) as F. exists a, rest, e. split; [rewrite W, A; cbn [app]; now rewrite <- app_assoc|].
    split; [exact F|]. split; [exact E|]. destruct rest as [|d [|x f]].
    + left. split; [reflexivity|]. rewrite app_nil_r in A. subst. destruct a; [discriminate|discriminate].
    + destruct r; discriminate.
    + right. assert (H' : N.eqb d 46 && forallb digit (x :: f) = true) by (destruct r; exact H). apply andb_true_iff in H' as [D G]. apply N.eqb_eq in D as ->. exists (x :: f).
      split; [reflexivity|]. split; [discriminate|]. apply Forall_forall. now rewrite forallb_forall in G.
  - intros (a & b & e & W & F & E & B).
    assert (C : cut_nl w = MINUS :: a ++ b).
    { assert (W2 : w = (MINUS :: a ++ b) ++ e) by (rewrite W; cbn [app]; now rewrite <- app_assoc). clear W.
      destruct E as [E|E]; [|rewrite W2, E; apply cut_nl_nl]. subst e. rewrite app_nil_r in W2. rewrite W2.
      destruct B as [[-> N]|(d & -> & N & G)].
      - destruct (last_digit a N F) as (x & k & -> & K). rewrite app_nil_r. apply (cut_nl_digit (MINUS :: x) k K).
      - destruct (last_digit d N G) as (x & k & -> & K). replace (MINUS :: a ++ 46%N :: x ++ [k]) with ((MINUS :: a ++ 46%N :: x) ++ [k]) by (cbn [app]; rewrite <- app_assoc; reflexivity).
        apply cut_nl_digit, K. }
    rewrite C. destruct B as [[-> N]|(d & -> & N & G)].
    + rewrite (span_unique digit a [] F I), N.eqb_refl, app_nil_r. destruct a; [congruence|reflexivity].
    + rewrite (span_unique digit a (46%N :: d) F digit_dot), N.eqb_refl. destruct d as [|x d]; [congruence|]. rewrite Forall_forall in G.
      assert (Q : forallb digit (x :: d) = true) by (apply forallb_forall; exact G). destruct (a ++ 46%N :: x :: d) eqn:Z; [destruct a; discriminate|]. rewrite Q. reflexivity.
Qed.

(** ** what a word is *)
Lemma tuples_in w x : In x (get_option_tuples w) -> exists o a, In (o, a) option_strings /\ exists eq e, x = Opt a o eq e.
Proof.
  unfold get_option_tuples. destruct w as [|m [|c t]]; try contradiction. destruct (N.eqb c MINUS).
  - rewrite in_map_iff. intros ([o a] & E & I). apply filter_In in I as [I _]. cbn [fst snd] in E. eauto 6.
  - rewrite in_flat_map. intros ([o a] & I & X). cbn [fst snd] in X. destruct (str_eqb o _); [destruct X as [X|[]]; eauto 6|]. destruct (starts_with _ o); [destruct X as [X|[]]; eauto 6|destruct X].
Qed.
Lemma tuples_like w : get_option_tuples w <> [] -> hd_error w = Some MINUS -> option_like w.
Proof.
  unfold get_option_tuples. destruct w as [|m [|c t]]; try congruence. intros H M. inversion M; subst m. revert H.
  destruct (N.eqb_spec c MINUS) as [->|N].
  - destruct (filter _ option_strings) as [|[o a] r] eqn:E; [cbn [map]; congruence|]. intros _.
    assert (I : In (o, a) ((o, a) :: r)) by now left. rewrite <- E in I. apply filter_In in I as [I S]. cbn [fst] in S. apply begins_iff in S.
    exists o, a. split; [exact I|]. destruct (after_eq (MINUS :: MINUS :: t)) as [e|] eqn:A.
    + apply after_some in A as [A _]. right; right; right. exists (before_eq (MINUS :: MINUS :: t)), e. split; [exact A|]. split; [exists t; reflexivity|exact S].
    + apply after_none in A as [A _]. rewrite A in S. now left.
  - intros H. destruct (flat_map _ option_strings) as [|x r] eqn:E; [congruence|]. assert (I : In x (x :: r)) by now left. rewrite <- E in I.
    apply in_flat_map in I as ([o a] & I & X). cbn [fst] in X. exists o, a. split; [exact I|].
    destruct (str_eqb_spec o (firstn 2 (MINUS :: c :: t))) as [->|_].
    + right; right; left. split; [reflexivity|]. exists t. reflexivity.
    + destruct (starts_with _ o) eqn:S; [|destruct X]. left. now apply begins_iff.
Qed.
Lemma begins_noeq w o a : In (o, a) option_strings -> begins w o -> ~ In EQS w.
Proof. intros I [t ->] J. apply (os_eqs _ _ I). apply in_or_app. now left. Qed.
Lemma like_tuples w : option_like w -> w <> [MINUS] -> w <> [] -> dget w option_strings = None ->
  (after_eq w = None \/ dget (before_eq w) option_strings = None) -> get_option_tuples w <> [].
Proof.
  intros (o & a & I & H) N1 N0 X Y.
  assert (M : hd_error w = Some MINUS).
  { destruct (os_minus _ _ I) as (c & t & E). destruct H as [[s B]|[[s B]|[[_ [s B]]|(p & s & _ & [u B] & _)]]].
    - destruct w; [congruence|]. rewrite E in B. now inversion B.
    - rewrite B, E. reflexivity.
    - rewrite B, E. reflexivity.
    - rewrite B. reflexivity. }
  destruct w as [|m [|c t]]; [congruence|inversion M; subst; congruence|]. inversion M; subst m. unfold get_option_tuples.
  destruct (N.eqb_spec c MINUS) as [->|NM].
  - assert (S : starts_with (before_eq (MINUS :: MINUS :: t)) o = true).
    { apply begins_iff. destruct H as [B|[[s B]|[[L [s B]]|(p & s & E & _ & B)]]].
      - destruct (eq_none _ (begins_noeq _ _ _ I B)) as [-> _]. exact B.
      - rewrite <- app_assoc in B. cbn [app] in B. destruct (eq_split o s (os_eqs _ _ I)) as [E _]. rewrite B, E. exists []. now rewrite app_nil_r.
      - destruct (os_minus _ _ I) as (d & u & E). subst o. destruct u; [|cbn in L; lia]. inversion B; subst. now destruct (os_letter _ _ I) as [Q _].
      - destruct (eq_split p s (begins_noeq _ _ _ I B)) as [E2 _]. rewrite E, E2. exact B. }
    intros Z. apply map_eq_nil in Z. assert (J : In (o, a) []) by (rewrite <- Z; apply filter_In; auto). destruct J.
  - intros Z. assert (J : In (o, a) option_strings -> False); [|auto]. intros _.
    assert (K : str_eqb o (firstn 2 (MINUS :: c :: t)) = true \/ starts_with (MINUS :: c :: t) o = true).
    { destruct H as [B|[[s B]|[[L [s B]]|(p & s & E & [u B] & _)]]].
      - right. now apply begins_iff.
      - exfalso. rewrite <- app_assoc in B. cbn [app] in B. destruct (eq_split o s (os_eqs _ _ I)) as [E1 E2]. rewrite <- B in E1, E2.
        rewrite E1, E2, (os_dget _ _ I) in Y. destruct Y; discriminate.
      - left. destruct (os_minus _ _ I) as (d & v & E). subst o. destruct v; [|cbn in L; lia]. inversion B; subst. cbn [firstn]. apply str_eqb_eq. reflexivity.
      - exfalso. inversion B. contradiction. }
    match type of Z with flat_map ?f _ = [] => assert (F : f (o, a) = []) end.
    { match goal with |- ?x = [] => destruct x as [|y r] eqn:E; [reflexivity|] end.
      match type of Z with ?l = [] => assert (Q : In y l) by (apply in_flat_map; exists (o, a); split; [exact I|rewrite E; now left]) end. rewrite Z in Q. destruct Q. }
    cbn [fst snd] in F. destruct K as [K|K]; rewrite K in F; [discriminate|]. destruct (str_eqb o _); discriminate.
Qed.

Lemma parse_word w : parse_optional digit w = Word <-> word digit w.
Proof.
  unfold word, parse_optional. destruct w as [|m t]; [split; [left; discriminate|reflexivity]|].
  destruct (N.eqb_spec m MINUS) as [->|N]; cbn [negb]; [|split; [intros _; left; intros E; inversion E; congruence|reflexivity]].
  set (w := MINUS :: t). split.
  - intros H. right. destruct (dget w option_strings) eqn:D; [discriminate|]. destruct t as [|c t']; [now left|]. right.
    assert (Y : after_eq w = None \/ dget (before_eq w) option_strings = None).
    { destruct (after_eq w); [|now left]. destruct (dget (before_eq w) option_strings); [discriminate|now right]. }
    assert (T : get_option_tuples w = [] /\ (if negative_number digit w then Word else if existsb (N.eqb SP) w then Word else Unknown) = Word).
    { destruct (get_option_tuples w) as [|x [|y r]] eqn:G.
      - split; [reflexivity|]. destruct (after_eq w); [destruct (dget (before_eq w) option_strings); [discriminate|]|]; exact H.
      - exfalso. destruct (tuples_in w x) as (o & a & _ & eq & e & ->); [rewrite G; now left|].
        destruct (after_eq w); [destruct (dget (before_eq w) option_strings); [discriminate|]|]; discriminate.
      - exfalso. destruct (after_eq w); [destruct (dget (before_eq w) option_strings); [discriminate|]|]; discriminate. }
    destruct T as [T1 T2]. split.
    + intros L. apply (like_tuples w L); auto; discriminate.
    + destruct (negative_number digit w) eqn:NG; [left; now apply negative_iff|]. destruct (existsb (N.eqb SP) w) eqn:E; [|discriminate].
      right. apply existsb_exists in E as (x & I & E). apply N.eqb_eq in E as <-. exact I.
  - intros [H|[H|[L H]]].
    + exfalso. apply H. reflexivity.
    + inversion H; subst w t. reflexivity.
    + assert (D : dget w option_strings = None).
      { destruct (dget w option_strings) as [a|] eqn:D; [|reflexivity]. exfalso. apply L. apply dget_in in D. exists w, a. split; [exact D|]. left. exists []. now rewrite app_nil_r. }
      rewrite D. destruct t as [|c t']; [reflexivity|].
      assert (G : get_option_tuples w = []).
      { destruct (get_option_tuples w) eqn:G; [reflexivity|]. exfalso. apply L, tuples_like; [rewrite G; discriminate|reflexivity]. }
      assert (R : (if negative_number digit w then Word else if existsb (N.eqb SP) w then Word else Unknown) = Word).
      { destruct H as [H|H]; [apply negative_iff in H as ->; reflexivity|]. destruct (negative_number digit w); [reflexivity|].
        assert (E : existsb (N.eqb SP) w = true) by (apply existsb_exists; exists SP; split; [exact H|apply N.eqb_refl]). now rewrite E. }
      rewrite G. destruct (after_eq w) as [e|] eqn:A; [|exact R]. destruct (dget (before_eq w) option_strings) as [a|] eqn:B; [|exact R].
      exfalso. apply L. apply dget_in in B. apply after_some in A as [A _]. exists (before_eq w), a. split; [exact B|]. right; left. exists e. rewrite <- app_assoc. exact A.
Qed.

(** *** the forms of an option *)
Lemma parse_minus c t : parse_optional digit (MINUS :: c :: t) =
  match dget (MINUS :: c :: t) option_strings with
  | Some a => Opt a (MINUS :: c :: t) false None
  | None =>
      match after_eq (MINUS :: c :: t), dget (before_eq (MINUS :: c :: t)) option_strings with
      | Some e, Some a => Opt a (before_eq (MINUS :: c :: t)) true (Some e)
      | _, _ =>
          match get_option_tuples (MINUS :: c :: t) with
          | [x] => x
          | [] => if negative_number digit (MINUS :: c :: t) then Word else if existsb (N.eqb SP) (MINUS :: c :: t) then Word else Unknown
          | _ => Ambiguous
          end
      end
  end.
Proof. reflexivity. Qed.
Lemma names_minus w a : names_option w a -> exists c t, w = MINUS :: c :: t.
Proof.
  intros [I|(o & I & B & U)]; [exact (os_minus _ _ I)|].
  destruct w as [|m [|c t]].
  - pose proof (U (lit "-h") Help (or_introl eq_refl) (ex_intro _ _ eq_refl)). pose proof (U (lit "--help") Help (or_intror (or_introl eq_refl)) (ex_intro _ _ eq_refl)). subst. discriminate.
  - destruct (os_minus _ _ I) as (c & t & ->). destruct B as [r B]. inversion B; subst m.
    pose proof (U (lit "-h") Help (or_introl eq_refl) (ex_intro _ _ eq_refl)) as X. pose proof (U (lit "--help") Help (or_intror (or_introl eq_refl)) (ex_intro _ _ eq_refl)) as Y.
    rewrite <- X in Y. discriminate.
  - destruct (os_minus _ _ I) as (d & u & ->). destruct B as [r B]. inversion B; subst m. eauto.
Qed.
Lemma names_noeq w a : names_option w a -> ~ In EQS w.
Proof. intros [I|(o & I & B & U)]; [exact (os_eqs _ _ I)|exact (begins_noeq _ _ _ I B)]. Qed.
Lemma firstn_begins {A} (w t : list A) : firstn (length w) (w ++ t) = w.
Proof. rewrite firstn_app, Nat.sub_diag, firstn_all. cbn [firstn]. apply app_nil_r. Qed.
Lemma prefixes_check :
  forallb (fun oa => forallb (fun n => let w := firstn n (fst oa) in
    negb (forallb (fun p => negb (starts_with w (fst p)) || str_eqb (fst p) (fst oa)) option_strings) ||
    match parse_optional digit w with Opt a o false None => str_eqb o (fst oa) | _ => false end) (seq 0 (S (length (fst oa))))) option_strings = true.
Proof. vm_compute. reflexivity. Qed.
Lemma parse_in w a n eq e : parse_optional digit w = Opt a n eq e -> In (n, a) option_strings.
Proof.
  unfold parse_optional. destruct w as [|m t]; [discriminate|]. destruct (negb (N.eqb m MINUS)); [discriminate|].
  destruct (dget (m :: t) option_strings) as [b|] eqn:D; [intros H; inversion H; subst; now apply dget_in|]. destruct t as [|c t]; [discriminate|].
  assert (G : match get_option_tuples (m :: c :: t) with [x] => x | [] => if negative_number digit (m :: c :: t) then Word else if existsb (N.eqb SP) (m :: c :: t) then Word else Unknown | _ => Ambiguous end = Opt a n eq e -> In (n, a) option_strings).
  { destruct (get_option_tuples (m :: c :: t)) as [|x [|y r]] eqn:G; [destruct (negative_number _ _); [discriminate|]; destruct (existsb _ _); discriminate| |discriminate].
    intros ->. destruct (tuples_in (m :: c :: t) (Opt a n eq e)) as (o & b & I & q & f & E); [rewrite G; now left|]. inversion E; subst. exact I. }
  destruct (after_eq (m :: c :: t)); [|exact G]. destruct (dget (before_eq (m :: c :: t)) option_strings) as [b|] eqn:B; [|exact G].
  intros H. inversion H; subst. now apply dget_in.
Qed.
Lemma parse_names w a : names_option w a -> exists n, parse_optional digit w = Opt a n false None.
Proof.
  intros H. destruct (names_minus w a H) as (c & t & W). destruct H as [I|(o & I & B & U)].
  - exists w. unfold parse_optional. rewrite W, <- W, N.eqb_refl. cbn [negb]. rewrite (os_dget _ _ I). reflexivity.
  - exists o. pose proof prefixes_check as K. rewrite forallb_forall in K. specialize (K _ I). cbn [fst] in K. rewrite forallb_forall in K.
    destruct B as [r B]. specialize (K (length w)). rewrite B, firstn_begins, <- B in K. cbv zeta in K.
    assert (L : In (length w) (seq 0 (S (length o)))) by (apply in_seq; rewrite B, app_length; lia). specialize (K L). apply orb_true_iff in K as [K|K].
    + exfalso. apply negb_true_iff in K. enough (X : forallb (fun p : str * act => negb (starts_with w (fst p)) || str_eqb (fst p) o) option_strings = true) by (rewrite X in K; discriminate).
      apply forallb_forall. intros [o' a'] I'. cbn [fst]. destruct (starts_with w o') eqn:S; [|reflexivity]. apply begins_iff in S. rewrite (U o' a' I' S). apply str_eqb_eq. reflexivity.
    + destruct (parse_optional digit w) as [|b n [|] [e|]| |] eqn:P; try discriminate. apply str_eqb_eq in K as ->. apply parse_in in P. now rewrite (os_fun _ _ _ P I).
Qed.
Lemma unique_filter (w : str) (n : str) a f : map f (filter (fun oa => starts_with w (fst oa)) option_strings) = [f (n, a)] ->
  (forall o b, f (o, b) = f (n, a) -> o = n) -> (exists q, In q option_strings /\ starts_with w (fst q) = true /\ f q = f (n, a) :> reading) /\
  forall o' a', In (o', a') option_strings -> begins w o' -> o' = n.
Proof.
  intros H F. split.
  - assert (X : In (f (n, a)) [f (n, a)]) by now left. rewrite <- H in X. apply in_map_iff in X as (q & E & X). apply filter_In in X as [X Y]. eauto.
  - intros o' a' I B. apply begins_iff in B. assert (X : In (f (o', a')) [f (n, a)]) by (rewrite <- H; apply in_map, filter_In; auto).
    destruct X as [X|[]]. symmetry in X. exact (F _ _ X).
Qed.
(** the option at the end of a word *)
Lemma parse_none w a n eq : parse_optional digit w = Opt a n eq None -> names_option w a.
Proof.
  intros P. pose proof (parse_in _ _ _ _ _ P) as NI. revert P. unfold parse_optional.
  destruct w as [|m t]; [discriminate|]. destruct (N.eqb_spec m MINUS) as [->|]; cbn [negb]; [|discriminate].
  destruct (dget (MINUS :: t) option_strings) as [b|] eqn:D; [intros H; inversion H; subst; left; exact NI|]. destruct t as [|c t]; [discriminate|].
  assert (G : match get_option_tuples (MINUS :: c :: t) with [x] => x | [] => if negative_number digit (MINUS :: c :: t) then Word else if existsb (N.eqb SP) (MINUS :: c :: t) then Word else Unknown | _ => Ambiguous end = Opt a n eq None -> names_option (MINUS :: c :: t) a).
  { destruct (get_option_tuples (MINUS :: c :: t)) as [|x [|y r]] eqn:G; [destruct (negative_number _ _); [discriminate|]; destruct (existsb _ _); discriminate| |discriminate].
    intros ->. right. exists n. split; [exact NI|]. unfold get_option_tuples in G. destruct (N.eqb c MINUS).
    - destruct (after_eq (MINUS :: c :: t)) as [e|] eqn:A.
      + destruct (filter _ option_strings) as [|q l]; [discriminate|]. cbn [map] in G. inversion G.
      + apply after_none in A as [A _]. rewrite A in G.
        assert (Q : eq = false). { destruct (filter _ option_strings) as [|q l]; [discriminate|]. cbn [map] in G. now inversion G. } subst eq.
        destruct (unique_filter _ n a _ G) as [(q & I & S & E) U]; [intros o b E; now inversion E|]. destruct q as [o b]. cbn [fst snd] in *. inversion E; subst.
        split; [now apply begins_iff|exact U].
    - match type of G with flat_map ?f _ = _ => assert (K : forall o b, In (o, b) option_strings -> f (o, b) <> [] -> f (o, b) = [Opt a n eq None]) end.
      { intros o b I Z. match goal with |- ?x = _ => destruct x as [|y1 r1] eqn:X end; [contradiction|].
        match type of G with ?l = _ => assert (Y : In y1 l) by (apply in_flat_map; exists (o, b); split; [exact I|rewrite X; now left]) end. rewrite G in Y. destruct Y as [Y|[]]. subst y1.
        cbn [fst snd] in X. destruct (str_eqb o _); [inversion X|]. destruct (starts_with _ o); inversion X; reflexivity. }
      cbn [fst snd] in K. split.
      + match type of G with ?l = _ => assert (Y : In (Opt a n eq None) l) by (rewrite G; now left) end. apply in_flat_map in Y as ([o b] & I & Y). cbn [fst snd] in Y.
        destruct (str_eqb o _); [destruct Y as [Y|[]]; inversion Y|]. destruct (starts_with _ o) eqn:S; [|destruct Y]. destruct Y as [Y|[]]. inversion Y; subst. now apply begins_iff.
      + intros o' a' I B. apply begins_iff in B. specialize (K _ _ I). rewrite B in K. destruct (str_eqb o' _); [specialize (K ltac:(discriminate)); inversion K|].
        specialize (K ltac:(discriminate)). now inversion K. }
  destruct (after_eq (MINUS :: c :: t)); [|exact G]. destruct (dget (before_eq (MINUS :: c :: t)) option_strings); [discriminate|exact G].
Qed.
Lemma eqs_no_option p t : dget (p ++ EQS :: t) option_strings = None.
Proof.
  destruct (dget (p ++ EQS :: t) option_strings) as [a|] eqn:D; [|reflexivity]. exfalso. apply dget_in in D. apply (os_eqs _ _ D). apply in_or_app. right. now left.
Qed.
(** an option with "=" *)
Lemma parse_equals w a x : names_option w a -> In (w, a) option_strings \/ begins (lit "--") w ->
  exists n, parse_optional digit (w ++ EQS :: x) = Opt a n true (Some x).
Proof.
  intros H L. pose proof (names_noeq _ _ H) as E. destruct (names_minus w a H) as (c & t & W). destruct (eq_split w x E) as [E1 E2].
  assert (V : w ++ EQS :: x = MINUS :: c :: (t ++ EQS :: x)) by (rewrite W; reflexivity). rewrite V, parse_minus, <- V, eqs_no_option, E2, E1.
  destruct (dget w option_strings) as [b|] eqn:D.
  - exists w. apply dget_in in D. destruct H as [I|(o & I & B & U)]; [now rewrite (os_fun _ _ _ I D)|].
    assert (Q : w = o) by (apply (U w b D); exists []; now rewrite app_nil_r). subst o. now rewrite (os_fun _ _ _ I D).
  - destruct L as [L|[u' L]]; [rewrite (os_dget _ _ L) in D; discriminate|].
    destruct (parse_names w a H) as (n & P). exists n. unfold parse_optional in P. rewrite W, <- W, N.eqb_refl in P. cbn [negb] in P. rewrite D in P.
    destruct (eq_none w E) as [F1 F2]. rewrite F2 in P.
    assert (G : get_option_tuples w = [Opt a n false None]).
    { destruct (get_option_tuples w) as [|y [|z r]] eqn:G; [destruct (negative_number _ _); [discriminate|]; destruct (existsb _ _); discriminate|now rewrite P|discriminate]. }
    unfold get_option_tuples in *. rewrite W in L. assert (Hc : c = MINUS) by now inversion L. subst c. rewrite W in G. rewrite N.eqb_refl, <- W, F1, F2 in G. rewrite W. cbn [app].
    rewrite N.eqb_refl. change (MINUS :: MINUS :: t ++ EQS :: x) with ((MINUS :: MINUS :: t) ++ EQS :: x). rewrite <- W, E1, E2.
    clear P. revert G. generalize (filter (fun oa : str * act => starts_with w (fst oa)) option_strings). intros [|[o b] [|q2 r]] G; [discriminate| |discriminate]. cbn [map fst snd] in *. assert (Q1 : b = a) by congruence. assert (Q2 : o = n) by congruence. now rewrite Q1, Q2.
Qed.
Lemma parse_true w a n e : parse_optional digit w = Opt a n true e ->
  exists p x, e = Some x /\ w = p ++ EQS :: x /\ names_option p a /\ (In (p, a) option_strings \/ begins (lit "--") p).
Proof.
  intros P. pose proof (parse_in _ _ _ _ _ P) as NI. revert P. unfold parse_optional.
  destruct w as [|m t]; [discriminate|]. destruct (N.eqb_spec m MINUS) as [->|]; cbn [negb]; [|discriminate].
  destruct (dget (MINUS :: t) option_strings) as [b|] eqn:D; [discriminate|]. destruct t as [|c t]; [discriminate|]. set (w := MINUS :: c :: t).
  assert (G : match get_option_tuples w with [x] => x | [] => if negative_number digit w then Word else if existsb (N.eqb SP) w then Word else Unknown | _ => Ambiguous end = Opt a n true e ->
    exists p x, e = Some x /\ w = p ++ EQS :: x /\ names_option p a /\ (In (p, a) option_strings \/ begins (lit "--") p)).
  { destruct (get_option_tuples w) as [|y [|z r]] eqn:G; [destruct (negative_number _ _); [discriminate|]; destruct (existsb _ _); discriminate| |discriminate].
    intros ->. unfold get_option_tuples, w in G. destruct (N.eqb_spec c MINUS) as [->|NM].
    - fold w in G. destruct (after_eq w) as [x|] eqn:A.
      + destruct (after_some _ _ A) as [A1 A2]. exists (before_eq w), x.
        assert (Q : e = Some x). { destruct (filter _ option_strings) as [|q l]; [discriminate|]. cbn [map] in G. now inversion G. } subst e.
        destruct (unique_filter _ n a _ G) as [(q & I & S & E) U]; [intros o b E; now inversion E|]. destruct q as [o b]. cbn [fst snd] in *. inversion E; subst o b.
        split; [reflexivity|]. split; [exact A1|]. split; [right; exists n; split; [exact NI|]; split; [now apply begins_iff|exact U]|]. right.
        destruct (before_eq w) as [|m1 [|m2 q]]; unfold w in A1; inversion A1; subst. exists q. reflexivity.
      + destruct (filter _ option_strings) as [|q l]; [discriminate|]. cbn [map] in G. inversion G.
    - exfalso. match type of G with ?l = _ => assert (Y : In (Opt a n true e) l) by (rewrite G; now left) end. apply in_flat_map in Y as ([o b] & I & Y). cbn [fst snd] in Y.
      destruct (str_eqb o _); [destruct Y as [Y|[]]; inversion Y|]. destruct (starts_with _ o); [destruct Y as [Y|[]]; inversion Y|destruct Y]. }
  destruct (after_eq w) as [x|] eqn:A; [|exact G]. destruct (dget (before_eq w) option_strings) as [b|] eqn:B; [|exact G]. intros H. inversion H; subst.
  exists (before_eq w), x. destruct (after_some _ _ A) as [A1 A2]. split; [reflexivity|]. split; [exact A1|]. split; [left; exact NI|left; exact NI].
Qed.
(** letters *)
Lemma letterb_in c a : In ([MINUS; c], a) option_strings -> letterb c = true.
Proof. intros I. unfold letterb. now rewrite (os_dget _ _ I). Qed.
Lemma parse_letters c d cs a b : In ([MINUS; c], a) option_strings -> In ([MINUS; d], b) option_strings -> ~ In EQS cs ->
  parse_optional digit (MINUS :: c :: d :: cs) = Opt a [MINUS; c] false (Some (d :: cs)).
Proof.
  intros Ia Ib NE. destruct (os_letter _ _ Ia) as (A1 & A2 & _). destruct (os_letter _ _ Ib) as (B1 & B2 & _). set (w := MINUS :: c :: d :: cs).
  assert (L : forall o x, In (o, x) option_strings -> ~ begins w o).
  { intros o x I [t ->]. pose proof (os_long c d (cs ++ t) x I) as K. rewrite (letterb_in _ _ Ia), (letterb_in _ _ Ib) in K. discriminate. }
  assert (D : dget w option_strings = None).
  { destruct (dget w option_strings) as [x|] eqn:D; [|reflexivity]. exfalso. apply dget_in in D. apply (L _ _ D). exists []. now rewrite app_nil_r. }
  assert (N : ~ In EQS w). { unfold w. cbn [In]. intros [X|[X|[X|X]]]; [discriminate|congruence|congruence|contradiction]. }
  unfold parse_optional, w. fold w. rewrite N.eqb_refl. cbn [negb]. rewrite D. destruct (eq_none w N) as [E1 E2]. rewrite E2.
  enough (G : get_option_tuples w = [Opt a [MINUS; c] false (Some (d :: cs))]) by now rewrite G.
  unfold get_option_tuples, w. destruct (N.eqb_spec c MINUS) as [X|_]; [congruence|]. fold w. cbn [firstn skipn].
  assert (F : forall l, (forall o x, In (o, x) l -> In (o, x) option_strings) -> NoDup (map fst l) ->
    flat_map (fun oa : str * act => if str_eqb (fst oa) [MINUS; c] then [Opt (snd oa) (fst oa) false (Some (d :: cs))] else if starts_with w (fst oa) then [Opt (snd oa) (fst oa) false None] else []) l =
    match dget [MINUS; c] l with Some x => [Opt x [MINUS; c] false (Some (d :: cs))] | None => [] end).
  { induction l as [|[o x] l IH]; intros J ND; [reflexivity|]. cbn [flat_map fst snd dget]. inversion ND as [|? ? NI ND']; subst. cbn [fst] in NI.
    rewrite IH; [|intros; apply J; now right|exact ND'].
    destruct (str_eqb_spec o [MINUS; c]) as [->|NO].
    - destruct (str_eqb_spec [MINUS; c] [MINUS; c]) as [_|Q]; [|congruence]. destruct (dget [MINUS; c] l) as [y|] eqn:Y; [|reflexivity].
      exfalso. apply NI. apply dget_in in Y. apply in_map_iff. exists ([MINUS; c], y). auto.
    - destruct (str_eqb_spec [MINUS; c] o) as [Q|_]; [congruence|]. destruct (starts_with w o) eqn:S; [|reflexivity]. exfalso. apply begins_iff in S. apply (L o x); [apply J; now left|exact S]. }
  rewrite F; [now rewrite (os_dget _ _ Ia)|auto|exact os_nodup].
Qed.
Lemma parse_some w a n e : parse_optional digit w = Opt a n false (Some e) -> exists c, n = [MINUS; c] /\ w = MINUS :: c :: e /\ e <> [].
Proof.
  intros P. pose proof (parse_in _ _ _ _ _ P) as NI. revert P. unfold parse_optional.
  destruct w as [|m t]; [discriminate|]. destruct (N.eqb_spec m MINUS) as [->|]; cbn [negb]; [|discriminate].
  destruct (dget (MINUS :: t) option_strings) as [b|] eqn:D; [discriminate|]. destruct t as [|c t]; [discriminate|]. set (w := MINUS :: c :: t) in *.
  assert (G : match get_option_tuples w with [x] => x | [] => if negative_number digit w then Word else if existsb (N.eqb SP) w then Word else Unknown | _ => Ambiguous end = Opt a n false (Some e) ->
    exists c, n = [MINUS; c] /\ w = MINUS :: c :: e /\ e <> []).
  { destruct (get_option_tuples w) as [|y [|z r]] eqn:G; [destruct (negative_number _ _); [discriminate|]; destruct (existsb _ _); discriminate| |discriminate].
    intros ->. unfold get_option_tuples, w in G. fold w in G. destruct (N.eqb c MINUS).
    - destruct (filter _ option_strings) as [|q l]; [discriminate|]. cbn [map] in G. destruct (after_eq w); inversion G.
    - match type of G with ?l = _ => assert (Y : In (Opt a n false (Some e)) l) by (rewrite G; now left) end. apply in_flat_map in Y as ([o b] & I & Y). cbn [fst snd] in Y.
      destruct (str_eqb_spec o (firstn 2 w)) as [->|_].
      + destruct Y as [Y|[]]. inversion Y; subst. exists c. unfold w. cbn [firstn skipn]. repeat split; [].
        unfold w in *. cbn [skipn] in *. intros ->. cbn [firstn] in I. rewrite (os_dget _ _ I) in D. discriminate.
      + destruct (starts_with _ o); [destruct Y as [Y|[]]; inversion Y|destruct Y]. }
  destruct (after_eq w) as [x|] eqn:A; [|exact G]. destruct (dget (before_eq w) option_strings) as [b|] eqn:B; [discriminate|exact G].
Qed.

(** ** the words one by one *)
Definition cls (w : str) (p : piece) : Prop :=
  w <> lit "--" /\
  match p with
  | PArg v => v = w /\ parse_optional digit w = Word
  | POpt a n eq e => parse_optional digit w = Opt a n eq e
  | PUnknown => parse_optional digit w = Unknown
  | PDash => False
  end.
Lemma pieces_plain ws : forall ps rest, Forall2 cls ws ps -> pieces digit (ws ++ rest) = option_map (app ps) (pieces digit rest).
Proof.
  induction ws as [|w ws IH]; intros ps rest F; inversion F as [|? p ? ps' C F']; subst; [change ([] ++ rest) with rest; destruct (pieces digit rest); reflexivity|].
  cbn [app pieces]. destruct C as [N C]. destruct (str_eqb_spec w (lit "--")) as [Q|_]; [contradiction|]. rewrite (IH _ rest F').
  destruct p; try contradiction; [destruct C as [-> C]| |]; rewrite C; destruct (pieces digit rest); reflexivity.
Qed.
Lemma pieces_inv argv : forall l, pieces digit argv = Some l ->
  Forall2 cls argv l \/ exists ws vs ps, argv = ws ++ lit "--" :: vs /\ l = ps ++ PDash :: map PArg vs /\ Forall2 cls ws ps.
Proof.
  induction argv as [|w r IH]; cbn [pieces]; intros l H; [inversion H; left; constructor|].
  destruct (str_eqb_spec w (lit "--")) as [->|N].
  - inversion H. right. exists [], r, []. split; [reflexivity|]. split; [reflexivity|constructor].
  - destruct (pieces digit r) as [ps|]; [|destruct (parse_optional digit w); discriminate].
    assert (K : exists p, l = p :: ps /\ cls w p).
    { destruct (parse_optional digit w) eqn:P; inversion H; subst; eexists; (split; [reflexivity|]); (split; [exact N|]); auto. }
    destruct K as (p & -> & C). destruct (IH ps eq_refl) as [F|(ws & vs & qs & -> & -> & F)].
    + left. now constructor.
    + right. exists (w :: ws), vs, (p :: qs). split; [reflexivity|]. split; [reflexivity|now constructor].
Qed.
Lemma opt_not_dashes w a n eq e : parse_optional digit w = Opt a n eq e -> w <> lit "--".
Proof. intros H ->. vm_compute in H. discriminate. Qed.
Lemma word_not_dashes w : word digit w -> w <> lit "--".
Proof. intros H ->. apply parse_word in H. vm_compute in H. discriminate. Qed.
Lemma cls_word w : word digit w -> cls w (PArg w).
Proof. intros H. split; [now apply word_not_dashes|]. split; [reflexivity|now apply parse_word]. Qed.
Lemma cls_opt w a n eq e : parse_optional digit w = Opt a n eq e -> cls w (POpt a n eq e).
Proof. intros H. split; [exact (opt_not_dashes _ _ _ _ _ H)|exact H]. Qed.

(** *** letters in one word *)
Lemma group_true a n x : takes_value a = false -> group a n true x = GErr.
Proof.
  intros V. destruct x; cbn [group]; rewrite V; destruct n as [|z1 [|z2 z3]]; try reflexivity; destruct (N.eqb z2 MINUS); reflexivity.
Qed.
Lemma group_letters m : forall e a c, length e <= m -> In ([MINUS; c], a) option_strings ->
  match group a [MINUS; c] false e with
  | GErr => True
  | GDone _ x => x = true
  | GOpen acts b => Forall2 (fun c ao => In ([MINUS; c], fst ao) option_strings /\ snd ao = None) (c :: e) (acts ++ [(b, None)])
  end.
Proof.
  induction m as [|m IH]; intros e a c L I; destruct (os_letter _ _ I) as (N & _ & V).
  - destruct e; [|cbn in L; lia]. cbn [group]. rewrite V. destruct (N.eqb c MINUS); exact Logic.I.
  - destruct e as [|x e1]; cbn [group]; rewrite V; (destruct (N.eqb_spec c MINUS) as [|_]; [exact Logic.I|]); [exact Logic.I|]. cbn [orb].
    destruct (N.eqb x MINUS); [exact Logic.I|]. destruct (dget [MINUS; x] option_strings) as [b|] eqn:D; [|reflexivity]. apply dget_in in D.
    destruct e1 as [|y e2]; [cbn [app]; constructor; [split; [exact I|reflexivity]|constructor; [split; [exact D|reflexivity]|constructor]]|]. destruct (N.eqb y EQS) eqn:Y.
    + rewrite group_true; [exact Logic.I|apply (os_letter _ _ D)].
    + assert (LL : length (y :: e2) <= m) by (cbn [length] in *; lia). specialize (IH (y :: e2) b x LL D). destruct (group b [MINUS; x] false (y :: e2)) as [|l z|l z]; cbn [also]; [exact Logic.I|exact IH|].
      cbn [app]. constructor; [split; [exact I|reflexivity]|exact IH].
Qed.
Lemma group_open cs : forall c a b l, In ([MINUS; c], a) option_strings ->
  Forall2 (fun c x => In ([MINUS; c], x) option_strings) cs (l ++ [b]) -> group a [MINUS; c] false cs = GOpen (map (fun x => (x, None)) (a :: l)) b.
Proof.
  induction cs as [|x e1 IH]; intros c a b l I F; [inversion F; destruct l; discriminate|]. destruct (os_letter _ _ I) as (N & _ & V). cbn [group]. rewrite V.
  destruct (N.eqb_spec c MINUS) as [|_]; [contradiction|]. cbn [orb]. inversion F as [|? a1 ? r I1 F1 E1 E2]; subst. destruct (os_letter _ _ I1) as (N1 & M1 & V1).
  destruct (N.eqb_spec x MINUS) as [|_]; [contradiction|]. rewrite (os_dget _ _ I1). destruct e1 as [|y e2].
  - inversion F1; subst. destruct l as [|? [|? ?]]; inversion E2; subst. reflexivity.
  - inversion F1 as [|? a2 ? r2 I2 F2]; subst. destruct (os_letter _ _ I2) as (_ & M2 & _). destruct (N.eqb_spec y EQS) as [|_]; [contradiction|].
    destruct l as [|a1' l]; cbn [app] in E2; [inversion E2|]. inversion E2 as [[Q1 Q2]]. subst a1'. rewrite (IH x a1 b l I1); [reflexivity|]. rewrite <- Q2. exact F1.
Qed.

(** *** one option with its value *)
Inductive opts : list piece -> list (act * option str) -> Prop :=
| O_nil : opts [] []
| O_one a n eq e acts r acts' : consume_optional a n eq e [] = Some (acts, false, []) -> opts r acts' -> opts (POpt a n eq e :: r) (acts ++ acts')
| O_two a n eq e v acts r acts' : consume_optional a n eq e [PArg v] = Some (acts, false, []) -> opts r acts' -> opts (POpt a n eq e :: PArg v :: r) (acts ++ acts').
Lemma consume_one a n eq e r acts x : consume_optional a n eq e [] = Some (acts, x, []) -> consume_optional a n eq e r = Some (acts, x, r).
Proof.
  unfold consume_optional. destruct e as [t|].
  - destruct (group a n eq t) as [|l y|l b]; intros H; [discriminate|now inversion H|]. destruct (takes_value b); [discriminate|now inversion H].
  - destruct (takes_value a); intros H; [discriminate|now inversion H].
Qed.
Lemma consume_two a n eq e v r acts x : consume_optional a n eq e [PArg v] = Some (acts, x, []) -> consume_optional a n eq e (PArg v :: r) = Some (acts, x, r).
Proof.
  unfold consume_optional. destruct e as [t|].
  - destruct (group a n eq t) as [|l y|l b]; intros H; [discriminate|now inversion H|]. destruct (takes_value b); now inversion H.
  - destruct (takes_value a); intros H; now inversion H.
Qed.
Lemma consume_inv a n eq e r acts x r' : consume_optional a n eq e r = Some (acts, x, r') ->
  (r' = r /\ consume_optional a n eq e [] = Some (acts, x, [])) \/ exists v, r = PArg v :: r' /\ consume_optional a n eq e [PArg v] = Some (acts, x, []).
Proof.
  unfold consume_optional. destruct e as [t|].
  - destruct (group a n eq t) as [|l y|l b]; intros H; [discriminate|inversion H; auto|].
    destruct (takes_value b); [|inversion H; auto]. destruct r as [|[v| | |] r]; try discriminate. inversion H; subst. right. eauto.
  - destruct (takes_value a); intros H; [|inversion H; auto]. destruct r as [|[v| | |] r]; try discriminate. inversion H; subst. right. eauto.
Qed.
Lemma take_app a : forall b ns, take_actions int_of (a ++ b) ns =
  match take_actions int_of a ns with Some (Some ns1) => take_actions int_of b ns1 | x => x end.
Proof.
  induction a as [|[[|d v|d int] [w|]] a IH]; intros b ns; cbn [app take_actions]; try reflexivity; try apply IH. destruct int; [|apply IH]. destruct (int_of w); [apply IH|reflexivity].
Qed.
Lemma put_all_app l r ns : put_all (l ++ r) ns = put_all r (put_all l ns).
Proof. unfold put_all. apply fold_left_app. Qed.
Lemma take_letters cs l : Forall2 (fun c dv => In ([MINUS; c], Const (fst dv) (snd dv)) option_strings) cs l ->
  forall ns, take_actions int_of (map (fun dv : str * cval => (Const (fst dv) (snd dv), None)) l) ns = Some (Some (put_all l ns)).
Proof. intros F. induction F as [|c [d v] cs l _ _ IH]; intros ns; [reflexivity|]. cbn [map take_actions fst snd]. rewrite IH. reflexivity. Qed.
Lemma letters_taken cs acts : Forall2 (fun c ao => In ([MINUS; c], fst ao) option_strings /\ snd ao = None) cs acts ->
  forall ns ns', take_actions int_of acts ns = Some (Some ns') -> exists l, Forall2 (fun c dv => In ([MINUS; c], Const (fst dv) (snd dv)) option_strings) cs l /\ ns' = put_all l ns.
Proof.
  intros F. induction F as [|c [a o] cs acts [I O] _ IH]; intros ns ns' T; [inversion T; exists []; split; [constructor|reflexivity]|]. cbn [fst snd] in *. subst o.
  destruct a as [|d v|d int]; cbn [take_actions] in T; try discriminate. destruct (IH _ _ T) as (l & F & ->). exists ((d, v) :: l). split; [constructor; assumption|reflexivity].
Qed.

Lemma item_pieces ws l : item int_of digit ws l -> exists ps acts, Forall2 cls ws ps /\
  (forall r acts', opts r acts' -> opts (ps ++ r) (acts ++ acts')) /\ forall ns, take_actions int_of acts ns = Some (Some (put_all l ns)).
Proof.
  intros H. destruct H as [w d v N|w d int x v N W V|w d int x v N L V|cs l L F].
  - destruct (parse_names w _ N) as (n & P). exists [POpt (Const d v) n false None], [(Const d v, None)].
    split; [repeat constructor; now apply (cls_opt _ _ _ _ _ P)|]. split; [intros r acts' O; now apply (O_one _ _ _ _ [(Const d v, None)])|reflexivity].
  - destruct (parse_names w _ N) as (n & P). exists [POpt (Val d int) n false None; PArg x], [(Val d int, Some x)].
    split; [constructor; [now apply (cls_opt _ _ _ _ _ P)|constructor; [now apply cls_word|constructor]]|].
    split; [intros r acts' O; now apply (O_two _ _ _ _ x [(Val d int, Some x)])|].
    intros ns. cbn [take_actions]. unfold value in V. destruct int; [destruct V as (k & -> & ->); reflexivity|subst v; reflexivity].
  - destruct (parse_equals w _ x N L) as (n & P). exists [POpt (Val d int) n true (Some x)], [(Val d int, Some x)].
    split; [repeat constructor; now apply (cls_opt _ _ _ _ _ P)|].
    split; [intros r acts' O; apply (O_one _ _ _ _ [(Val d int, Some x)]); [|exact O]; unfold consume_optional; destruct x; reflexivity|].
    intros ns. cbn [take_actions]. unfold value in V. destruct int; [destruct V as (k & -> & ->); reflexivity|subst v; reflexivity].
  - destruct cs as [|c [|d cs]]; cbn [length] in L; try lia. inversion F as [|? [d1 v1] ? l1 I1 F1]; subst. inversion F1 as [|? [d2 v2] ? l2 I2 F2]; subst. cbn [fst snd] in *.
    assert (NE : ~ In EQS cs).
    { clear - F2. intros I. induction F2 as [|c dv cs l2 J F2 IH]; [destruct I|]. destruct I as [->|I]; [|auto]. now destruct (os_letter _ _ J) as (_ & Q & _). }
    pose proof (parse_letters c d cs _ _ I1 I2 NE) as P.
    exists [POpt (Const d1 v1) [MINUS; c] false (Some (d :: cs))], (map (fun dv : str * cval => (Const (fst dv) (snd dv), None)) ((d1, v1) :: (d2, v2) :: l2)).
    split; [constructor; [now apply (cls_opt _ _ _ _ _ P)|constructor]|].
    split; [|intros ns; apply (take_letters _ _ F)].
    intros r acts' O. apply O_one; [|exact O]. unfold consume_optional.
    destruct (@exists_last _ ((d2, v2) :: l2)) as (l3 & [d3 v3] & E); [discriminate|].
    assert (G : group (Const d1 v1) [MINUS; c] false (d :: cs) = GOpen (map (fun x => (x, None)) (Const d1 v1 :: map (fun dv : str * cval => Const (fst dv) (snd dv)) l3)) (Const d3 v3)).
    { apply group_open; [exact I1|]. rewrite E in F1. clear - F1.
      assert (K : forall cs l, Forall2 (fun c dv => In ([MINUS; c], Const (fst dv) (snd dv)) option_strings) cs l ->
        Forall2 (fun c x => In ([MINUS; c], x) option_strings) cs (map (fun dv : str * cval => Const (fst dv) (snd dv)) l)) by (intros ? ? F; induction F; constructor; assumption).
      apply K in F1. rewrite map_app in F1. exact F1. }
    rewrite G, E. cbn [takes_value]. rewrite !map_cons, map_app, map_map. reflexivity.
Qed.
Lemma item_one w a n eq e acts : cls w (POpt a n eq e) -> consume_optional a n eq e [] = Some (acts, false, []) ->
  forall ns ns', take_actions int_of acts ns = Some (Some ns') -> exists l, item int_of digit [w] l /\ ns' = put_all l ns.
Proof.
  intros [_ P] C ns ns' T. unfold consume_optional in C. destruct e as [x|].
  - destruct eq.
    + destruct (parse_true _ _ _ _ P) as (p & y & Ey & W & N & L). inversion Ey; subst y. destruct (takes_value a) eqn:V.
      * assert (G : group a n true x = GDone [(a, Some x)] false) by (destruct x; cbn [group]; rewrite V; reflexivity). rewrite G in C. inversion C; subst acts.
        destruct a as [| |d int]; try discriminate. cbn [take_actions] in T. destruct int.
        -- destruct (int_of x) as [k|] eqn:K; [|discriminate]. inversion T; subst. exists [(d, VInt k)]. split; [|reflexivity]. apply (I_equals int_of digit p d true x (VInt k) N L). exists k. auto.
        -- inversion T; subst. exists [(d, VStr x)]. split; [|reflexivity]. now apply (I_equals int_of digit p d false x (VStr x) N L).
      * rewrite (group_true _ _ _ V) in C. discriminate.
    + destruct (parse_some _ _ _ _ P) as (c & -> & W & NE). pose proof (parse_in _ _ _ _ _ P) as I. pose proof (group_letters (length x) x a c (le_n _) I) as G.
      destruct (group a [MINUS; c] false x) as [|l y|l b]; [discriminate|inversion C; subst; discriminate|].
      destruct (takes_value b); [discriminate|]. inversion C; subst acts. destruct (letters_taken _ _ G ns ns' T) as (l' & F & ->). exists l'. split; [|reflexivity]. rewrite W. apply I_letters; [|exact F].
      destruct x; [congruence|]. cbn [length]. lia.
  - destruct (takes_value a) eqn:V; [discriminate|]. inversion C; subst acts. cbn [app take_actions] in T. destruct a as [|d v|]; try discriminate. inversion T; subst.
    exists [(d, v)]. split; [|reflexivity]. apply I_flag. exact (parse_none _ _ _ _ P).
Qed.
Lemma item_two w a n eq e v x acts : cls w (POpt a n eq e) -> cls x (PArg v) -> consume_optional a n eq e [PArg v] = Some (acts, false, []) ->
  forall ns ns', take_actions int_of acts ns = Some (Some ns') -> exists l, item int_of digit [w; x] l /\ ns' = put_all l ns.
Proof.
  intros [_ P] [_ [-> W]] C ns ns' T. apply parse_word in W. unfold consume_optional in C. destruct e as [y|].
  - exfalso. destruct eq.
    + destruct (takes_value a) eqn:V; [|rewrite (group_true _ _ _ V) in C; discriminate].
      assert (G : group a n true y = GDone [(a, Some y)] false) by (destruct y; cbn [group]; rewrite V; reflexivity). rewrite G in C. discriminate.
    + destruct (parse_some _ _ _ _ P) as (c & -> & E & NE). pose proof (parse_in _ _ _ _ _ P) as I. pose proof (group_letters (length y) y a c (le_n _) I) as G.
      destruct (group a [MINUS; c] false y) as [|l z|l b]; [discriminate|inversion C; subst; discriminate|].
      apply Forall2_app_inv_r in G as (c1 & c2 & _ & G & _). inversion G as [|? ? ? ? [J _]]; subst. cbn [fst] in J. destruct (os_letter _ _ J) as (_ & _ & V). rewrite V in C. discriminate.
  - destruct (takes_value a) eqn:V; [|discriminate]. inversion C; subst acts. destruct a as [| |d int]; try discriminate. cbn [app take_actions] in T. destruct int.
    + destruct (int_of x) as [k|] eqn:K; [|discriminate]. inversion T; subst. exists [(d, VInt k)]. split; [|reflexivity].
      apply (I_value int_of digit w d true x (VInt k)); [exact (parse_none _ _ _ _ P)|exact W|exists k; auto].
    + inversion T; subst. exists [(d, VStr x)]. split; [|reflexivity]. apply (I_value int_of digit w d false x (VStr x)); [exact (parse_none _ _ _ _ P)|exact W|reflexivity].
Qed.
Lemma items_pieces ws l : items int_of digit ws l -> exists ps acts, Forall2 cls ws ps /\ opts ps acts /\ forall ns, take_actions int_of acts ns = Some (Some (put_all l ns)).
Proof.
  intros H. induction H as [|a l b r I _ (ps & acts & F & O & T)].
  - exists [], []. repeat split; constructor.
  - destruct (item_pieces a l I) as (ps1 & acts1 & F1 & O1 & T1). exists (ps1 ++ ps), (acts1 ++ acts). split; [now apply Forall2_app|]. split; [now apply O1|].
    intros ns. rewrite take_app, T1, T, put_all_app. reflexivity.
Qed.
Lemma pieces_items ps acts : opts ps acts -> forall ws, Forall2 cls ws ps -> forall ns ns', take_actions int_of acts ns = Some (Some ns') ->
  exists l, items int_of digit ws l /\ ns' = put_all l ns.
Proof.
  intros O. induction O as [|a n eq e acts r acts' C _ IH|a n eq e v acts r acts' C _ IH]; intros ws F ns ns' T.
  - inversion F; subst. inversion T; subst. exists []. split; [constructor|reflexivity].
  - inversion F as [|w ? ws' ? Fw F']; subst. rewrite take_app in T. destruct (take_actions int_of acts ns) as [[ns1|]|] eqn:T1; try discriminate.
    destruct (item_one _ _ _ _ _ _ Fw C _ _ T1) as (l & I & ->). destruct (IH _ F' _ _ T) as (l' & I' & ->). exists (l ++ l').
    split; [now apply (Is_cons int_of digit [w] l ws' l')|now rewrite put_all_app].
  - inversion F as [|w ? ws' ? Fw F']; subst. inversion F' as [|x ? ws2 ? Fx F2]; subst. rewrite take_app in T. destruct (take_actions int_of acts ns) as [[ns1|]|] eqn:T1; try discriminate.
    destruct (item_two _ _ _ _ _ _ _ _ Fw Fx C _ _ T1) as (l & I & ->). destruct (IH _ F2 _ _ T) as (l' & I' & ->). exists (l ++ l').
    split; [now apply (Is_cons int_of digit [w; x] l ws2 l')|now rewrite put_all_app].
Qed.

(** ** the loop *)
Variable choices : list str.
Notation loop := (parse_loop int_of choices).
Lemma loop_extras fuel : forall l names ns ns' y, loop fuel l names true ns <> Parsed ns' y.
Proof.
  induction fuel as [|fuel IH]; intros l names ns ns' y H; [discriminate|]. cbn [parse_loop] in H. destruct (existsb is_option l).
  - assert (R : match span_args l with (run, rest) => match names with None => match take_names choices run with None => Rejected | Some x => loop fuel rest (Some x) true ns end | Some _ => loop fuel rest names true ns end end <> Parsed ns' y).
    { destruct (span_args l) as [run rest]. destruct names; [apply IH|]. destruct (take_names choices run); [apply IH|discriminate]. }
    destruct l as [|[v| |a n eq e|] r]; try (now apply R).
    + cbn [orb] in H. destruct (consume_optional a n eq e r) as [[[acts x] r']|]; [|discriminate]. destruct (take_actions int_of acts ns) as [[ns1|]|]; try discriminate. exact (IH _ _ _ _ _ H).
    + exact (IH _ _ _ _ _ H).
  - destruct names as [x|]; [discriminate|]. destruct (take_names choices l); discriminate.
Qed.
Lemma opts_options ps acts : opts ps acts -> ps = [] \/ exists a n eq e r, ps = POpt a n eq e :: r.
Proof. intros O. destruct O; eauto 8. Qed.
Lemma loop_opts ps acts : opts ps acts -> forall fuel rest names ns ns', length ps < fuel -> take_actions int_of acts ns = Some (Some ns') ->
  exists fuel', fuel - length ps <= fuel' /\ loop fuel (ps ++ rest) names false ns = loop fuel' rest names false ns'.
Proof.
  intros O. induction O as [|a n eq e acts r acts' C _ IH|a n eq e v acts r acts' C _ IH]; intros fuel rest names ns ns' L T.
  - inversion T; subst. exists fuel. cbn [length]. split; [lia|reflexivity].
  - destruct fuel as [|fuel]; [lia|]. cbn [app parse_loop existsb is_option orb]. rewrite (consume_one _ _ _ _ (r ++ rest) _ _ C).
    rewrite take_app in T. destruct (take_actions int_of acts ns) as [[ns1|]|]; try discriminate. cbn [length] in *.
    destruct (IH fuel rest names ns1 ns') as (f & F & E); [lia|exact T|]. exists f. split; [lia|exact E].
  - destruct fuel as [|fuel]; [lia|]. cbn [app parse_loop existsb is_option orb]. rewrite (consume_two _ _ _ _ _ (r ++ rest) _ _ C).
    rewrite take_app in T. destruct (take_actions int_of acts ns) as [[ns1|]|]; try discriminate. cbn [length] in *.
    destruct (IH fuel rest names ns1 ns') as (f & F & E); [lia|exact T|]. exists f. split; [lia|exact E].
Qed.
Lemma span_args_app l run rest : span_args l = (run, rest) -> l = run ++ rest /\ Forall (fun p => is_option p = false) run /\ match rest with p :: _ => is_option p = true | [] => True end.
Proof.
  revert run rest. induction l as [|p l IH]; intros run rest; cbn [span_args]; [intros H; inversion H; auto|]. destruct (is_option p) eqn:P.
  - intros H. inversion H; subst. auto.
  - destruct (span_args l) as [a b]. intros H. inversion H; subst. destruct (IH _ _ eq_refl) as (-> & F & Q). split; [reflexivity|]. split; [now constructor|exact Q].
Qed.
Lemma span_args_runs run rest : Forall (fun p => is_option p = false) run -> match rest with p :: _ => is_option p = true | [] => True end -> span_args (run ++ rest) = (run, rest).
Proof.
  intros F Q. induction F as [|p run P _ IH]; cbn [app].
  - destruct rest; [reflexivity|]. cbn [span_args]. now rewrite Q.
  - cbn [span_args]. now rewrite P, IH.
Qed.
Lemma no_options l : existsb is_option l = false -> Forall (fun p => is_option p = false) l.
Proof. induction l as [|p l IH]; cbn [existsb]; [constructor|]. rewrite orb_false_iff. intros [P Q]. auto. Qed.
Lemma loop_some fuel : forall l x ns ns' y, loop fuel l (Some x) false ns = Parsed ns' y -> exists acts, opts l acts /\ take_actions int_of acts ns = Some (Some ns') /\ y = x.
Proof.
  induction fuel as [|fuel IH]; intros l x ns ns' y H; [discriminate|]. cbn [parse_loop] in H. destruct (existsb is_option l) eqn:X.
  - assert (R : match span_args l with (run, rest) => loop fuel rest (Some x) true ns end <> Parsed ns' y) by (destruct (span_args l) as [run rest]; apply loop_extras).
    destruct l as [|[v| |a n eq e|] r]; try contradiction; [|exact (False_ind _ (loop_extras _ _ _ _ _ _ H))].
    destruct (consume_optional a n eq e r) as [[[acts z] r']|] eqn:C; [|discriminate]. destruct (take_actions int_of acts ns) as [[ns1|]|] eqn:T; try discriminate.
    cbn [orb] in H. destruct z; [destruct (loop_extras _ _ _ _ _ _ H)|]. destruct (IH _ _ _ _ _ H) as (acts' & O & T' & ->). exists (acts ++ acts'). split; [|split; [rewrite take_app, T; exact T'|reflexivity]].
    destruct (consume_inv _ _ _ _ _ _ _ _ C) as [[-> C']|(v & -> & C')]; [now apply O_one|now apply O_two].
  - destruct l; cbn [orb negb] in H; [|discriminate]. inversion H; subst. exists []. split; [constructor|auto].
Qed.
Lemma loop_none fuel : forall l ns ns' y, loop fuel l None false ns = Parsed ns' y -> exists ps acts run qs acts',
  l = ps ++ run ++ qs /\ opts ps acts /\ Forall (fun p => is_option p = false) run /\ take_names choices run = Some y /\ opts qs acts' /\
  take_actions int_of (acts ++ acts') ns = Some (Some ns').
Proof.
  induction fuel as [|fuel IH]; intros l ns ns' y H; [discriminate|]. cbn [parse_loop] in H. destruct (existsb is_option l) eqn:X.
  - assert (R : (match span_args l with (run, rest) => match take_names choices run with None => Rejected | Some x => loop fuel rest (Some x) false ns end end) = Parsed ns' y -> exists ps acts run qs acts',
      l = ps ++ run ++ qs /\ opts ps acts /\ Forall (fun p => is_option p = false) run /\ take_names choices run = Some y /\ opts qs acts' /\ take_actions int_of (acts ++ acts') ns = Some (Some ns')).
    { destruct (span_args l) as [run rest] eqn:S. destruct (take_names choices run) as [x|] eqn:N; [|discriminate]. intros K. destruct (loop_some _ _ _ _ _ _ K) as (acts' & O & T & ->).
      destruct (span_args_app _ _ _ S) as (E & F & _). exists [], [], run, rest, acts'. repeat (split; [first [exact E|constructor|exact F|exact N|exact O]|]). exact T. }
    destruct l as [|[v| |a n eq e|] r]; try (exact (R H)); [|exact (False_ind _ (loop_extras _ _ _ _ _ _ H))].
    destruct (consume_optional a n eq e r) as [[[acts z] r']|] eqn:C; [|discriminate]. destruct (take_actions int_of acts ns) as [[ns1|]|] eqn:T; try discriminate.
    cbn [orb] in H. destruct z; [destruct (loop_extras _ _ _ _ _ _ H)|]. destruct (IH _ _ _ _ H) as (ps & acts1 & run & qs & acts2 & -> & O1 & F & N & O2 & T').
    destruct (consume_inv _ _ _ _ _ _ _ _ C) as [[Q C']|(v & Q & C')].
    + subst r. exists (POpt a n eq e :: ps), (acts ++ acts1), run, qs, acts2. split; [reflexivity|]. split; [now apply O_one|]. repeat (split; [assumption|]). rewrite <- app_assoc, take_app, T. exact T'.
    + subst r. exists (POpt a n eq e :: PArg v :: ps), (acts ++ acts1), run, qs, acts2. split; [reflexivity|]. split; [now apply O_two|]. repeat (split; [assumption|]). rewrite <- app_assoc, take_app, T. exact T'.
  - destruct (take_names choices l) as [x|] eqn:N; [|discriminate]. inversion H; subst. exists [], [], l, [], []. split; [now rewrite app_nil_r|]. split; [constructor|]. split; [now apply no_options|].
    split; [exact N|]. split; [constructor|reflexivity].
Qed.
Lemma loop_done fuel x ns : 0 < fuel -> loop fuel [] (Some x) false ns = Parsed ns x.
Proof. destruct fuel; [lia|reflexivity]. Qed.
Lemma run_words l run x : take_names choices run = Some x -> flat_map (fun p => match p with PArg w => [w] | _ => [] end) run = l -> x = named l /\ Forall (fun w => In w choices) l.
Proof.
  unfold take_names. cbv zeta. intros H E. rewrite E in H. clear E. destruct (forallb _ l) eqn:F; [|discriminate]. inversion H. split; [reflexivity|]. apply Forall_forall. intros w I. rewrite forallb_forall in F. apply str_mem_In, F, I.
Qed.
Lemma words_run run l : flat_map (fun p => match p with PArg w => [w] | _ => [] end) run = l -> Forall (fun w => In w choices) l -> take_names choices run = Some (named l).
Proof.
  unfold take_names. cbv zeta. intros E F. rewrite E. clear E. assert (X : forallb (fun w => str_mem w choices) l = true) by (apply forallb_forall; intros w I; apply str_mem_In; rewrite Forall_forall in F; auto). rewrite X. reflexivity.
Qed.
Lemma args_words ws : flat_map (fun p => match p with PArg w => [w] | _ => [] end) (map PArg ws) = ws.
Proof. induction ws; cbn [map flat_map app]; congruence. Qed.
Lemma loop_run run qs fuel ns x : run <> [] -> Forall (fun p => is_option p = false) run -> (qs = [] \/ exists a n eq e r, qs = POpt a n eq e :: r) -> take_names choices run = Some x -> 1 < fuel ->
  exists fuel', fuel - 1 <= fuel' /\ (loop fuel (run ++ qs) None false ns = loop fuel' qs (Some x) false ns).
Proof.
  intros NE F Q N L. destruct fuel as [|fuel]; [lia|]. cbn [parse_loop]. destruct Q as [->|(a & n & eq & e & r & ->)].
  - rewrite app_nil_r. assert (X : existsb is_option run = false).
    { clear - F. induction F as [|p l P _ IH]; [reflexivity|]. cbn [existsb]. now rewrite P. }
    rewrite X, N. exists fuel. split; [lia|]. destruct fuel; [lia|reflexivity].
  - assert (X : existsb is_option (run ++ POpt a n eq e :: r) = true) by (rewrite existsb_app; cbn [existsb is_option]; apply orb_true_r). rewrite X.
    destruct run as [|p run]; [congruence|].
    inversion F as [|? ? P F']; subst. destruct p as [v| |? ? ? ?|]; try discriminate; cbn [app];
      (pose proof (span_args_runs _ (POpt a n eq e :: r) F eq_refl) as S; cbn [app] in S; rewrite S, N; exists fuel; split; [lia|reflexivity]).
Qed.

Lemma opts_app ps acts qs acts' : opts ps acts -> opts qs acts' -> opts (ps ++ qs) (acts ++ acts').
Proof. intros O P. induction O; cbn [app]; [exact P|rewrite <- app_assoc; now apply O_one|rewrite <- app_assoc; now apply O_two]. Qed.
Lemma cls_args ws ps : Forall2 cls ws ps -> Forall (fun p => is_option p = false) ps -> ps = map PArg ws /\ Forall (word digit) ws.
Proof.
  intros F. induction F as [|w p ws ps [_ C] _ IH]; intros G; [split; constructor|]. inversion G as [|? ? P G']; subst. destruct (IH G') as [-> W].
  destruct p; try contradiction; try discriminate. destruct C as [-> C]. split; [reflexivity|]. constructor; [now apply parse_word|exact W].
Qed.
Lemma words_args ws : Forall (word digit) ws -> Forall2 cls ws (map PArg ws).
Proof. intros F. induction F; cbn [map]; constructor; [now apply cls_word|assumption]. Qed.
Lemma args_no_options ws : Forall (fun p => is_option p = false) (map PArg ws).
Proof. induction ws; constructor; auto. Qed.
Lemma cls_not_dash ws ps : Forall2 cls ws ps -> ~ In PDash ps.
Proof. intros F. induction F as [|w p ws ps [_ C] _ IH]; [intros []|]. intros [E|I]; [subst p; contradiction|auto]. Qed.

Theorem line_parsed argv l names : line int_of digit choices argv l names -> parse_args int_of digit choices argv = Parsed (put_all l []) names.
Proof.
  intros H. unfold parse_args. destruct H as [a l ws b r Ia W C Ib|a l ws vs Ia W C].
  - destruct (items_pieces _ _ Ia) as (ps & acts & F & O & T). destruct (items_pieces _ _ Ib) as (qs & acts' & F' & O' & T').
    assert (P : pieces digit (a ++ ws ++ b) = Some (ps ++ map PArg ws ++ qs)).
    { rewrite (pieces_plain a ps _ F), (pieces_plain ws _ _ (words_args ws W)), <- (app_nil_r b), (pieces_plain b qs [] F'). cbn [pieces option_map]. now rewrite app_nil_r. }
    rewrite P. destruct ws as [|w ws].
    + cbn [map app]. destruct (loop_opts _ _ (opts_app _ _ _ _ O O') (S (length (ps ++ qs))) [] None [] (put_all (l ++ r) [])) as (f & L & E); [lia|rewrite take_app, T, T', put_all_app; reflexivity|].
      rewrite app_nil_r in E. rewrite E. destruct f; [lia|]. cbn [parse_loop existsb]. reflexivity.
    + set (run := map PArg (w :: ws)) in *. assert (LR : 0 < length run) by (unfold run; cbn; lia).
      destruct (loop_opts _ _ O (S (length (ps ++ run ++ qs))) (run ++ qs) None [] (put_all l [])) as (f & L & E); [rewrite app_length; lia|apply T|]. rewrite E.
      rewrite !app_length in L. destruct (loop_run run qs f (put_all l []) (Some (w :: ws))) as (f2 & L2 & E2); [discriminate|apply args_no_options|exact (opts_options _ _ O')|exact (words_run run (w :: ws) (args_words (w :: ws)) C)|lia|].
      rewrite E2. rewrite <- (app_nil_r qs). destruct (loop_opts _ _ O' f2 [] (Some (Some (w :: ws))) (put_all l []) (put_all r (put_all l []))) as (f3 & L3 & E3); [lia|apply T'|]. rewrite E3, loop_done, put_all_app; [reflexivity|lia].
  - destruct (items_pieces _ _ Ia) as (ps & acts & F & O & T). set (run := map PArg ws ++ PDash :: map PArg vs).
    assert (P : pieces digit (a ++ ws ++ lit "--" :: vs) = Some (ps ++ run)).
    { rewrite (pieces_plain a ps _ F), (pieces_plain ws _ _ (words_args ws W)). cbn [pieces]. destruct (str_eqb_spec (lit "--") (lit "--")); [|congruence]. reflexivity. }
    rewrite P. assert (LR : 0 < length run) by (unfold run; rewrite app_length; cbn [length]; lia).
    destruct (loop_opts _ _ O (S (length (ps ++ run))) run None [] (put_all l [])) as (f & L & E); [rewrite app_length; lia|apply T|]. rewrite E. rewrite !app_length in L.
    destruct (loop_run run [] f (put_all l []) (named (ws ++ vs))) as (f2 & L2 & E2).
    + unfold run. destruct ws; discriminate.
    + apply Forall_app. split; [apply args_no_options|]. constructor; [reflexivity|apply args_no_options].
    + now left.
    + apply words_run; [|exact C]. unfold run. rewrite flat_map_app. cbn [flat_map app]. now rewrite !args_words.
    + lia.
    + rewrite app_nil_r in E2. rewrite E2. apply loop_done. lia.
Qed.
Theorem parsed_line argv ns names : parse_args int_of digit choices argv = Parsed ns names -> exists l, line int_of digit choices argv l names /\ ns = put_all l [].
Proof.
  unfold parse_args. destruct (pieces digit argv) as [lp|] eqn:P; [|discriminate]. intros H. apply loop_none in H as (ps & acts & run & qs & acts' & E & O & R & N & O' & T).
  rewrite take_app in T. destruct (take_actions int_of acts []) as [[ns1|]|] eqn:T1; try discriminate.
  destruct (pieces_inv _ _ P) as [F|(ws & vs & ps0 & -> & L0 & F)].
  - rewrite E in F. apply Forall2_app_inv_r in F as (a & a2 & Fa & F & ->). apply Forall2_app_inv_r in F as (ws & b & Fw & Fb & ->).
    destruct (pieces_items _ _ O _ Fa _ _ T1) as (l & Ia & ->). destruct (pieces_items _ _ O' _ Fb _ _ T) as (r & Ib & ->).
    destruct (cls_args _ _ Fw R) as [-> W]. destruct (run_words _ _ _ N (args_words ws)) as [-> C]. exists (l ++ r). split; [now apply L_names|now rewrite put_all_app].
  - assert (D : exists r0, run = r0 ++ PDash :: map PArg vs /\ ps0 = ps ++ r0 /\ qs = []).
    { rewrite L0 in E. clear - E O O' R F. revert ps0 ws F E. induction O as [|a n eq e acts r acts2 C _ IH|a n eq e v acts r acts2 C _ IH]; intros ps0 ws F E.
      - cbn [app] in E. revert ps0 ws F E. induction R as [|p run Pp R IH]; intros ps0 ws F E; cbn [app] in E.
        + exfalso. destruct (opts_options _ _ O') as [->|(a & n & eq & e & r & ->)]; [destruct ps0; discriminate|].
          assert (K : forall ps0 qs, opts qs acts' -> ps0 ++ PDash :: map PArg vs = qs -> False).
          { clear. intros ps0 qs O. revert ps0. induction O as [|a n eq e acts r acts2 C _ IH|a n eq e v acts r acts2 C _ IH]; intros ps0 E.
            - destruct ps0; discriminate.
            - destruct ps0 as [|p ps0]; [discriminate|]. inversion E. eapply IH. eassumption.
            - destruct ps0 as [|p [|p2 ps0]]; try discriminate. inversion E. eapply IH. eassumption. }
          exact (K _ _ O' E).
        + destruct ps0 as [|p0 ps0]; cbn [app] in E; injection E as E1 E2.
          * subst p. exists []. cbn [app]. assert (Q : qs = []).
            { destruct (opts_options _ _ O') as [->|(a & n & eq & e & r & ->)]; [reflexivity|]. exfalso.
              assert (K : In (POpt a n eq e) (map PArg vs)) by (rewrite E2; apply in_or_app; right; now left). apply in_map_iff in K as (v & K & _). discriminate. }
            subst qs. rewrite app_nil_r in E2. split; [now rewrite E2|auto].
          * subst p0. inversion F as [|w ? ws' ? Fw F']; subst. destruct (IH ps0 ws' F' E2) as (r0 & -> & -> & ->). exists (p :: r0). auto.
      - destruct ps0 as [|p0 ps0]; cbn [app] in E; injection E as E1 E2; [discriminate|]. inversion F as [|w ? ws' ? Fw F']; subst. destruct (IH ps0 ws' F' E2) as (r0 & -> & -> & ->). exists r0. auto.
      - destruct ps0 as [|p0 [|p1 ps0]]; cbn [app] in E; [discriminate|discriminate|]. injection E as E1 E2 E3. inversion F as [|w ? ws' ? Fw F']; subst. inversion F' as [|w2 ? ws2 ? Fw2 F2]; subst.
        destruct (IH ps0 ws2 F2 E3) as (r0 & -> & -> & ->). exists r0. auto. }
    destruct D as (r0 & -> & -> & ->). apply Forall2_app_inv_r in F as (a & ws' & Fa & Fw & ->). apply Forall_app in R as [R _].
    destruct (cls_args _ _ Fw R) as [-> W]. destruct (pieces_items _ _ O _ Fa _ _ T1) as (l & Ia & ->). inversion O'; subst. inversion T; subst.
    destruct (run_words (ws' ++ vs) _ _ N) as [-> C]; [rewrite flat_map_app; cbn [flat_map app]; now rewrite !args_words|].
    exists l. split; [rewrite <- app_assoc; now apply L_dashes|reflexivity].
Qed.

(** ** the other outcomes *)
Lemma loop_ends fuel : forall l names x ns, length l < fuel -> loop fuel l names x ns <> NoFuel.
Proof.
  induction fuel as [|fuel IH]; intros l names x ns L; [lia|]. cbn [parse_loop]. destruct (existsb is_option l) eqn:X.
  - assert (R : (exists p r, l = p :: r /\ is_option p = false) -> match span_args l with (run, rest) => match names with None => match take_names choices run with None => Rejected | Some y => loop fuel rest (Some y) x ns end | Some _ => loop fuel rest names true ns end end <> NoFuel).
    { intros H. destruct (span_args l) as [run rest] eqn:S. destruct H as (p & r & E & P).
      destruct (span_args_app _ _ _ S) as (E2 & _ & Q). destruct run as [|p0 run]; [cbn [app] in E2; subst rest; rewrite E in Q; congruence|].
        assert (length rest < fuel) by (rewrite E2 in L; cbn [app length] in L; rewrite app_length in L; lia).
        destruct names; [now apply IH|]. destruct (take_names choices (p0 :: run)); [now apply IH|discriminate]. }
    destruct l as [|[v| |a n eq e|] r]; [discriminate|apply R; eauto|apply R; eauto| |]; cbn [length] in L.
    + destruct (consume_optional a n eq e r) as [[[acts z] r']|] eqn:C; [|discriminate]. destruct (take_actions int_of acts ns) as [[ns1|]|]; try discriminate. apply IH.
      destruct (consume_inv _ _ _ _ _ _ _ _ C) as [[-> _]|(v & -> & _)]; cbn [length] in *; lia.
    + apply IH. lia.
  - destruct names as [y|]; [destruct (_ || _); discriminate|]. destruct (take_names choices l); [destruct x; discriminate|discriminate].
Qed.
Theorem parse_ends argv : parse_args int_of digit choices argv <> NoFuel.
Proof. unfold parse_args. destruct (pieces digit argv); [apply loop_ends; lia|discriminate]. Qed.

Lemma group_asks m : forall e a c, length e <= m -> In ([MINUS; c], a) option_strings ->
  match group a [MINUS; c] false e with
  | GErr => True
  | GDone acts _ => forall ao, In ao acts -> exists x, In x (c :: e) /\ In ([MINUS; x], fst ao) option_strings
  | GOpen acts b => forall ao, In ao (acts ++ [(b, None)]) -> exists x, In x (c :: e) /\ In ([MINUS; x], fst ao) option_strings
  end.
Proof.
  induction m as [|m IH]; intros e a c L I; destruct (os_letter _ _ I) as (N & _ & V).
  - destruct e; [|cbn in L; lia]. cbn [group]. rewrite V. destruct (N.eqb c MINUS); exact Logic.I.
  - destruct e as [|x e1]; cbn [group]; rewrite V; (destruct (N.eqb_spec c MINUS) as [|_]; [exact Logic.I|]); [exact Logic.I|]. cbn [orb].
    destruct (N.eqb x MINUS); [exact Logic.I|]. destruct (dget [MINUS; x] option_strings) as [b|] eqn:D; [|intros ao [<-|[]]; exists c; split; [now left|exact I]]. apply dget_in in D.
    destruct e1 as [|y e2]; [intros ao [<-|[<-|[]]]; [exists c; split; [now left|exact I]|exists x; split; [right; now left|exact D]]|]. destruct (N.eqb y EQS) eqn:Y.
    + rewrite group_true; [exact Logic.I|apply (os_letter _ _ D)].
    + assert (LL : length (y :: e2) <= m) by (cbn [length] in *; lia). specialize (IH (y :: e2) b x LL D). destruct (group b [MINUS; x] false (y :: e2)) as [|l z|l z]; cbn [also]; [exact Logic.I| |].
      * intros ao [<-|J]; [exists c; split; [now left|exact I]|]. destruct (IH ao J) as (q & Q & W). exists q. split; [now right|exact W].
      * intros ao [<-|J]; [exists c; split; [now left|exact I]|]. destruct (IH ao J) as (q & Q & W). exists q. split; [now right|exact W].
Qed.
Lemma letter_help x : In ([MINUS; x], Help) option_strings -> x = 104%N.
Proof.
  intros I. pose proof (os_check (fun oa => match oa with ([_; x], Help) => N.eqb x 104 | _ => true end) eq_refl _ _ I) as H. cbv beta iota in H. now apply N.eqb_eq in H.
Qed.
Lemma take_helped acts : forall ns, take_actions int_of acts ns = Some None -> exists o, In (Help, o) acts.
Proof.
  induction acts as [|[[|d v|d int] [w|]] acts IH]; intros ns H; cbn [take_actions] in H; try discriminate; try (eexists; now left).
  - destruct (IH _ H) as (o & I). exists o. now right.
  - destruct (IH _ H) as (o & I). exists o. now right.
  - destruct int; [destruct (int_of w); [|discriminate]|]; destruct (IH _ H) as (o & I); exists o; now right.
Qed.
Lemma consume_help w a n eq e r acts z r' o : cls w (POpt a n eq e) -> consume_optional a n eq e r = Some (acts, z, r') -> In (Help, o) acts -> asks_help w.
Proof.
  intros [_ P] C I. unfold consume_optional in C. destruct e as [x|].
  - destruct eq.
    + exfalso. destruct (takes_value a) eqn:V; [|rewrite (group_true _ _ _ V) in C; discriminate].
      assert (G : group a n true x = GDone [(a, Some x)] false) by (destruct x; cbn [group]; rewrite V; reflexivity). rewrite G in C. inversion C; subst. destruct I as [I|[]]. inversion I; subst. discriminate.
    + destruct (parse_some _ _ _ _ P) as (c & -> & W & NE). pose proof (group_asks (length x) x a c (le_n _) (parse_in _ _ _ _ _ P)) as G. right. exists (c :: x). split; [exact W|].
      destruct (group a [MINUS; c] false x) as [|l y|l b]; [discriminate|inversion C; subst; destruct (G _ I) as (q & Q & H); apply letter_help in H; now subst|].
      assert (K : exists q, In q (c :: x) /\ In ([MINUS; q], Help) option_strings).
      { destruct (takes_value b) eqn:V.
        - destruct r as [|[v| | |] r]; try discriminate. inversion C; subst. apply in_app_iff in I as [I|[I|[]]]; [|inversion I; subst; discriminate].
          apply (G (Help, o)). apply in_or_app. now left.
        - inversion C; subst. exact (G _ I). }
      destruct K as (q & Q & H). apply letter_help in H. now subst.
  - left. destruct (takes_value a) eqn:V.
    + exfalso. destruct r as [|[v| | |] r]; try discriminate. inversion C; subst. destruct I as [I|[]]. inversion I; subst. discriminate.
    + inversion C; subst. destruct I as [I|[]]. inversion I; subst. exact (parse_none _ _ _ _ P).
Qed.
Lemma loop_helped fuel : forall l names x ns, loop fuel l names x ns = Helped -> exists a n eq e r acts z r' o,
  In (POpt a n eq e) l /\ consume_optional a n eq e r = Some (acts, z, r') /\ In (Help, o) acts.
Proof.
  induction fuel as [|fuel IH]; intros l names x ns H; [discriminate|]. cbn [parse_loop] in H. destruct (existsb is_option l).
  - assert (R : match span_args l with (run, rest) => match names with None => match take_names choices run with None => Rejected | Some y => loop fuel rest (Some y) x ns end | Some _ => loop fuel rest names true ns end end = Helped ->
      exists a n eq e r acts z r' o, In (POpt a n eq e) l /\ consume_optional a n eq e r = Some (acts, z, r') /\ In (Help, o) acts).
    { destruct (span_args l) as [run rest] eqn:S. destruct (span_args_app _ _ _ S) as (-> & _ & _). intros K.
      assert (K2 : exists a n eq e r acts z r' o, In (POpt a n eq e) rest /\ consume_optional a n eq e r = Some (acts, z, r') /\ In (Help, o) acts).
      { destruct names; [exact (IH _ _ _ _ K)|]. destruct (take_names choices run); [exact (IH _ _ _ _ K)|discriminate]. }
      destruct K2 as (a & n & eq & e & r & acts & z & r' & o & I & Q). exists a, n, eq, e, r, acts, z, r', o. split; [apply in_or_app; now right|exact Q]. }
    destruct l as [|[v| |a n eq e|] r]; try (exact (R H)).
    + destruct (consume_optional a n eq e r) as [[[acts z] r']|] eqn:C; [|discriminate]. destruct (take_actions int_of acts ns) as [[ns1|]|] eqn:T; try discriminate.
      * destruct (IH _ _ _ _ H) as (a1 & n1 & eq1 & e1 & r1 & acts1 & z1 & r1' & o & I & Q). exists a1, n1, eq1, e1, r1, acts1, z1, r1', o. split; [|exact Q]. right.
        destruct (consume_inv _ _ _ _ _ _ _ _ C) as [[-> _]|(v & -> & _)]; [exact I|now right].
      * destruct (take_helped _ _ T) as (o & I). exists a, n, eq, e, r, acts, z, r', o. split; [now left|auto].
    + destruct (IH _ _ _ _ H) as (a1 & n1 & eq1 & e1 & r1 & acts1 & z1 & r1' & o & I & Q). exists a1, n1, eq1, e1, r1, acts1, z1, r1', o. split; [now right|exact Q].
  - destruct names as [y|]; [destruct (_ || _); discriminate|]. destruct (take_names choices l); [destruct x; discriminate|discriminate].
Qed.
Theorem helped_asks argv : parse_args int_of digit choices argv = Helped -> exists w, In w argv /\ asks_help w.
Proof.
  unfold parse_args. destruct (pieces digit argv) as [lp|] eqn:P; [|discriminate]. intros H. apply loop_helped in H as (a & n & eq & e & r & acts & z & r' & o & I & C & J).
  assert (K : exists w, In w argv /\ cls w (POpt a n eq e)).
  { assert (F2 : forall ws ps, Forall2 cls ws ps -> In (POpt a n eq e) ps -> exists w, In w ws /\ cls w (POpt a n eq e)).
    { intros ws ps F. induction F as [|w p ws ps Cw _ IH]; [intros []|]. intros [->|K]; [exists w; split; [now left|exact Cw]|]. destruct (IH K) as (w' & Iw & Cw'). exists w'. split; [now right|exact Cw']. }
    destruct (pieces_inv _ _ P) as [F|(ws & vs & ps & -> & -> & F)]; [exact (F2 _ _ F I)|]. apply in_app_iff in I as [I|[I|I]]; [|discriminate|apply in_map_iff in I as (v & I & _); discriminate].
    destruct (F2 _ _ F I) as (w & Iw & Cw). exists w. split; [apply in_or_app; now left|exact Cw]. }
  destruct K as (w & Iw & Cw). exists w. split; [exact Iw|]. exact (consume_help _ _ _ _ _ _ _ _ _ _ Cw C J).
Qed.
End Proofs.
