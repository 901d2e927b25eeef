(** Exact effect of tset on the abstract machine (C15). *)
From Verif Require Import PyStrFacts TokenizerSpec TokenizerProofs CaseRunModel CaseRunSpec ReaderProofs CaseRunProofs CaseRunFacts CaseRunLines SectionProofs.
From Coq Require Import Lia.

(** the items that find nothing left of the listed ones *)
Fixpoint misses (listed items : list str) : nat :=
  match items with
  | [] => 0
  | i :: r => if str_mem i listed then misses (set_remove i listed) r else S (misses listed r)
  end.
Lemma set_remove_In x i l : In x (set_remove i l) <-> In x l /\ x <> i.
Proof.
  unfold set_remove. rewrite filter_In. split.
  - intros [A B]. split; [exact A|]. intros ->. now rewrite str_eqb_refl in B.
  - intros [A B]. split; [exact A|]. destruct (str_eqb_spec i x) as [E|_]; [now subst|reflexivity].
Qed.
Lemma misses_ext items : forall l1 l2, (forall x, In x l1 <-> In x l2) -> misses l1 items = misses l2 items.
Proof.
  induction items as [|i r IH]; intros l1 l2 H; [reflexivity|]. cbn [misses].
  assert (E : str_mem i l1 = str_mem i l2).
  { destruct (str_mem i l1) eqn:E1, (str_mem i l2) eqn:E2; auto.
    - apply str_mem_In, H, str_mem_In in E1. congruence.
    - apply str_mem_In, H, str_mem_In in E2. congruence. }
  rewrite E. destruct (str_mem i l2); [|now rewrite (IH l1 l2)]. apply IH. intros x. rewrite !set_remove_In, H. reflexivity.
Qed.
Lemma misses_zero items : forall l, misses l items = 0 <-> NoDup items /\ incl items l.
Proof.
  induction items as [|i r IH]; intros l; cbn [misses].
  - split; [intros _; split; [constructor|easy]|reflexivity].
  - destruct (str_mem i l) eqn:E.
    + apply str_mem_In in E. rewrite IH. split.
      * intros [N I]. split; [constructor; [|exact N]|].
        -- intros Hi. apply I in Hi. apply set_remove_In in Hi. now apply (proj2 Hi).
        -- intros x [<- |Hx]; [exact E|]. apply I in Hx. now apply set_remove_In in Hx.
      * intros [N I]. inversion N as [|? ? N1 N2]; subst. split; [exact N2|]. intros x Hx. apply set_remove_In. split; [apply I; now right|].
        intros ->. now apply N1.
    + apply str_mem_not_In in E. split; [discriminate|]. intros [_ I]. exfalso. apply E, I. now left.
Qed.

Section Tset.
Variable cc : CharClass.
Hypothesis TOK : TokClassOK cc.
Variable t : str.
Notation T := (Some t).

Lemma tset_scan_listed prefix lc : forall listed fuel k j cmp,
  (forall i x, nth_error listed i = Some x -> nth_error (rlines t) (k + i) = Some (prefix ++ x)) ->
  (forall l, nth_error (rlines t) (k + length listed) = Some l -> starts_with prefix l = false) ->
  k <= length (rlines t) -> length (rlines t) - k <= fuel ->
  exists cmp' j', tset_scan cc fuel prefix lc (rpos cc T k j) cmp = Some (cmp', rpos cc T (k + length listed) j') /\
    (forall x, In x cmp' <-> In x cmp \/ In x listed) /\ k + length listed <= length (rlines t) /\ (j = 0 -> j' = 0).
Proof.
  induction listed as [|x listed IH]; intros fuel k j cmp HL HE Hk Hf.
  - cbn [length] in *. rewrite Nat.add_0_r in *. exists cmp, j. split; [|split; [intros y; cbn; tauto|split; [exact Hk|auto]]].
    destruct fuel; cbn [tset_scan]; rewrite r_line_rpos; cbn [line_at]; destruct (nth_error (rlines t) k) as [l|] eqn:E; try reflexivity; now rewrite (HE l eq_refl).
  - pose proof (HL 0 x eq_refl) as H0. rewrite Nat.add_0_r in H0. pose proof (nth_lt _ _ _ H0) as Lt.
    destruct fuel as [|fuel]; [lia|]. cbn [tset_scan]. rewrite r_line_rpos. cbn [line_at]. rewrite H0, starts_with_app.
    rewrite next_exp_line_rpos by (cbn [nlines]; lia). cbn [nlines]. rewrite Nat.min_l by lia.
    rewrite skipn_app, skipn_all, Nat.sub_diag. cbn [skipn app].
    edestruct (IH fuel (S k) 0) as (cmp' & j' & E & M & B & J).
    4: lia. 3: lia.
    + intros i y Hi. specialize (HL (S i) y Hi). rewrite <- HL. f_equal. lia.
    + intros l Hl. apply HE. rewrite <- Hl. f_equal. cbn [length]. lia.
    + exists cmp', j'. cbn [length]. replace (k + S (length listed)) with (S k + length listed) by lia. split; [exact E|]. split; [|split; [lia|auto]].
      intros y. rewrite M. destruct (str_mem x cmp) eqn:EX; cbn [In]; [apply str_mem_In in EX|]; split; intuition; subst; auto.
Qed.

Definition ndiffs (a : ast) : nat := length (filter rec_differs (a_recs a)).
Definition nfails (a : ast) : nat := length (filter rec_fails (a_recs a)).

Lemma next_line_counts a c l : ndiffs (next_line T a c l) = ndiffs a + (if marked (a_d a) then 1 else 0) /\
  nfails (next_line T a c l) = nfails a + (if marked (a_e a) then 1 else 0).
Proof. unfold ndiffs, nfails. cbn [next_line a_recs]. rewrite !filter_snoc. now split. Qed.

Lemma next_line_marks a c l : a_d (next_line T a c l) = None /\ a_e (next_line T a c l) = None.
Proof. now split. Qed.

Lemma tset_items_exact prefix b e : ~ In NL prefix -> ~ In NUL prefix -> forall items compare a s,
  Forall (fun i => ~ In NL i /\ ~ In NUL i) items -> Rel cc T a s -> a_d a = None -> a_e a = None ->
  exists rest a' s', tset_items cc items prefix (Some (compare, (b, e))) s = Some (Some (rest, (b, e)), s') /\
    Rel cc T a' s' /\ a_d a' = None /\ a_e a' = None /\
    (forall x, In x rest <-> In x compare /\ ~ In x items) /\
    ndiffs a' = ndiffs a + misses compare items /\ nfails a' = nfails a /\
    length (a_recs a') = length (a_recs a) + length items /\
    (items = [] -> a' = a) /\ (items <> [] -> a_cur a' = [] /\ a_j a' = 0 /\ a_lc a' = false).
Proof.
  intros Hpn Hpu. induction items as [|i items IH]; intros compare a s HF HR HD HE.
  - exists compare, a, s. cbn [tset_items misses length]. split; [reflexivity|]. do 3 (split; [assumption|]).
    split; [intros x; cbn; tauto|]. split; [lia|]. split; [reflexivity|]. split; [lia|]. split; [reflexivity|]. intros Z. now elim Z.
  - inversion HF as [|? ? [Hin Hiu] HF']; subst. cbn [tset_items misses].
    assert (HLn : ~ In NL (prefix ++ i)) by (rewrite in_app_iff; tauto).
    assert (HLu : ~ In NUL (prefix ++ i)) by (rewrite in_app_iff; tauto).
    assert (G : forall a1 s1 compare1, Rel cc T a1 s1 -> a_recs a1 = a_recs a -> a_e a1 = None ->
      exists rest a' s', bind (op_iln cc (prefix ++ i) s1) (tset_items cc items prefix (Some (compare1, (b, e)))) = Some (Some (rest, (b, e)), s') /\
      Rel cc T a' s' /\ a_d a' = None /\ a_e a' = None /\
      (forall x, In x rest <-> In x compare1 /\ ~ In x items) /\
      ndiffs a' = ndiffs a + (if marked (a_d a1) then 1 else 0) + misses compare1 items /\ nfails a' = nfails a /\
      length (a_recs a') = length (a_recs a) + length (i :: items) /\ (a_cur a' = [] /\ a_j a' = 0 /\ a_lc a' = false)).
    { intros a1 s1 compare1 R1 ER EE. destruct (iln_any cc TOK T a1 s1 (prefix ++ i) R1 HLn HLu) as (s2 & E2 & R2). rewrite E2. cbn [bind].
      destruct (next_line_counts a1 false (prefix ++ i)) as [N1 N2].
      destruct (IH compare1 _ s2 HF' R2 eq_refl eq_refl) as (rest & a' & s' & E' & R' & D' & E2' & M' & C1 & C2 & LN & Z1 & Z2).
      exists rest, a', s'. split; [exact E'|]. do 4 (split; [assumption|]).
      rewrite N1 in C1. rewrite N2 in C2. rewrite EE in C2. cbn [marked] in C2. unfold ndiffs, nfails in *. rewrite ER in *. split; [lia|]. split; [lia|].
      split; [rewrite LN; cbn [next_line a_recs]; rewrite app_length, ER; cbn [length]; lia|].
      destruct items as [|i2 items]; [rewrite (Z1 eq_refl); repeat split|]. apply Z2. discriminate. }
    destruct (str_mem i compare) eqn:EM.
    + destruct (op_seek_exact cc T a s (fun x => str_eqb x (prefix ++ i)) b (Some e) HR) as (k & j & s1 & E1 & [_ R1] & _).
      unfold op_seek_line. rewrite E1. cbn [bind]. cbn [asteps fold_left] in R1.
      destruct (G (astep cc T a (PMove k j)) s1 (set_remove i compare) R1 eq_refl HE) as (rest & a' & s' & E' & R' & D' & E2' & M' & C1 & C2 & LN & Z).
      exists rest, a', s'. split; [exact E'|]. do 3 (split; [assumption|]). split; [|split; [|split; [exact C2|split; [exact LN|split; [discriminate|auto]]]]].
      * intros x. rewrite M', set_remove_In. cbn [In]. split; [intros [[A B] C]; split; [exact A|]; intros [D|D]; [now apply B|now apply C]|].
        intros [A B]. split; [split; [exact A|]|]; intros D; apply B; [left; now symmetry|now right].
      * cbn [astep a_d] in C1. rewrite HD in C1. cbn [marked] in C1. lia.
    + destruct (G (astep cc T a PDiff) (do_diff s) compare (do_diff_Rel cc T a s HR) eq_refl HE) as (rest & a' & s' & E' & R' & D' & E2' & M' & C1 & C2 & LN & Z).
      exists rest, a', s'. split; [exact E'|]. do 3 (split; [assumption|]). split; [|split; [|split; [exact C2|split; [exact LN|split; [discriminate|auto]]]]].
      * intros x. rewrite M'. cbn [In]. apply str_mem_not_In in EM. split; [|tauto]. intros [A B]. split; [exact A|]. intros [D|D]; [subst x; now apply EM|now apply B].
      * cbn [astep a_d] in C1. rewrite HD in C1. cbn [first_mark marked] in C1. lia.
Qed.

Lemma tset_exact prefix items listed a s :
  ~ In NL prefix -> ~ In NUL prefix -> Forall (fun i => ~ In NL i /\ ~ In NUL i) items ->
  Rel cc T a s -> a_k a < length (rlines t) -> a_d a = None -> a_e a = None ->
  (forall i x, nth_error listed i = Some x -> nth_error (rlines t) (a_k a + i) = Some (prefix ++ x)) ->
  (forall l, nth_error (rlines t) (a_k a + length listed) = Some l -> starts_with prefix l = false) ->
  exists a' s', op_tset cc items prefix s = Some s' /\ Rel cc T a' s' /\ a_k a' = a_k a + length listed /\
    (a_d a' = None <-> incl listed items) /\ a_e a' = None /\
    ndiffs a' = ndiffs a + misses listed items /\ nfails a' = nfails a /\
    length (a_recs a') = length (a_recs a) + length items /\
    (items <> [] -> a_cur a' = [] /\ a_lc a' = false) /\ (a_j a = 0 -> a_j a' = 0).
Proof.
  intros Hpn Hpu HF HR HK HD HE HL HN. unfold op_tset.
  assert (EL : exists l, r_line (rd s) = Some l).
  { rewrite (R_rd _ _ _ _ HR), r_line_rpos. cbn [line_at]. destruct (nth_error (rlines t) (a_k a)) eqn:E; [eauto|]. apply nth_error_None in E. lia. }
  destruct EL as [l EL]. rewrite EL. pose proof (rlines_length t) as Hlen.
  assert (Hfu : reader_fuel (rd s) = S (length t)) by (rewrite (R_rd _ _ _ _ HR); reflexivity).
  destruct (tset_scan_listed prefix (last_checked s) listed (reader_fuel (rd s)) (a_k a) (a_j a) [] HL HN) as (cmp & j' & E & M & B & J); [lia|lia|].
  rewrite <- (R_rd _ _ _ _ HR) in E. rewrite E. cbn [bind].
  pose proof (set_rd_Rel cc T a s (a_k a + length listed) j' HR B) as R1.
  destruct (tset_items_exact prefix (r_num (rd s)) (r_num (rpos cc T (a_k a + length listed) j')) Hpn Hpu items cmp _ _ HF R1 HD HE)
    as (rest & a2 & s2 & E2 & R2 & D2 & X2 & M2 & C1 & C2 & LN & Z1 & Z2).
  rewrite E2. cbn [bind fst snd]. rewrite r_num_rpos.
  assert (MR : rest = [] <-> incl listed items).
  { split.
    - intros Er x Hx. destruct (in_dec (list_eq_dec N.eq_dec) x items) as [I|I]; [exact I|]. exfalso.
      assert (In x rest) as Hr by (apply M2; split; [apply M; now right|exact I]). now rewrite Er in Hr.
    - intros I. destruct rest as [|x rest]; [reflexivity|]. exfalso. destruct (proj1 (M2 x) (or_introl eq_refl)) as [A A2]. apply M in A. destruct A as [[]|A].
      apply A2, I, A. }
  set (s3 := match rest with [] => s2 | _ :: _ => do_diff s2 end). set (a3 := match rest with [] => a2 | _ :: _ => astep cc T a2 PDiff end).
  assert (R3 : Rel cc T a3 s3) by (unfold a3, s3; destruct rest; [exact R2|now apply do_diff_Rel]).
  destruct (op_jump_exact cc T a3 s3 (S (a_k a + length listed)) R3) as (s4 & E4 & [_ R4]). cbn [asteps fold_left] in R4.
  eexists _, s4. split; [exact E4|]. split; [exact R4|]. cbn [astep a_k a_d a_e].
  assert (A3 : a_recs a3 = a_recs a2 /\ a_cur a3 = a_cur a2 /\ a_lc a3 = a_lc a2 /\ a_e a3 = a_e a2 /\ a_j a3 = a_j a2) by (unfold a3; destruct rest; repeat split).
  destruct A3 as (A31 & A32 & A33 & A34 & A35).
  split; [cbn [nlines]; lia|]. split; [|split; [now rewrite A34|]].
  - unfold a3. rewrite <- MR. destruct rest as [|x rest]; [now rewrite D2|]. cbn [astep a_d]. rewrite D2. cbn [first_mark]. split; discriminate.
  - unfold ndiffs, nfails in *. cbn [astep a_recs a_cur a_lc a_j] in *. rewrite A31, A32, A33, A35. split.
    + rewrite C1. f_equal. apply misses_ext. intros x. rewrite M. cbn. tauto.
    + split; [exact C2|]. split; [exact LN|]. split; [intros Hi; destruct (Z2 Hi) as (Q1 & Q2 & Q3); now split|].
      intros J0. destruct (Nat.eqb _ _); [|reflexivity]. destruct items as [|i items]; [now rewrite (Z1 eq_refl); apply J|].
      apply Z2. discriminate.
Qed.
End Tset.
