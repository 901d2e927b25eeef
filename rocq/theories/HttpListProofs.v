From Verif Require Import PyStrFacts HttpModel HttpProofs HttpListModel HttpFilesModel.
From Coq Require Import Permutation Sorted Lia.

(** ** The order of texts *)
Lemma str_less_irrefl a : str_less a a = false.
Proof. induction a as [|x a IH]; [reflexivity|]. cbn [str_less]. rewrite N.ltb_irrefl, N.eqb_refl. exact IH. Qed.
Lemma str_less_total a : forall b, str_less a b = false -> str_less b a = false -> a = b.
Proof.
  induction a as [|x a IH]; intros [|y b] A B; try reflexivity; try discriminate. cbn [str_less] in *.
  apply Bool.orb_false_iff in A, B. destruct A as [A1 A2], B as [B1 B2]. apply N.ltb_ge in A1, B1. assert (x = y) by lia. subst y.
  rewrite N.eqb_refl in A2, B2. f_equal. now apply IH.
Qed.
Lemma str_less_trans a : forall b c, str_less a b = true -> str_less b c = true -> str_less a c = true.
Proof.
  induction a as [|x a IH]; intros [|y b] [|z c] A B; try reflexivity; try discriminate. cbn [str_less] in *.
  apply Bool.orb_true_iff in A, B. apply Bool.orb_true_iff. rewrite N.ltb_lt, Bool.andb_true_iff, N.eqb_eq in *.
  destruct A as [A|[-> A]], B as [B|[-> B]]; [left; lia|now left|now left|]. right. split; [reflexivity|]. eapply IH; eassumption.
Qed.

Definition pless (a b : str * str) : Prop := pair_less a b = true.
Lemma pless_iff a b : pless a b <-> str_less (fst a) (fst b) = true \/ fst a = fst b /\ str_less (snd a) (snd b) = true.
Proof. unfold pless, pair_less. now rewrite Bool.orb_true_iff, Bool.andb_true_iff, str_eqb_eq. Qed.
Lemma pless_irrefl a : pair_less a a = false.
Proof. unfold pair_less. now rewrite !str_less_irrefl, Bool.andb_false_r. Qed.
Lemma pless_trans a b c : pless a b -> pless b c -> pless a c.
Proof.
  rewrite !pless_iff. intros [A|[A A']] [B|[B B']].
  - left. eapply str_less_trans; eassumption.
  - left. now rewrite <- B.
  - left. now rewrite A.
  - right. split; [congruence|]. eapply str_less_trans; eassumption.
Qed.
Lemma pless_total a b : pair_less a b = false -> pair_less b a = false -> a = b.
Proof.
  unfold pair_less. rewrite !Bool.orb_false_iff. intros [A1 A2] [B1 B2]. pose proof (str_less_total _ _ A1 B1) as E.
  destruct a as [a1 a2], b as [b1 b2]. cbn [fst snd] in *. subst b1. rewrite str_eqb_refl in A2, B2. cbn [andb] in *.
  f_equal. now apply str_less_total.
Qed.

(** ** Sorting *)
Section Sort.
  Context {A : Type} (key : A -> str * str).
  Lemma insert_perm x l : Permutation (insert_by key x l) (x :: l).
  Proof.
    induction l as [|y l IH]; [reflexivity|]. cbn [insert_by]. destruct (pair_less _ _); [|reflexivity].
    etransitivity; [apply perm_skip, IH|apply perm_swap].
  Qed.
  Lemma sorted_perm l : Permutation (sorted_by key l) l.
  Proof. induction l as [|x l IH]; [reflexivity|]. cbn. etransitivity; [apply insert_perm|]. now apply perm_skip. Qed.
  Definition not_after (x y : A) : Prop := pair_less (key y) (key x) = false.
  Lemma insert_sorted x l : StronglySorted not_after l -> StronglySorted not_after (insert_by key x l).
  Proof.
    induction 1 as [|y l S IH F]; [repeat constructor|]. cbn [insert_by]. destruct (pair_less (key y) (key x)) eqn:E.
    - constructor; [exact IH|]. apply Forall_forall. intros z Z. apply (Permutation_in _ (insert_perm x l)) in Z. destruct Z as [<-|Z].
      + unfold not_after. destruct (pair_less (key x) (key y)) eqn:G; [|reflexivity]. pose proof (pless_trans _ _ _ E G) as X.
        unfold pless in X. rewrite pless_irrefl in X. discriminate.
      + rewrite Forall_forall in F. now apply F.
    - constructor; [now constructor|]. constructor; [exact E|]. revert F. apply Forall_impl. intros z N. unfold not_after in *.
      destruct (pair_less (key z) (key x)) eqn:G; [|reflexivity].
      destruct (pair_less (key x) (key y)) eqn:H; [pose proof (pless_trans _ _ _ G H); unfold pless in *; congruence|].
      pose proof (pless_total _ _ E H) as Q. rewrite Q in N. congruence.
  Qed.
  Lemma sorted_sorted l : StronglySorted not_after (sorted_by key l).
  Proof. induction l as [|x l IH]; [constructor|]. now apply insert_sorted. Qed.
  Lemma map_insert x l : map key (insert_by key x l) = insert_by (fun k => k) (key x) (map key l).
  Proof. induction l as [|y l IH]; [reflexivity|]. cbn [insert_by map]. destruct (pair_less _ _); [cbn [map]; now rewrite IH|reflexivity]. Qed.
  Lemma map_sorted l : map key (sorted_by key l) = sorted_by (fun k => k) (map key l).
  Proof. induction l as [|x l IH]; [reflexivity|]. cbn. rewrite map_insert. f_equal. exact IH. Qed.
End Sort.
Lemma insert_comm (a b : str * str) l : insert_by (fun k => k) a (insert_by (fun k => k) b l) = insert_by (fun k => k) b (insert_by (fun k => k) a l).
Proof.
  assert (AS : forall x y, pair_less x y = true -> pair_less y x = false).
  { intros x y H. destruct (pair_less y x) eqn:G; [|reflexivity]. pose proof (pless_trans _ _ _ H G) as X. unfold pless in X. now rewrite pless_irrefl in X. }
  induction l as [|y l IH]; cbn [insert_by].
  - destruct (pair_less b a) eqn:H; [now rewrite (AS _ _ H)|]. destruct (pair_less a b) eqn:G; [reflexivity|]. now rewrite (pless_total _ _ H G).
  - destruct (pair_less y b) eqn:YB, (pair_less y a) eqn:YA; cbn [insert_by]; rewrite ?YA, ?YB.
    + now rewrite IH.
    + assert (AB : pair_less a b = true).
      { destruct (pair_less a b) eqn:E; [reflexivity|]. destruct (pair_less a y) eqn:AY; [pose proof (pless_trans _ _ _ AY YB); unfold pless in *; congruence|].
        pose proof (pless_total _ _ YA AY). subst. congruence. }
      now rewrite AB.
    + assert (BA : pair_less b a = true).
      { destruct (pair_less b a) eqn:E; [reflexivity|]. destruct (pair_less b y) eqn:BY; [pose proof (pless_trans _ _ _ BY YA); unfold pless in *; congruence|].
        pose proof (pless_total _ _ YB BY). subst. congruence. }
      now rewrite BA.
    + destruct (pair_less b a) eqn:H; [now rewrite (AS _ _ H)|]. destruct (pair_less a b) eqn:G; [reflexivity|]. now rewrite (pless_total _ _ H G).
Qed.
Lemma sorted_same (l m : list (str * str)) : Permutation l m -> sorted_by (fun k => k) l = sorted_by (fun k => k) m.
Proof.
  induction 1 as [|x l m P IH|x y l|l m n P IH Q IH']; [reflexivity| | |congruence].
  - cbn. f_equal. exact IH.
  - cbn. apply insert_comm.
Qed.

Lemma lines_same {R S} (a : list (snap R)) (b : list (snap S)) : Permutation (map list_key a) (map list_key b) -> snapshot_lines a = snapshot_lines b.
Proof.
  intros P. unfold snapshot_lines.
  assert (E : forall T (l : list (snap T)), map (fun s => lit " * " ++ o_url (k_obj (fst s)) ++ lit " - " ++ k_hash (fst s)) l =
    map (fun k : str * str => lit " * " ++ fst k ++ lit " - " ++ snd k) (map list_key l)) by (intros T l; rewrite map_map; reflexivity).
  rewrite !E, !map_sorted. now rewrite (sorted_same _ _ P).
Qed.

(** ** The hashes of a sequence of requests *)
Section Gets.
  Variable cc : CharClass.
  Variable sha : obj -> str.
  Variable ok : obj -> Prop.
  Variable most : nat.
  Hypothesis sha_inj : forall a b n m, ok a -> ok b -> n <= most -> m <= most -> sha (with_order n a) = sha (with_order m b) -> same (with_order n a) (with_order m b).
  Hypothesis sha_same : forall a b n, ok a -> ok b -> n <= most -> same a b -> sha (with_order n a) = sha (with_order n b).
  Hypothesis h0_same : forall a b, ok a -> ok b -> same a b -> sha a = sha b.
  Hypothesis h0_inj : forall a b, ok a -> ok b -> sha a = sha b -> same a b.
  Hypothesis h0_order : forall a b n, ok a -> ok b -> n <= most -> sha a <> sha (with_order n b).

  Fixpoint gets (hs : list str) (os : list obj) : list str :=
    match os with
    | [] => hs
    | o :: r => gets (hs ++ [hash_at sha sha o (marked sha sha o hs)]) r
    end.
  Definition fine (o : obj) : Prop := ok o /\ o_order o = None.
  Lemma gets_incl os : forall hs, incl hs (gets hs os).
  Proof. induction os as [|o os IH]; intros hs; [apply incl_refl|]. cbn [gets]. eapply incl_tran; [|apply IH]. now apply incl_appl, incl_refl. Qed.
  Lemma gets_valid os : forall hs, Forall fine os -> valid sha sha ok hs -> valid sha sha ok (gets hs os).
  Proof. induction os as [|o os IH]; intros hs F V; [exact V|]. inversion F as [|? ? [K O] F']; subst. cbn [gets]. apply IH; [assumption|]. now constructor. Qed.
  Lemma gets_length os : forall hs, length (gets hs os) = length hs + length os.
  Proof. induction os as [|o os IH]; intros hs; cbn [gets length]; [lia|]. rewrite IH, app_length. cbn [length]. lia. Qed.

  Lemma gets_same os os' : Forall2 same os os' -> Forall ok os -> Forall ok os' -> forall hs, length hs + length os <= most -> gets hs os = gets hs os'.
  Proof.
    induction 1 as [|o o' os os' S F IH]; intros A B hs L; [reflexivity|]. inversion A; subst. inversion B; subst. cbn [gets length] in *.
    assert (M := marked_most sha sha o hs).
    rewrite <- (marked_same sha sha ok most sha_same h0_same o o' hs) by (assumption || lia).
    rewrite <- (hash_same sha sha ok most sha_same h0_same o o') by (assumption || lia). apply IH; try assumption. rewrite app_length. cbn [length]. lia.
  Qed.

  Lemma marked_perm o hs hs' : fine o -> valid sha sha ok hs -> valid sha sha ok hs' -> length hs <= most -> Permutation hs hs' ->
    marked sha sha o hs = marked sha sha o hs'.
  Proof.
    intros [K O] V V' L P. assert (L' : length hs' <= most) by (now rewrite <- (Permutation_length P)).
    assert (M := marked_most sha sha o hs). assert (M' := marked_most sha sha o hs').
    assert (B : forall j, j <= most -> (j < marked sha sha o hs <-> j < marked sha sha o hs')).
    { intros j J. rewrite <- !(valid_below sha sha ok most sha_inj sha_same h0_same h0_order) by assumption.
      split; apply Permutation_in; [exact P|now symmetry]. }
    destruct (Nat.lt_trichotomy (marked sha sha o hs) (marked sha sha o hs')) as [H|[H|H]]; [|exact H|].
    - apply B in H; lia.
    - apply B in H; lia.
  Qed.

  Lemma gets_hs os : forall hs hs', Forall fine os -> valid sha sha ok hs -> valid sha sha ok hs' -> length hs + length os <= most ->
    Permutation hs hs' -> Permutation (gets hs os) (gets hs' os).
  Proof.
    induction os as [|o os IH]; intros hs hs' F V V' L P; [exact P|]. inversion F as [|? ? Fo F']; subst. cbn [gets length] in *.
    rewrite <- (marked_perm o hs hs') by (assumption || lia). apply IH; try assumption.
    - constructor; [assumption|apply Fo|apply Fo].
    - rewrite (marked_perm o hs hs') by (assumption || lia). constructor; [assumption|apply Fo|apply Fo].
    - rewrite app_length. cbn [length]. lia.
    - now apply Permutation_app_tail.
  Qed.

  Lemma swap_hashes x y hs : fine x -> fine y -> valid sha sha ok hs -> length hs + 2 <= most ->
    Permutation (gets hs [x; y]) (gets hs [y; x]).
  Proof.
    intros [KX OX] [KY OY] V L. cbn [gets].
    set (mx := marked sha sha x hs) in *. set (my := marked sha sha y hs) in *. rewrite !marked_snoc. fold mx my.
    assert (MX : mx <= length hs) by apply marked_most. assert (MY : my <= length hs) by apply marked_most.
    destruct (str_eqb_spec (hash_at sha sha y my) (hash_at sha sha x mx)) as [E|N].
    - rewrite (proj2 (str_eqb_eq _ _)) by congruence. rewrite E.
      assert (Q : mx = my /\ same x y).
      { destruct my as [|m], mx as [|k]; cbn in E.
        - split; [reflexivity|]. apply h0_inj; congruence.
        - exfalso. revert E. apply h0_order; (assumption || lia).
        - exfalso. symmetry in E. revert E. apply h0_order; (assumption || lia).
        - symmetry in E. apply sha_inj in E; try (assumption || lia). apply order_same in E; [|congruence]. destruct E as [E S]. split; [lia|exact S]. }
      destruct Q as [Q SX]. rewrite Q. rewrite (hash_same sha sha ok most sha_same h0_same x y (S my)) by (assumption || lia). reflexivity.
    - rewrite (proj2 (str_eqb_neq _ _)) by congruence. rewrite <- !app_assoc. apply Permutation_app_head. cbn [app]. apply perm_swap.
  Qed.

  Lemma gets_perm os os' : Permutation os os' -> Forall fine os -> forall hs, valid sha sha ok hs -> length hs + length os <= most ->
    Permutation (gets hs os) (gets hs os').
  Proof.
    induction 1 as [|x l m P IH|x y l|l m n P IH Q IH']; intros F hs V L; [reflexivity| | |].
    - inversion F as [|? ? [K O] F']; subst. cbn [gets length] in *. apply IH; [assumption|now constructor|]. rewrite app_length. cbn [length]. lia.
    - inversion F as [|? ? Fy F']; subst. inversion F' as [|? ? Fx Fl]; subst.
      change (gets hs (y :: x :: l)) with (gets (gets hs [y; x]) l). change (gets hs (x :: y :: l)) with (gets (gets hs [x; y]) l).
      cbn [length] in L. apply gets_hs; try assumption.
      + apply gets_valid; [repeat constructor; assumption || apply Fx || apply Fy|assumption].
      + apply gets_valid; [repeat constructor; assumption || apply Fx || apply Fy|assumption].
      + rewrite gets_length. cbn [length]. lia.
      + apply swap_hashes; (assumption || lia).
    - etransitivity; [now apply IH|]. apply IH'; try assumption.
      + rewrite Forall_forall in *. intros o I. apply F. eapply Permutation_in; [symmetry; exact P|exact I].
      + now rewrite <- (Permutation_length P).
  Qed.

  Variable R X : Type.
  Notation base := (base sha ok).
  Lemma base_fine k : base k -> fine (k_obj k).
  Proof. intros (A & _ & B). now split. Qed.

  Lemma capture_gets capture snapshots (cs : list (key * (R + X))) : forall reqs reqs' os is,
    valid sha sha ok (hashes R reqs) -> length reqs + length cs <= most -> Forall (fun c => base (fst c)) cs ->
    send_all cc sha R X capture snapshots reqs cs = (reqs', os, is) ->
    Forall (fun o => exists r, o = Returned r) os ->
    hashes R reqs' = gets (hashes R reqs) (map (fun c => k_obj (fst c)) cs).
  Proof.
    induction cs as [|[k real] cs IH]; intros reqs reqs' os is V N B E HR; cbn [send_all] in E.
    - injection E as <- <- _. reflexivity.
    - inversion B as [|? ? Bk Bcs]; subst. destruct (send cc sha R X capture snapshots reqs k real) as [[reqs1 o] i] eqn:ES.
      destruct (send_all cc sha R X capture snapshots reqs1 cs) as [[reqs2 os'] is'] eqn:E2. injection E as <- <- _.
      inversion HR as [|? ? [r ->] HR']; subst. cbn [length] in N. assert (N0 : length reqs <= most) by lia.
      destruct (send_capture cc sha sha ok most sha_inj sha_same h0_same h0_order R X _ _ _ _ _ _ _ _ V N0 Bk ES) as (k' & -> & HK & V1).
      assert (N1 : length (reqs ++ [(k', r)]) + length cs <= most) by (rewrite app_length; cbn [length]; lia).
      rewrite (IH _ _ _ _ V1 N1 Bcs E2 HR'). cbn [map fst gets]. f_equal. unfold hashes. rewrite map_app. cbn [map fst]. f_equal. f_equal. exact HK.
  Qed.

  (** a run against a table that has every hash *)
  Lemma replay_gets table (cs : list (key * (R + X))) : forall reqs,
    valid sha sha ok (hashes R reqs) -> length reqs + length cs <= most -> Forall (fun c => base (fst c)) cs ->
    incl (gets (hashes R reqs) (map (fun c => k_obj (fst c)) cs)) (hashes R table) ->
    exists new os is, send_all cc sha R X false table reqs cs = (reqs ++ new, os, is) /\
      Forall (fun o => exists r, o = Returned r) os /\ Forall (fun i => i = false) is /\ incl new table /\
      hashes R (reqs ++ new) = gets (hashes R reqs) (map (fun c => k_obj (fst c)) cs).
  Proof.
    induction cs as [|[k real] cs IH]; intros reqs V N B I.
    - exists [], [], []. cbn [send_all]. rewrite app_nil_r. repeat split; constructor || (intros x []).
    - inversion B as [|? ? Bk Bcs]; subst. cbn [map fst gets length] in *. cbn [send_all].
      set (h := hash_at sha sha (k_obj k) (marked sha sha (k_obj k) (hashes R reqs))) in *.
      assert (IH0 : In h (hashes R table)).
      { apply I. apply gets_incl. apply in_or_app. right. now left. }
      assert (FT : exists s, find (fun t => str_eqb (k_hash (fst t)) h) (rev table) = Some s).
      { destruct (find (fun t : snap R => str_eqb (k_hash (fst t)) h) (rev table)) as [s|] eqn:F; [now exists s|]. exfalso. unfold hashes in IH0. apply in_map_iff in IH0 as (s & E & S).
        pose proof (find_none _ _ F s) as X1. cbn beta in X1. rewrite E, str_eqb_refl in X1. discriminate X1. now apply in_rev in S. }
      destruct FT as [[kt rt] FT]. pose proof (find_some _ _ FT) as [FI FE]. apply str_eqb_eq in FE. cbn [fst] in FE. apply in_rev in FI.
      assert (FRESH : ~ In h (hashes R reqs)).
      { apply (valid_fresh sha sha ok most sha_inj sha_same h0_same h0_order); [exact V| |apply Bk|apply Bk].
        assert (LR : length (hashes R reqs) = length reqs) by apply map_length. rewrite LR. lia. }
      assert (ES : send cc sha R X false table reqs k real = (reqs ++ [(kt, rt)], Returned rt, false)).
      { unfold send. destruct (Bk) as (_ & Bh & Bo). rewrite (base_at sha sha ok k Bk). rewrite mark_at by assumption.
        unfold matches. fold (hashes R reqs). change (k_hash (key_at sha sha (k_obj k) (marked sha sha (k_obj k) (hashes R reqs)))) with h.
        match goal with |- context [@find ?A ?f ?l] => assert (FX : @find A f l = Some (kt, rt)) by exact FT; rewrite FX end. cbn [snd fst]. rewrite FE.
        destruct (existsb (fun i => str_eqb h (k_hash (fst i))) reqs) eqn:EX; [|reflexivity]. apply existsb_hash in EX. contradiction. }
      rewrite ES.
      assert (HV : hashes R (reqs ++ [(kt, rt)]) = hashes R reqs ++ [h]).
      { unfold hashes. rewrite map_app. cbn [map fst]. now rewrite FE. }
      destruct (IH (reqs ++ [(kt, rt)])) as (new & os & is & E & A1 & A2 & A3 & A4).
      + rewrite HV. constructor; [exact V|apply Bk|apply Bk].
      + rewrite app_length. cbn [length]. lia.
      + exact Bcs.
      + rewrite HV. exact I.
      + rewrite E. exists ((kt, rt) :: new), (Returned rt :: os), (false :: is). rewrite <- app_assoc in A4. rewrite <- app_assoc. cbn [app] in *.
        split; [reflexivity|]. split; [constructor; eauto|]. split; [now constructor|]. split; [intros x [<-|X1]; [exact FI|now apply A3]|]. rewrite HV in A4. exact A4.
  Qed.
End Gets.
