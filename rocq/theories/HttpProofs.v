From Verif Require Import PyStrFacts HttpModel.
From Coq Require Import Permutation Lia.

(** headers as a dict *)
Fixpoint hget (k : str) (h : list (str * str)) : option str :=
  match h with
  | [] => None
  | (j, v) :: r => if str_eqb j k then Some v else hget k r
  end.
(** the same JSON object: the order of the headers does not matter *)
Definition same (a b : obj) : Prop :=
  o_url a = o_url b /\ o_method a = o_method b /\ o_body a = o_body b /\ o_order a = o_order b /\
  match o_headers a, o_headers b with
  | None, None => True
  | Some g, Some h => forall k, hget k g = hget k h
  | _, _ => False
  end.
Definition with_order (n : nat) (o : obj) : obj :=
  {| o_url := o_url o; o_method := o_method o; o_headers := o_headers o; o_body := o_body o; o_order := Some n |}.

Lemma same_refl a : same a a.
Proof. unfold same. repeat split. destruct (o_headers a); auto. Qed.
Lemma same_sym a b : same a b -> same b a.
Proof. unfold same. intros (A & B & C & D & E). repeat split; auto. destruct (o_headers a), (o_headers b); auto. Qed.
Lemma same_order n a b : same a b -> same (with_order n a) (with_order n b).
Proof. unfold same, with_order. cbn. tauto. Qed.
Lemma order_same n m a b : o_order a = o_order b -> same (with_order n a) (with_order m b) -> n = m /\ same a b.
Proof. unfold same, with_order. cbn. intros O (A & B & C & D & E). injection D as ->. tauto. Qed.

Section Http.
  Variable cc : CharClass.
  Variable sha : obj -> str.
  Variable h0 : obj -> str.
  (** the objects that are requested, and how often at most *)
  Variable ok : obj -> Prop.
  Variable most : nat.
  Hypothesis sha_inj : forall a b n m, ok a -> ok b -> n <= most -> m <= most -> sha (with_order n a) = sha (with_order m b) -> same (with_order n a) (with_order m b).
  Hypothesis sha_same : forall a b n, ok a -> ok b -> n <= most -> same a b -> sha (with_order n a) = sha (with_order n b).
  Hypothesis h0_same : forall a b, ok a -> ok b -> same a b -> h0 a = h0 b.
  Hypothesis h0_order : forall a b n, ok a -> ok b -> n <= most -> h0 a <> sha (with_order n b).

  (** the keys that an object can get *)
  Definition key_at (o : obj) (n : nat) : key :=
    match n with
    | 0 => {| k_obj := o; k_hash := h0 o |}
    | S _ => {| k_obj := with_order n o; k_hash := sha (with_order n o) |}
    end.
  Lemma increase_at o n : o_order o = None -> increase_order cc sha (key_at o n) = key_at o (S n).
  Proof.
    intros E. unfold increase_order, request_key, strip_headers. destruct n as [|n]; cbn [key_at k_obj].
    - rewrite E. reflexivity.
    - unfold with_order. cbn. now rewrite Nat.add_1_r.
  Qed.

  Definition hash_at o n := k_hash (key_at o n).
  Lemma hash_same o p n : ok o -> ok p -> n <= most -> same o p -> hash_at o n = hash_at p n.
  Proof. intros A B L H. unfold hash_at. destruct n; cbn; [now apply h0_same|]. now apply sha_same. Qed.

  (** mark_order on the hashes: the order that the key gets *)
  Definition marked (o : obj) (hs : list str) : nat := fold_left (fun n h => if str_eqb (hash_at o n) h then S n else n) hs 0.
  Lemma marked_snoc o hs h : marked o (hs ++ [h]) = if str_eqb (hash_at o (marked o hs)) h then S (marked o hs) else marked o hs.
  Proof. unfold marked. rewrite fold_left_app. reflexivity. Qed.

  Lemma marked_most o hs : marked o hs <= length hs.
  Proof. induction hs as [|h hs IH] using rev_ind; [cbn; lia|]. rewrite marked_snoc, app_length. cbn [length]. destruct (str_eqb _ _); lia. Qed.
  Lemma marked_same o p hs : ok o -> ok p -> length hs <= most -> same o p -> marked o hs = marked p hs.
  Proof.
    intros A B L H. induction hs as [|h hs IH] using rev_ind; [reflexivity|]. rewrite app_length in L. cbn [length] in L. rewrite !marked_snoc, IH by lia.
    assert (M := marked_most p hs). rewrite (hash_same o p (marked p hs)) by (try assumption; lia). reflexivity.
  Qed.

  Lemma mark_at R o (reqs : list (snap R)) : o_order o = None ->
    mark_order cc sha R reqs (key_at o 0) = key_at o (marked o (map (fun s => k_hash (fst s)) reqs)).
  Proof.
    intros O. unfold mark_order, marked. generalize 0. induction reqs as [|s reqs IH]; intros n; [reflexivity|].
    cbn [map fold_left]. fold (hash_at o n). destruct (str_eqb (hash_at o n) (k_hash (fst s))); [|apply IH].
    rewrite increase_at by assumption. apply IH.
  Qed.

  (** the hashes that a sequence of requests gets *)
  Inductive valid : list str -> Prop :=
  | valid_nil : valid []
  | valid_snoc hs o : valid hs -> ok o -> o_order o = None -> valid (hs ++ [hash_at o (marked o hs)]).

  Lemma valid_below hs : valid hs -> length hs <= most -> forall o, ok o -> o_order o = None -> forall j, j <= most -> In (hash_at o j) hs <-> j < marked o hs.
  Proof.
    induction 1 as [|hs p V IH KP OP]; intros L o K O j J; [cbn; split; [easy|lia]|].
    rewrite app_length in L. cbn [length] in L. specialize (IH ltac:(lia)).
    assert (MP := marked_most p hs). assert (MO := marked_most o hs).
    rewrite in_app_iff, marked_snoc. cbn [In]. rewrite (IH o K O j J).
    assert (FR : ~ In (hash_at p (marked p hs)) hs) by (rewrite (IH p KP OP) by lia; lia).
    assert (KEY : forall i, i <= most -> hash_at p (marked p hs) = hash_at o i -> i = marked o hs).
    { intros i I E. assert (G : ~ i < marked o hs) by (rewrite <- (IH o K O i I), <- E; exact FR).
      destruct i as [|i]; [lia|]. destruct (marked p hs) as [|m] eqn:EM.
      - exfalso. cbn in E. revert E. now apply h0_order.
      - cbn in E. apply sha_inj in E; [|assumption|assumption|lia|lia]. apply order_same in E; [|congruence]. destruct E as [EE S1].
        rewrite <- EE, <- EM. apply marked_same; [assumption|assumption|lia|]. exact S1. }
    destruct (str_eqb_spec (hash_at o (marked o hs)) (hash_at p (marked p hs))) as [EQ|NE].
    - split.
      + intros [H|[H|[]]]; [lia|]. apply KEY in H; lia.
      + intros H. destruct (Nat.eq_dec j (marked o hs)) as [->|N]; [right; left; now symmetry|left; lia].
    - split; [|tauto]. intros [H|[H|[]]]; [assumption|]. exfalso. pose proof (KEY _ J H) as EJ. subst j. congruence.
  Qed.
  Lemma valid_fresh hs o : valid hs -> length hs <= most -> ok o -> o_order o = None -> ~ In (hash_at o (marked o hs)) hs.
  Proof. intros V L K O. assert (M := marked_most o hs). rewrite (valid_below hs V L o K O) by lia. lia. Qed.

  Variable R X : Type.
  Variable to_disk : R -> option R.
  Notation snap := (snap R).
  Definition hashes (l : list snap) : list str := map (fun s => k_hash (fst s)) l.
  Lemma hashes_snoc (a b : list snap) (s t : snap) : hashes a = hashes b -> k_hash (fst s) = k_hash (fst t) -> hashes (a ++ [s]) = hashes (b ++ [t]).
  Proof. intros H E. unfold hashes. rewrite !map_app. f_equal; [exact H|]. cbn [map]. now rewrite E. Qed.
  (** the key of a request before its order is marked *)
  Definition base (k : key) : Prop := ok (k_obj k) /\ k_hash k = h0 (k_obj k) /\ o_order (k_obj k) = None.
  Lemma base_at k : base k -> k = key_at (k_obj k) 0.
  Proof. destruct k; unfold base; cbn. intros (_ & -> & _). reflexivity. Qed.

  Lemma existsb_hash h (l : list snap) : existsb (fun i => str_eqb h (k_hash (fst i))) l = true <-> In h (hashes l).
  Proof.
    unfold hashes. rewrite existsb_exists, in_map_iff. split; intros (s & A & B).
    - apply str_eqb_eq in B. eauto.
    - exists s. split; [assumption|]. apply str_eqb_eq. congruence.
  Qed.

  (** one request in a capture *)
  Lemma send_capture capture snapshots reqs k real reqs' r i :
    valid (hashes reqs) -> length reqs <= most -> base k ->
    send cc sha R X capture snapshots reqs k real = (reqs', Returned r, i) ->
    exists k', reqs' = reqs ++ [(k', r)] /\ k_hash k' = hash_at (k_obj k) (marked (k_obj k) (hashes reqs)) /\ valid (hashes reqs').
  Proof.
    intros V L B E. unfold send in E. destruct (B) as (K & _ & O). rewrite (base_at k B) in E. rewrite mark_at in E by assumption.
    fold (hashes reqs) in E. set (n := marked (k_obj k) (hashes reqs)) in *.
    assert (VS : valid (hashes reqs ++ [hash_at (k_obj k) n])) by (now constructor).
    destruct (find _ (rev snapshots)) as [[k' r']|] eqn:F.
    - apply find_some in F. destruct F as [_ M]. unfold matches in M. cbn [fst snd] in *. apply str_eqb_eq in M.
      change (k_hash (key_at (k_obj k) n)) with (hash_at (k_obj k) n) in M. rewrite M in E.
      destruct (existsb (fun i => str_eqb (hash_at (k_obj k) n) (k_hash (fst i))) reqs) eqn:EX.
      + apply existsb_hash in EX. exfalso. revert EX. apply valid_fresh; try assumption. unfold hashes. now rewrite map_length.
      + injection E as <- <- _. exists k'. repeat split; [exact M|]. unfold hashes. rewrite map_app. cbn [map fst]. rewrite M. exact VS.
    - destruct capture; [|discriminate]. destruct real as [r'|x]; [|discriminate]. injection E as <- <- _.
      exists (key_at (k_obj k) n). repeat split. unfold hashes. rewrite map_app. exact VS.
  Qed.

  (** a whole capture: the hashes stay valid, and the entries follow the responses *)
  Lemma capture_all capture snapshots cs : forall reqs reqs' os is,
    valid (hashes reqs) -> length reqs + length cs <= most -> Forall (fun c => base (fst c)) cs ->
    send_all cc sha R X capture snapshots reqs cs = (reqs', os, is) ->
    Forall (fun o => exists r, o = Returned r) os ->
    valid (hashes reqs') /\ exists new, reqs' = reqs ++ new /\ os = map (fun s => Returned (snd s)) new /\ length new = length cs.
  Proof.
    induction cs as [|[k real] cs IH]; intros reqs reqs' os is V N B E HR; cbn [send_all] in E.
    - injection E as <- <- _. split; [assumption|]. exists []. rewrite app_nil_r. auto.
    - inversion B as [|? ? Bk Bcs]; subst. destruct (send cc sha R X capture snapshots reqs k real) as [[reqs1 o] i] eqn:ES.
      destruct (send_all cc sha R X capture snapshots reqs1 cs) as [[reqs2 os'] is'] eqn:E2. injection E as <- <- _.
      inversion HR as [|? ? [r ->] HR']; subst. cbn [length] in N. assert (N0 : length reqs <= most) by lia. destruct (send_capture _ _ _ _ _ _ _ _ V N0 Bk ES) as (k' & -> & HK & V1).
      assert (N1 : length (reqs ++ [(k', r)]) + length cs <= most) by (rewrite app_length; cbn [length]; lia).
      destruct (IH _ _ _ _ V1 N1 Bcs E2 HR') as (V2 & new & -> & -> & L). split; [assumption|].
      exists ((k', r) :: new). rewrite <- app_assoc. cbn. auto.
  Qed.

  Lemma valid_nodup hs : valid hs -> length hs <= most -> NoDup hs.
  Proof.
    induction 1 as [|hs o V IH K O]; intros L; [constructor|]. rewrite app_length in L. cbn [length] in L. specialize (IH ltac:(lia)). apply (Permutation_NoDup (l := hash_at o (marked o hs) :: hs)); [apply Permutation_cons_append|].
    constructor; [apply valid_fresh; try assumption; lia|assumption].
  Qed.

  (** the replay: same hashes, responses from the snapshots *)
  Lemma replay_all capture snapshots table : forall cs cs' reqs reqs' new os is,
    (forall s, In s new -> exists s', In s' (rev table) /\ find (fun t => str_eqb (k_hash (fst t)) (k_hash (fst s))) (rev table) = Some s' /\ to_disk (snd s) = Some (snd s')) ->
    valid (hashes reqs) -> length reqs + length cs <= most -> hashes reqs' = hashes reqs ->
    Forall (fun c => base (fst c)) cs -> Forall2 (fun c c' => base (fst c') /\ same (k_obj (fst c)) (k_obj (fst c'))) cs cs' ->
    send_all cc sha R X capture snapshots reqs cs = (reqs ++ new, os, is) ->
    Forall (fun o => exists r, o = Returned r) os ->
    let '(_, os', is') := send_all cc sha R X false table reqs' cs' in
    Forall2 (fun o o' => exists r r', o = Returned r /\ to_disk r = Some r' /\ o' = Returned r') os os' /\ Forall (fun i => i = false) is'.
  Proof.
    induction cs as [|[k real] cs IH]; intros cs' reqs reqs' new os is HT V N HH B F E HR.
    - inversion F; subst. cbn [send_all] in *. injection E as _ <- _. split; constructor.
    - inversion F as [|? [k2 real2] ? cs2 [B2 S2] F2]; subst. cbn [send_all] in E |- *. inversion B as [|? ? Bk Bcs]; subst. cbn [fst] in *.
      destruct (send cc sha R X capture snapshots reqs k real) as [[reqs1 o] i] eqn:ES.
      destruct (send_all cc sha R X capture snapshots reqs1 cs) as [[req2 os1] is1] eqn:E2. injection E as E3 <- <-.
      destruct (Forall_inv HR) as [r ->]. pose proof (Forall_inv_tail HR) as HR'. cbn [length] in N. assert (N0 : length reqs <= most) by lia. destruct (send_capture _ _ _ _ _ _ _ _ V N0 Bk ES) as (k' & -> & HK & V1).
      assert (N1 : length (reqs ++ [(k', r)]) + length cs <= most) by (rewrite app_length; cbn [length]; lia).
      destruct (capture_all _ _ _ _ _ _ _ V1 N1 Bcs E2 HR') as (_ & new2 & E4 & E5 & L).
      rewrite E4, <- app_assoc in E3. apply app_inv_head in E3. cbn [app] in E3. subst new.
      assert (SH : hash_at (k_obj k2) (marked (k_obj k2) (hashes reqs')) = k_hash k').
      { assert (LR : length (hashes reqs) <= most) by (unfold hashes; rewrite map_length; exact N0).
        assert (K1 : ok (k_obj k)) by apply Bk. assert (K2 : ok (k_obj k2)) by apply B2.
        rewrite HH, HK. rewrite (marked_same _ _ _ K1 K2 LR S2). symmetry. apply hash_same; try assumption. eapply Nat.le_trans; [apply marked_most|exact LR]. }
      destruct (HT (k', r) (or_introl eq_refl)) as ([kt rt] & IT & FT & TD). cbn [fst snd] in *.
      assert (ES' : exists reqs1', send cc sha R X false table reqs' k2 real2 = (reqs1', Returned rt, false) /\ hashes reqs1' = hashes (reqs ++ [(k', r)])).
      { unfold send. destruct (B2) as (_ & Bh & Bo). rewrite (base_at k2 B2). rewrite mark_at by assumption. fold (hashes reqs').
        unfold matches. fold (hash_at (k_obj k2) (marked (k_obj k2) (hashes reqs'))). rewrite SH.
        match goal with |- context [@find ?A ?f ?l] => assert (FX : @find A f l = Some (kt, rt)) by exact FT; rewrite FX end. cbn [snd fst].
        assert (KT : k_hash kt = k_hash k') by (apply find_some in FT; destruct FT as [_ FT]; now apply str_eqb_eq in FT).
        rewrite KT. match goal with |- context [existsb ?f reqs'] => destruct (existsb f reqs') eqn:EX end.
        - exfalso. apply existsb_hash in EX. rewrite HH, HK in EX. revert EX. apply valid_fresh; [assumption| |apply Bk|apply Bk]. unfold hashes. rewrite map_length. exact N0.
        - eexists. split; [reflexivity|]. apply hashes_snoc; [exact HH|exact KT]. }
      destruct ES' as (reqs1' & -> & H1).
      assert (IHs := IH cs2 (reqs ++ [(k', r)]) reqs1' new2 os1 is1). rewrite E2, E4 in IHs.
      specialize (IHs (fun s I => HT s (or_intror I)) V1 N1 H1 Bcs F2 eq_refl HR').
      destruct (send_all cc sha R X false table reqs1' cs2) as [[rq os2] is2]. destruct IHs as [IH1 IH2]. split; constructor; eauto 6.
  Qed.

  (** storing: with distinct hashes the dict has one entry each *)
  Lemma dict_put_fresh e (d : list (entry R)) : ~ In (fst e) (map fst d) -> dict_put R e d = d ++ [e].
  Proof.
    induction d as [|f d IH]; cbn [dict_put map In app]; intros N; [reflexivity|].
    destruct (str_eqb_spec (fst f) (fst e)) as [E|]; [tauto|]. f_equal. apply IH. tauto.
  Qed.
  Lemma stop_spec hide reqs : forall d stored, stop R to_disk hide reqs d = Some stored ->
    NoDup (map fst d ++ hashes reqs) ->
    exists new, stored = d ++ new /\
      Forall2 (fun s e => fst e = k_hash (fst s) /\ snd (fst (snd e)) = k_hash (fst s) /\ fst (fst (snd e)) = fst (to_json_object hide (fst s)) /\ to_disk (snd s) = Some (snd (snd e))) reqs new.
  Proof.
    induction reqs as [|[k r] reqs IH]; intros d stored E ND; cbn [stop] in E.
    - injection E as <-. exists []. rewrite app_nil_r. split; [reflexivity|constructor].
    - destruct (to_disk r) as [r'|] eqn:TD; [|discriminate]. cbn [hashes map fst] in ND.
      rewrite dict_put_fresh in E by (cbn [fst]; intros I; apply NoDup_remove_2 in ND; apply ND; apply in_or_app; now left).
      destruct (IH _ _ E) as (new & -> & F).
      + rewrite map_app, <- app_assoc. exact ND.
      + rewrite <- app_assoc. cbn [app]. eexists. split; [reflexivity|]. constructor; [|exact F]. cbn. auto.
  Qed.
End Http.
