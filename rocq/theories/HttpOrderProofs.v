(** Replaying requests in another order than that of the capture: lemmas. *)
From Verif Require Import PyStrFacts HttpModel HttpProofs.
From Coq Require Import Permutation Lia.

Section Order.
  Variable cc : CharClass.
  Variable sha : obj -> str.
  Variable h0 : obj -> str.
  Variable ok : obj -> Prop.
  Variable most : nat.
  Hypothesis sha_inj : forall a b n m, ok a -> ok b -> n <= most -> m <= most -> sha (with_order n a) = sha (with_order m b) -> same (with_order n a) (with_order m b).
  Hypothesis sha_same : forall a b n, ok a -> ok b -> n <= most -> same a b -> sha (with_order n a) = sha (with_order n b).
  Hypothesis h0_same : forall a b, ok a -> ok b -> same a b -> h0 a = h0 b.
  Hypothesis h0_inj : forall a b, ok a -> ok b -> h0 a = h0 b -> same a b.
  Hypothesis h0_order : forall a b n, ok a -> ok b -> n <= most -> h0 a <> sha (with_order n b).
  Notation hash_at := (hash_at sha h0).
  Notation marked := (marked sha h0).

  Definition count (o : obj) (ps : list obj) : nat := length (filter (fun p => str_eqb (h0 o) (h0 p)) ps).
  Lemma count_snoc o ps p : count o (ps ++ [p]) = count o ps + if str_eqb (h0 o) (h0 p) then 1 else 0.
  Proof. unfold count. rewrite filter_app, app_length. cbn [filter]. now destruct (str_eqb (h0 o) (h0 p)). Qed.
  Lemma count_le o ps : count o ps <= length ps.
  Proof. induction ps as [|p ps IH] using rev_ind; [cbn; lia|]. rewrite count_snoc, app_length. cbn [length]. destruct (str_eqb _ _); lia. Qed.

  (** the hashes that requests for these objects get *)
  Definition fine (o : obj) : Prop := ok o /\ o_order o = None.
  Inductive gen : list obj -> list str -> Prop :=
  | gen_nil : gen [] []
  | gen_snoc ps hs p : gen ps hs -> fine p -> gen (ps ++ [p]) (hs ++ [hash_at p (marked p hs)]).

  Lemma gen_length ps hs : gen ps hs -> length ps = length hs.
  Proof. induction 1; [reflexivity|]. rewrite !app_length. cbn. lia. Qed.
  Lemma gen_valid ps hs : gen ps hs -> valid sha h0 ok hs.
  Proof. induction 1 as [|ps hs p G IH [A B]]; constructor; auto. Qed.

  Lemma hash_at_inj o p n m : fine o -> fine p -> n <= most -> m <= most -> hash_at o n = hash_at p m -> n = m /\ same o p.
  Proof.
    intros [A B] [C D] N M E. unfold HttpProofs.hash_at in E. destruct n as [|n], m as [|m]; cbn in E.
    - split; [reflexivity|]. now apply h0_inj.
    - exfalso. revert E. now apply h0_order.
    - exfalso. symmetry in E. revert E. now apply h0_order.
    - apply sha_inj in E; auto. apply order_same in E; [exact E|congruence].
  Qed.

  Lemma gen_marked ps hs : gen ps hs -> length ps <= most -> forall o, fine o -> marked o hs = count o ps.
  Proof.
    induction 1 as [|ps hs p G IH F]; intros L o FO; [reflexivity|]. rewrite app_length in L. cbn [length] in L. specialize (IH ltac:(lia)).
    rewrite marked_snoc, count_snoc, (IH o FO), (IH p F). assert (CO := count_le o ps). assert (CP := count_le p ps).
    destruct (str_eqb_spec (h0 o) (h0 p)) as [E|E].
    - apply h0_inj in E; [|apply FO|apply F].
      assert (CE : count o ps = count p ps).
      { rewrite <- (IH o FO), <- (IH p F). apply (marked_same sha h0 ok most sha_same h0_same); [apply FO|apply F| |exact E]. rewrite <- (gen_length _ _ G). lia. }
      rewrite CE. rewrite (hash_same sha h0 ok most sha_same h0_same o p (count p ps)) by (try apply FO; try apply F; try assumption; lia).
      rewrite str_eqb_refl. lia.
    - destruct (str_eqb_spec (hash_at o (count o ps)) (hash_at p (count p ps))) as [Q|Q]; [|lia]. exfalso. apply E.
      apply hash_at_inj in Q; [|assumption|assumption|lia|lia]. apply h0_same; [apply FO|apply F|apply Q].
  Qed.

  Lemma gen_nth ps hs : gen ps hs -> forall i p, nth_error ps i = Some p -> nth_error hs i = Some (hash_at p (marked p (firstn i hs))).
  Proof.
    induction 1 as [|ps hs p G IH F]; intros i q E; [now destruct i|]. pose proof (gen_length _ _ G) as L.
    assert (LI : i < length (ps ++ [p])) by (apply nth_error_Some; congruence). rewrite app_length in LI. cbn [length] in LI.
    destruct (Nat.eq_dec i (length ps)) as [->|N].
    - rewrite nth_error_app2 in E by lia. rewrite Nat.sub_diag in E. injection E as <-.
      rewrite L, nth_error_app2 by lia. rewrite Nat.sub_diag. cbn [nth_error]. do 2 f_equal. rewrite firstn_app, firstn_all2, Nat.sub_diag by lia. cbn [firstn]. now rewrite app_nil_r.
    - rewrite nth_error_app1 in E by lia. rewrite nth_error_app1 by lia. rewrite firstn_app. replace (i - length hs) with 0 by lia. cbn [firstn]. rewrite app_nil_r. now apply IH.
  Qed.
  Lemma gen_firstn ps hs : gen ps hs -> forall i, i <= length ps -> gen (firstn i ps) (firstn i hs).
  Proof.
    induction 1 as [|ps hs p G IH F]; intros i L; [destruct i; constructor|]. pose proof (gen_length _ _ G) as Q.
    rewrite app_length in L. cbn [length] in L. destruct (Nat.eq_dec i (length (ps ++ [p]))) as [E|N].
    - rewrite !firstn_all2 by (rewrite ?app_length in *; cbn [length] in *; lia). now constructor.
    - rewrite app_length in N. cbn [length] in N. rewrite !firstn_app. replace (i - length ps) with 0 by lia. replace (i - length hs) with 0 by lia.
      cbn [firstn]. rewrite !app_nil_r. apply IH. lia.
  Qed.

  (** the [n]-th object with this hash *)
  Lemma count_find o ps : forall n, n < count o ps -> exists i p, nth_error ps i = Some p /\ h0 p = h0 o /\ count o (firstn i ps) = n.
  Proof.
    induction ps as [|p ps IH] using rev_ind; intros n L; [cbn in L; lia|]. rewrite count_snoc in L.
    destruct (Nat.lt_ge_cases n (count o ps)) as [A|A].
    - destruct (IH n A) as (i & q & E & H & C). assert (i < length ps) by (apply nth_error_Some; congruence).
      exists i, q. rewrite nth_error_app1 by assumption. split; [exact E|]. split; [exact H|].
      rewrite firstn_app. replace (i - length ps) with 0 by lia. cbn [firstn]. now rewrite app_nil_r.
    - destruct (str_eqb_spec (h0 o) (h0 p)) as [E|E]; [|lia]. exists (length ps), p.
      rewrite nth_error_app2, Nat.sub_diag by lia. split; [reflexivity|]. split; [now symmetry|].
      rewrite firstn_app, Nat.sub_diag, firstn_all. cbn [firstn]. rewrite app_nil_r. lia.
  Qed.

  Variable R X : Type.
  Variable to_disk : R -> option R.

  Lemma hashes_nth (l : list (snap R)) j h : nth_error (hashes R l) j = Some h -> exists s, nth_error l j = Some s /\ k_hash (fst s) = h.
  Proof.
    revert j. induction l as [|s l IH]; intros [|j] E; try discriminate; [injection E as <-; now exists s|]. now apply IH.
  Qed.

  (** the capture *)
  Lemma capture_gen capture snapshots cs : forall ps reqs reqs' os is,
    gen ps (hashes R reqs) -> length ps + length cs <= most -> Forall (fun c => base h0 ok (fst c)) cs ->
    send_all cc sha R X capture snapshots reqs cs = (reqs', os, is) ->
    Forall (fun o => exists r, o = Returned r) os ->
    gen (ps ++ map (fun c => k_obj (fst c)) cs) (hashes R reqs') /\ exists new, reqs' = reqs ++ new /\ os = map (fun s => Returned (snd s)) new.
  Proof.
    induction cs as [|[k real] cs IH]; intros ps reqs reqs' os is G N B E HR; cbn [send_all] in E.
    - injection E as <- <- _. cbn [map]. rewrite app_nil_r. split; [exact G|]. exists []. rewrite app_nil_r. auto.
    - inversion_clear B as [|? ? Bk Bcs]. destruct (send cc sha R X capture snapshots reqs k real) as [[reqs1 o] i] eqn:ES.
      destruct (send_all cc sha R X capture snapshots reqs1 cs) as [[reqs2 os'] is'] eqn:E2. injection E as <- <- _.
      inversion HR as [|? ? [r ->] HR']; subst. cbn [length] in N. assert (LG : length ps = length reqs) by (rewrite (gen_length _ _ G); apply map_length).
      assert (LM : length reqs <= most) by lia.
      destruct (send_capture cc sha h0 ok most sha_inj sha_same h0_same h0_order R X _ _ _ _ _ _ _ _ (gen_valid _ _ G) LM Bk ES) as (k' & -> & HK & _).
      assert (G1 : gen (ps ++ [k_obj k]) (hashes R (reqs ++ [(k', r)]))).
      { unfold hashes. rewrite map_app. cbn [map fst]. rewrite HK. constructor; [exact G|]. split; apply Bk. }
      assert (N1 : length (ps ++ [k_obj k]) + length cs <= most) by (rewrite app_length; cbn [length]; lia).
      destruct (IH _ _ _ _ _ G1 N1 Bcs E2 HR') as (G2 & new & -> & ->).
      cbn [map fst]. rewrite <- app_assoc in G2. split; [exact G2|]. exists ((k', r) :: new). rewrite <- app_assoc. auto.
  Qed.

  (** the replay; [ps]: the objects of the capture, [done]: those requested so far in the replay, [ans]: those answered *)
  Lemma replay_any_order table ps recorded : 
    gen ps (hashes R recorded) ->
    (forall s, In s recorded -> exists s', find (fun t => str_eqb (k_hash (fst t)) (k_hash (fst s))) (rev table) = Some s' /\ to_disk (snd s) = Some (snd s')) ->
    (forall s, In s table -> In (k_hash (fst s)) (hashes R recorded)) ->
    forall cs' reqs' done ans,
    length ps + length ans + length cs' <= most -> gen ans (hashes R reqs') ->
    (forall o, fine o -> count o ans = Nat.min (count o done) (count o ps)) ->
    Forall (fun c => base h0 ok (fst c)) cs' ->
    let '(_, os', is') := send_all cc sha R X false table reqs' cs' in
    (forall i c, nth_error cs' i = Some c ->
       let o := k_obj (fst c) in
       let n := count o (done ++ map (fun c => k_obj (fst c)) (firstn i cs')) in
       if n <? count o ps
       then exists j p s r', nth_error ps j = Some p /\ h0 p = h0 o /\ count o (firstn j ps) = n /\
                             nth_error recorded j = Some s /\ to_disk (snd s) = Some r' /\ nth_error os' i = Some (Returned r')
       else nth_error os' i = Some Missing) /\
    length os' = length cs' /\ Forall (fun b => b = false) is'.
  Proof.
    intros G HT HT2. induction cs' as [|[k real] cs' IH]; intros reqs' done ans L GA INV B; cbn [send_all].
    - split; [|split; [reflexivity|constructor]]. intros [|i] c E; discriminate.
    - inversion_clear B as [|? ? Bk Bcs]. cbn [length fst] in *. pose proof Bk as (OK & _ & OO). assert (FO : fine (k_obj k)) by now split.
      set (o := k_obj k) in *. assert (MA : marked o (hashes R reqs') = count o ans) by (apply gen_marked with (1 := GA); [lia|exact FO]).
      assert (HP : forall n, n <= most -> In (hash_at o n) (hashes R recorded) <-> n < count o ps).
      { intros n LN. rewrite <- (gen_marked _ _ G ltac:(lia) o FO). apply (valid_below sha h0 ok most sha_inj sha_same h0_same h0_order); auto.
        - now apply gen_valid with (1 := G).
        - rewrite <- (gen_length _ _ G). lia. }
      assert (CA := count_le o ans). assert (CI := INV o FO).
      destruct (Nat.ltb_spec (count o done) (count o ps)) as [LT|GE].
      + (* recorded *)
        assert (EN : count o ans = count o done) by lia.
        destruct (count_find o ps (count o ans) ltac:(lia)) as (j & p & NP & HPO & CJ).
        assert (FP : fine p). { clear - G NP. revert j NP. induction G as [|ps hs q G IH F]; intros j E; [now destruct j|].
          apply nth_error_In, in_app_or in E as [E|[<-|[]]]; [|exact F]. apply In_nth_error in E as [j' E]. now apply IH in E. }
        assert (SP : same p o) by (apply h0_inj; [apply FP|apply FO|exact HPO]).
        assert (LJ : j < length ps) by (apply nth_error_Some; congruence).
        assert (NH := gen_nth _ _ G j p NP).
        assert (MP : marked p (firstn j (hashes R recorded)) = count o ans).
        { rewrite (gen_marked _ _ (gen_firstn _ _ G j ltac:(lia)) ltac:(rewrite firstn_length; lia) p FP). unfold count. rewrite HPO. exact CJ. }
        rewrite MP in NH. rewrite (hash_same sha h0 ok most sha_same h0_same p o (count o ans)) in NH by (try apply FP; try apply FO; try assumption; lia).
        destruct (hashes_nth _ _ _ NH) as (s & NS & NK). clear NH. rename NK into NH.
        destruct (HT s (nth_error_In _ _ NS)) as ([kt rt] & FT & TD). cbn [fst snd] in *. rewrite NH in FT. fold (hash_at o (count o ans)) in FT.
        assert (KT : k_hash kt = hash_at o (count o ans)) by (apply find_some in FT; destruct FT as [_ FT]; now apply str_eqb_eq in FT).
        assert (ES : send cc sha R X false table reqs' k real = (reqs' ++ [(kt, rt)], Returned rt, false)).
        { unfold send. rewrite (base_at sha h0 ok k Bk). fold o. rewrite mark_at by assumption. fold (hashes R reqs'). rewrite MA.
          unfold matches. fold (hash_at o (count o ans)).
          match goal with |- context [@find ?A ?f ?l] => assert (FX : @find A f l = Some (kt, rt)) by exact FT; rewrite FX end. cbn [fst snd].
          match goal with |- context [existsb ?f reqs'] => destruct (existsb f reqs') eqn:EX end; [|reflexivity].
          exfalso. apply existsb_hash in EX. rewrite KT, <- MA in EX. revert EX.
          apply (valid_fresh sha h0 ok most sha_inj sha_same h0_same h0_order); auto; [now apply gen_valid with (1 := GA)|].
          rewrite <- (gen_length _ _ GA). lia. }
        rewrite ES.
        assert (GA' : gen (ans ++ [o]) (hashes R (reqs' ++ [(kt, rt)]))).
        { unfold hashes. rewrite map_app. cbn [map fst]. rewrite KT, <- MA. now constructor. }
        assert (L1 : length ps + length (ans ++ [o]) + length cs' <= most) by (rewrite app_length; cbn [length]; lia).
        assert (INV1 : forall q, fine q -> count q (ans ++ [o]) = Nat.min (count q (done ++ [o])) (count q ps)).
        { intros q FQ. rewrite !count_snoc. specialize (INV q FQ). destruct (str_eqb_spec (h0 q) (h0 o)) as [E|E]; [|lia].
          assert (count q done = count o done /\ count q ps = count o ps) as [E1 E2] by (unfold count; now rewrite E). lia. }
        specialize (IH (reqs' ++ [(kt, rt)]) (done ++ [o]) (ans ++ [o]) L1 GA' INV1 Bcs).
        destruct (send_all cc sha R X false table (reqs' ++ [(kt, rt)]) cs') as [[rq os'] is']. destruct IH as (A & LO & NI).
        split; [|split; [cbn; now rewrite LO|now constructor]].
        intros [|i] c E.
        * injection E as <-. cbn [fst firstn map]. rewrite app_nil_r. fold o. destruct (Nat.ltb_spec (count o done) (count o ps)); [|lia].
          exists j, p, s, rt. rewrite <- EN. auto 8.
        * cbn [nth_error] in E. specialize (A i c E). cbn [firstn map fst]. rewrite <- app_assoc in A. exact A.
      + (* missing *)
        assert (EN : count o ans = count o ps) by lia.
        assert (ES : send cc sha R X false table reqs' k real = (reqs', Missing, false)).
        { unfold send. rewrite (base_at sha h0 ok k Bk). fold o. rewrite mark_at by assumption. fold (hashes R reqs'). rewrite MA.
          unfold matches. fold (hash_at o (count o ans)).
          match goal with |- context [@find ?A ?f ?l] => destruct (@find A f l) as [s|] eqn:F end; [|reflexivity].
          exfalso. apply find_some in F as [I M]. apply str_eqb_eq in M. apply in_rev in I. apply HT2 in I. rewrite M in I. apply HP in I; lia. }
        rewrite ES.
        assert (INV1 : forall q, fine q -> count q ans = Nat.min (count q (done ++ [o])) (count q ps)).
        { intros q FQ. rewrite !count_snoc. specialize (INV q FQ). destruct (str_eqb_spec (h0 q) (h0 o)) as [E|E]; [|lia].
          assert (count q done = count o done /\ count q ps = count o ps) as [E1 E2] by (unfold count; now rewrite E). lia. }
        assert (L1 : length ps + length ans + length cs' <= most) by lia.
        specialize (IH reqs' (done ++ [o]) ans L1 GA INV1 Bcs). destruct (send_all cc sha R X false table reqs' cs') as [[rq os'] is'].
        destruct IH as (A & LO & NI).
        split; [|split; [cbn; now rewrite LO|now constructor]].
        intros [|i] c E.
        * injection E as <-. cbn [fst firstn map]. rewrite app_nil_r. fold o. destruct (Nat.ltb_spec (count o done) (count o ps)); [lia|reflexivity].
        * cbn [nth_error] in E. specialize (A i c E). cbn [firstn map fst]. rewrite <- app_assoc in A. exact A.
  Qed.
End Order.
