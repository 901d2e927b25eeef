From Verif Require Import PyStrFacts HttpModel HttpProofs HttpListProofs HttpAsyncModel.
From Coq Require Import Permutation Lia.

(** the requests that were sent, in this order *)
Fixpoint sent {K R X} (es : list (event K R X)) : list (nat * K) :=
  match es with
  | [] => []
  | Sent i q :: r => (i, q) :: sent r
  | Answered _ _ :: r => sent r
  end.
Lemma sent_app {K R X} (a b : list (event K R X)) : sent (a ++ b) = sent a ++ sent b.
Proof. induction a as [|[i q|i r] a IH]; cbn [app sent]; [reflexivity| |exact IH]. now rewrite IH. Qed.

(** those with the given hash *)
Definition with_hash (h : str) (l : list (nat * key)) : list (nat * key) := filter (fun e => str_eqb (k_hash (snd e)) h) l.
Lemma with_hash_app h a b : with_hash h (a ++ b) = with_hash h a ++ with_hash h b.
Proof. apply filter_app. Qed.
Lemma with_hash_none h l : (forall e, In e l -> k_hash (snd e) <> h) -> with_hash h l = [].
Proof.
  induction l as [|e l IH]; intros H; [reflexivity|]. cbn [with_hash filter]. destruct (str_eqb_spec (k_hash (snd e)) h) as [E|N].
  - exfalso. apply (H e); [now left|exact E].
  - apply IH. intros f F. apply H. now right.
Qed.

Lemma nth_map_inv {A B} (f : A -> B) l n y : nth_error (map f l) n = Some y -> exists x, nth_error l n = Some x /\ f x = y.
Proof. rewrite nth_error_map. destruct (nth_error l n) as [x|]; [|discriminate]. intros [= <-]. eauto. Qed.
Lemma filter_le {A} (f : A -> bool) l : length (filter f l) <= length l.
Proof. induction l as [|x l IH]; [apply le_n|]. cbn [filter]. destruct (f x); cbn [length]; lia. Qed.
Lemma NoDup_split_unique {A} (a : list A) : forall x b a' b', NoDup (a ++ x :: b) -> a ++ x :: b = a' ++ x :: b' -> a = a' /\ b = b'.
Proof.
  induction a as [|y a IH]; intros x b [|z a'] b' ND E; cbn [app] in *.
  - injection E as ->. auto.
  - injection E as -> ->. inversion ND as [|? ? NI _]; subst. exfalso. apply NI. apply in_or_app. right. now left.
  - injection E as -> <-. inversion ND as [|? ? NI _]; subst. exfalso. apply NI. apply in_or_app. right. now left.
  - injection E as -> E. inversion ND; subst. destruct (IH _ _ _ _ H2 E) as [-> ->]. auto.
Qed.

Section Async.
  Variable cc : CharClass.
  Variable sha : obj -> str.
  Variable ok : obj -> Prop.
  Variable most : nat.
  Hypothesis sha_inj : forall a b n m, ok a -> ok b -> n <= most -> m <= most -> sha (with_order n a) = sha (with_order m b) -> same (with_order n a) (with_order m b).
  Hypothesis sha_same : forall a b n, ok a -> ok b -> n <= most -> same a b -> sha (with_order n a) = sha (with_order n b).
  Hypothesis h0_same : forall a b, ok a -> ok b -> same a b -> sha a = sha b.
  Hypothesis h0_inj : forall a b, ok a -> ok b -> sha a = sha b -> same a b.
  Hypothesis h0_order : forall a b n, ok a -> ok b -> n <= most -> sha a <> sha (with_order n b).
  Variable R X : Type.
  Notation base := (base sha ok).
  Notation hash_at := (hash_at sha sha).
  Notation marked := (marked sha sha).
  Notation fine := (fine ok).
  Notation gets := (gets sha).

  Lemma hash_at_same o p n m : fine o -> fine p -> n <= most -> m <= most -> hash_at o n = hash_at p m -> same o p.
  Proof.
    intros [KO OO] [KP OP] LN LM E. unfold HttpProofs.hash_at in E. destruct n as [|n], m as [|m]; cbn [key_at k_hash] in E.
    - now apply h0_inj.
    - exfalso. revert E. now apply h0_order.
    - exfalso. symmetry in E. revert E. now apply h0_order.
    - apply sha_inj in E; try assumption. apply order_same in E; [tauto|congruence].
  Qed.

  (** ** The place of a request among the requests with the same key *)
  Definition before (o : obj) (os : list obj) : nat := length (filter (fun p => str_eqb (sha p) (sha o)) os).
  Lemma gets_snoc os o : forall hs, gets hs (os ++ [o]) = gets hs os ++ [hash_at o (marked o (gets hs os))].
  Proof. induction os as [|p os IH]; intros hs; [reflexivity|]. cbn [app HttpListProofs.gets]. apply IH. Qed.
  Lemma marked_before os : Forall fine os -> length os <= most -> forall o, fine o -> marked o (gets [] os) = before o os.
  Proof.
    induction os as [|p os IH] using rev_ind; intros F L o FO; [reflexivity|]. rewrite app_length in L. cbn [length] in L.
    apply Forall_app in F as [F FP]. apply Forall_inv in FP. assert (L' : length os <= most) by lia. specialize (IH F L').
    rewrite gets_snoc, marked_snoc. unfold before. rewrite filter_app, app_length. fold (before o os). cbn [filter].
    assert (LG : length (gets [] os) <= most) by (rewrite gets_length; cbn [length]; lia).
    assert (MO := marked_most sha sha o (gets [] os)). assert (MP := marked_most sha sha p (gets [] os)).
    rewrite <- (IH o FO).
    destruct (str_eqb_spec (sha p) (sha o)) as [E|N].
    - apply h0_inj in E; [|apply FP|apply FO].
      rewrite (marked_same sha sha ok most sha_same h0_same p o) by (apply FP || apply FO || assumption).
      rewrite (hash_same sha sha ok most sha_same h0_same p o) by (apply FP || apply FO || assumption || lia). rewrite str_eqb_refl. cbn [length]. lia.
    - destruct (str_eqb_spec (hash_at o (marked o (gets [] os))) (hash_at p (marked p (gets [] os)))) as [E|_]; [|cbn [length]; lia].
      exfalso. apply N. apply hash_at_same in E; [|assumption|assumption|lia|lia]. symmetry. apply h0_same; [apply FO|apply FP|exact E].
  Qed.
  Lemma gets_split a o b : Forall fine a -> length a <= most -> fine o ->
    exists tl, gets [] (a ++ o :: b) = gets [] a ++ hash_at o (before o a) :: tl /\ length tl = length b.
  Proof.
    intros F L FO. assert (G : forall l m hs, gets hs (l ++ m) = gets (gets hs l) m).
    { intros l. induction l as [|x l IH]; intros m hs; [reflexivity|]. cbn [app HttpListProofs.gets]. apply IH. }
    assert (P : forall l hs, exists tl, gets hs l = hs ++ tl /\ length tl = length l).
    { intros l. induction l as [|x l IH]; intros hs; [exists []; now rewrite app_nil_r|]. cbn [HttpListProofs.gets].
      destruct (IH (hs ++ [hash_at x (marked x hs)])) as (tl & -> & LT). eexists. rewrite <- app_assoc. cbn [app length]. split; [reflexivity|]. cbn [length]. now rewrite LT. }
    rewrite G. cbn [HttpListProofs.gets]. rewrite marked_before by assumption.
    destruct (P b (gets [] a ++ [hash_at o (before o a)])) as (tl & -> & LT). exists tl. rewrite <- app_assoc. auto.
  Qed.

  Lemma send_all_snoc capture snapshots (cs : list (key * (R + X))) c : forall reqs reqs' os is,
    send_all cc sha R X capture snapshots reqs cs = (reqs', os, is) ->
    send_all cc sha R X capture snapshots reqs (cs ++ [c]) =
      (let '(reqs2, o, i) := send cc sha R X capture snapshots reqs' (fst c) (snd c) in (reqs2, os ++ [o], is ++ [i])).
  Proof.
    induction cs as [|[k real] cs IH]; intros reqs reqs' os is E; cbn [send_all app] in *.
    - injection E as <- <- <-. destruct c as [k real]. cbn [send_all fst snd]. now destruct (send cc sha R X capture snapshots reqs k real) as [[? ?] ?].
    - destruct (send cc sha R X capture snapshots reqs k real) as [[reqs1 o] i]. destruct (send_all cc sha R X capture snapshots reqs1 cs) as [[reqs2 os2] is2] eqn:E2.
      injection E as <- <- <-. rewrite (IH _ _ _ _ E2). now destruct (send cc sha R X capture snapshots reqs2 (fst c) (snd c)) as [[? ?] ?].
  Qed.

  (** ** A capture with requests in flight, against the same requests one after the other in the order of their answers *)
  Variable capture : bool.
  Variable snapshots : list (snap R).
  Definition done_keys (done : list (nat * (key * (R + X)))) : list (nat * key) := map (fun e => (fst e, fst (snd e))) done.
  Definition mark_waiting (requests : list (snap R)) (w0 : list (nat * key)) : waiting :=
    map (fun e => (fst e, mark_order cc sha R requests (snd e))) w0.
  Record follows (past : list (event key R X)) (requests : list (snap R)) (w : waiting) (outs : list (nat * outcome R X))
      (done : list (nat * (key * (R + X)))) (w0 : list (nat * key)) : Prop := {
    f_seq : exists is, send_all cc sha R X capture snapshots [] (map snd done) = (requests, map snd outs, is);
    f_ids : map fst done = map fst outs;
    f_returned : Forall (fun o => exists r, o = Returned r) (map snd outs);
    f_waiting : w = mark_waiting requests w0;
    f_miss : forall e, In e w0 -> capture = true /\ find (matches R (mark_order cc sha R requests (snd e))) (rev snapshots) = None;
    f_hash : forall h, with_hash h (sent past) = with_hash h (done_keys done) ++ with_hash h w0;
    f_perm : Permutation (sent past) (done_keys done ++ w0);
    f_open : forall i k, In (i, k) w0 -> exists a b, past = a ++ Sent i k :: b /\ forall r, ~ In (Answered i r) b;
    f_alone : NoDup (map (fun e => k_hash (snd e)) w0)
  }.

  Lemma done_base past requests w outs done w0 : Forall (fun e => base (snd e)) (sent past) -> follows past requests w outs done w0 ->
    Forall (fun e => base (snd e)) (done_keys done) /\ Forall (fun e => base (snd e)) w0.
  Proof. intros B F. apply Forall_app. exact (Permutation_Forall (f_perm _ _ _ _ _ _ F) B). Qed.

  Lemma done_valid past requests w outs done w0 : Forall (fun e => base (snd e)) (sent past) -> length (sent past) <= most ->
    follows past requests w outs done w0 ->
    valid sha sha ok (hashes R requests) /\ length requests = length done /\ length done + length w0 <= most.
  Proof.
    intros B L F. destruct (done_base _ _ _ _ _ _ B F) as [BD BW]. destruct (f_seq _ _ _ _ _ _ F) as [is E].
    assert (LL : length done + length w0 <= most).
    { pose proof (Permutation_length (f_perm _ _ _ _ _ _ F)) as PL.
      rewrite app_length in PL. unfold done_keys in PL. rewrite map_length in PL. lia. }
    assert (BD' : Forall (fun c => base (fst c)) (map snd done)).
    { clear - BD. induction done as [|e d IH]; [constructor|]. cbn [map done_keys] in *. inversion BD; subst. constructor; [assumption|now apply IH]. }
    assert (LD : length (@nil (snap R)) + length (map snd done) <= most) by (rewrite map_length; cbn [length]; lia).
    destruct (capture_all cc sha sha ok most sha_inj sha_same h0_same h0_order R X _ _ _ [] _ _ _ (valid_nil sha sha ok) LD BD' E (f_returned _ _ _ _ _ _ F)) as (V & new & EN & _ & LN).
    cbn [app] in EN. subst new. rewrite map_length in LN. auto.
  Qed.

  (** an answer to another request does not change the key of a waiting one *)
  Lemma mark_other (requests : list (snap R)) (s : snap R) k k2 : base k -> base k2 -> length requests <= most -> k_hash k <> k_hash k2 ->
    k_hash (fst s) = hash_at (k_obj k2) (marked (k_obj k2) (hashes R requests)) ->
    mark_order cc sha R (requests ++ [s]) k = mark_order cc sha R requests k.
  Proof.
    intros B B2 L N E. destruct (B) as (K & H & O). destruct (B2) as (K2 & H2 & O2). rewrite (base_at sha sha ok k B). rewrite !mark_at by assumption.
    f_equal. rewrite map_app. cbn [map]. rewrite marked_snoc. change (map (fun s : key * R => k_hash (fst s)) requests) with (hashes R requests). rewrite E.
    assert (LH : length (hashes R requests) <= most) by (assert (LE : length (hashes R requests) = length requests) by apply map_length; rewrite LE; exact L).
    assert (M := marked_most sha sha (k_obj k) (hashes R requests)). assert (M2 := marked_most sha sha (k_obj k2) (hashes R requests)).
    destruct (str_eqb_spec (hash_at (k_obj k) (marked (k_obj k) (hashes R requests))) (hash_at (k_obj k2) (marked (k_obj k2) (hashes R requests)))) as [E1|_]; [|reflexivity].
    exfalso. apply N. rewrite H, H2. apply h0_same; [assumption|assumption|]. eapply hash_at_same; [split; assumption|split; assumption| | |exact E1]; lia.
  Qed.

  (** requests with the same key do not wait at the same time *)
  Definition no_overlap (es : list (event key R X)) : Prop :=
    forall a b c i k j k', es = a ++ Sent i k :: b ++ Sent j k' :: c -> k_hash k = k_hash k' -> exists r, In (Answered i r) b.

  Lemma wait_key_in i k w : wait_key i w = Some k -> In (i, k) w.
  Proof. induction w as [|[j x] w IH]; [discriminate|]. cbn [wait_key]. destruct (Nat.eqb_spec j i) as [->|]; [intros [= ->]; now left|]. intros H. right. now apply IH. Qed.

  Lemma wait_done_split i (a b : waiting) k : ~ In i (map fst a) -> ~ In i (map fst b) -> wait_done i (a ++ (i, k) :: b) = a ++ b.
  Proof.
    intros A B. unfold wait_done. rewrite filter_app. cbn [filter fst]. rewrite Nat.eqb_refl. cbn [negb].
    assert (G : forall l : waiting, ~ In i (map fst l) -> filter (fun e => negb (fst e =? i)) l = l).
    { induction l as [|[j x] l IH]; intros N; [reflexivity|]. cbn [filter fst map In] in *. destruct (Nat.eqb_spec j i) as [->|NE]; [tauto|]. cbn [negb]. rewrite IH by tauto. reflexivity. }
    now rewrite !G.
  Qed.

  Lemma mark_waiting_same requests requests' w0 : (forall e, In e w0 -> mark_order cc sha R requests' (snd e) = mark_order cc sha R requests (snd e)) ->
    mark_waiting requests' w0 = mark_waiting requests w0.
  Proof. intros H. apply map_ext_in. intros e I. now rewrite H. Qed.

  Lemma follows_step past requests w outs done w0 e requests' w' new :
    follows past requests w outs done w0 ->
    no_overlap (past ++ [e]) -> NoDup (map fst (sent (past ++ [e]))) ->
    Forall (fun e => base (snd e)) (sent (past ++ [e])) -> length (sent (past ++ [e])) <= most ->
    async_step cc sha R X capture snapshots requests w e = (requests', w', new) -> Forall (fun o => exists r, o = Returned r) (map snd new) ->
    exists done' w0', follows (past ++ [e]) requests' w' (outs ++ new) done' w0'.
  Proof.
    intros F NO ND BS LS E HR. rewrite sent_app in BS, LS. assert (BP : Forall (fun e => base (snd e)) (sent past)) by (apply Forall_app in BS; tauto).
    assert (LP : length (sent past) <= most) by (rewrite app_length in LS; lia).
    destruct (done_base _ _ _ _ _ _ BP F) as [BD BW]. destruct (done_valid _ _ _ _ _ _ BP LP F) as (V & LR & LL).
    pose proof (f_seq _ _ _ _ _ _ F) as [is ES].
    destruct e as [i k|i real]; cbn [async_step] in E.
    - cbn [sent app] in BS, LS. apply Forall_app in BS as [_ BK]. apply Forall_inv in BK. cbn [snd] in BK. rewrite app_length in LS. cbn [length] in LS.
      assert (OTHER : forall e, In e w0 -> k_hash (snd e) <> k_hash k).
      { intros [j kj] I EQ. cbn [snd] in EQ. destruct (f_open _ _ _ _ _ _ F j kj I) as (a & b & EP & NA).
        destruct (NO a b [] j kj i k) as [r IR]; [rewrite EP, <- app_assoc; reflexivity|exact EQ|]. now apply (NA r). }
      destruct (find (matches R (mark_order cc sha R requests k)) (rev snapshots)) as [s|] eqn:FS.
      + (* answered from the snapshots *)
        assert (ESD : send cc sha R X capture snapshots requests k (inl (snd s)) = (requests', Returned (snd s), false)).
        { unfold send. rewrite FS. injection E as <- _ _. reflexivity. }
        injection E as _ <- <-. assert (LQ : length requests <= most) by lia.
        destruct (send_capture cc sha sha ok most sha_inj sha_same h0_same h0_order R X _ _ _ _ _ _ _ _ V LQ BK ESD) as (k' & EQ & HK & V').
        exists (done ++ [(i, (k, inl (snd s)))]), w0. rewrite EQ in *. clear EQ.
        assert (MS : forall e, In e w0 -> mark_order cc sha R (requests ++ [(k', snd s)]) (snd e) = mark_order cc sha R requests (snd e)).
        { intros e I. rewrite Forall_forall in BW. apply (mark_other _ _ _ k); [now apply BW|exact BK|exact LQ|now apply OTHER|exact HK]. }
        constructor.
        * rewrite !map_app. eexists. cbn [map snd]. rewrite (send_all_snoc _ _ _ _ _ _ _ _ ES). cbn [fst snd]. rewrite ESD. reflexivity.
        * rewrite !map_app, (f_ids _ _ _ _ _ _ F). reflexivity.
        * rewrite map_app. apply Forall_app. split; [exact (f_returned _ _ _ _ _ _ F)|exact HR].
        * rewrite (f_waiting _ _ _ _ _ _ F). symmetry. now apply mark_waiting_same.
        * intros e I. rewrite MS by assumption. now apply (f_miss _ _ _ _ _ _ F).
        * intros h. rewrite sent_app, with_hash_app, (f_hash _ _ _ _ _ _ F h). unfold done_keys. rewrite map_app, with_hash_app, <- !app_assoc. f_equal. cbn [sent map fst snd].
          destruct (str_eqb_spec (k_hash k) h) as [EH|NH]; [|cbn [with_hash filter snd]; rewrite (proj2 (str_eqb_neq _ _) NH), app_nil_r; reflexivity].
          rewrite (with_hash_none h w0) by (intros e I; rewrite <- EH; now apply OTHER). now rewrite app_nil_r.
        * rewrite sent_app. unfold done_keys. rewrite map_app. cbn [sent map fst snd]. rewrite <- app_assoc. cbn [app].
          etransitivity; [symmetry; apply Permutation_cons_append|]. etransitivity; [apply perm_skip; exact (f_perm _ _ _ _ _ _ F)|]. apply Permutation_middle.
        * intros j kj I. destruct (f_open _ _ _ _ _ _ F j kj I) as (a & b & -> & NA). exists a, (b ++ [Sent i k]). rewrite <- app_assoc. split; [reflexivity|].
          intros r IR. apply in_app_iff in IR. destruct IR as [IR|[IR|[]]]; [now apply (NA r)|discriminate].
        * exact (f_alone _ _ _ _ _ _ F).
      + (* sent to the network *)
        destruct capture eqn:CAP.
        2:{ injection E as _ _ <-. apply Forall_inv in HR. destruct HR as [r Q]. discriminate Q. }
        injection E as <- <- <-. exists done, (w0 ++ [(i, k)]). rewrite app_nil_r. constructor.
        * rewrite CAP. exists is. exact ES.
        * exact (f_ids _ _ _ _ _ _ F).
        * exact (f_returned _ _ _ _ _ _ F).
        * rewrite (f_waiting _ _ _ _ _ _ F). unfold mark_waiting. rewrite map_app. reflexivity.
        * intros e I. apply in_app_iff in I. destruct I as [I|[<-|[]]]; [now apply (f_miss _ _ _ _ _ _ F)|]. auto.
        * intros h. rewrite sent_app, !with_hash_app, (f_hash _ _ _ _ _ _ F h), <- app_assoc. reflexivity.
        * rewrite sent_app, (f_perm _ _ _ _ _ _ F), <- app_assoc. reflexivity.
        * intros j kj I. apply in_app_iff in I. destruct I as [I|[[= <- <-]|[]]].
          -- destruct (f_open _ _ _ _ _ _ F j kj I) as (a & b & -> & NA). exists a, (b ++ [Sent i k]). rewrite <- app_assoc. split; [reflexivity|].
             intros r IR. apply in_app_iff in IR. destruct IR as [IR|[IR|[]]]; [now apply (NA r)|discriminate].
          -- exists past, []. split; [reflexivity|]. intros r [].
        * rewrite map_app. cbn [map]. apply (Permutation_NoDup (l := k_hash k :: map (fun e => k_hash (snd e)) w0)); [apply Permutation_cons_append|].
          constructor; [|exact (f_alone _ _ _ _ _ _ F)]. intros I. apply in_map_iff in I as (e & EH & I). now apply (OTHER e I).
    - cbn [sent app] in *. rewrite app_nil_r in *.
      destruct (wait_key i w) as [k'|] eqn:WK.
      2:{ injection E as <- <- <-. exists done, w0. rewrite app_nil_r.
          assert (NW : ~ In i (map fst w0)).
          { rewrite (f_waiting _ _ _ _ _ _ F) in WK. clear - WK. unfold mark_waiting in WK. induction w0 as [|[j kj] w0 IH]; cbn [map wait_key fst snd In] in *; [tauto|].
            destruct (Nat.eqb_spec j i); [discriminate|]. intros [->|I]; [congruence|now apply IH]. }
          destruct F; constructor; try assumption; try (rewrite sent_app; cbn [sent]; rewrite app_nil_r; assumption).
          intros j kj I. destruct (f_open0 j kj I) as (a & b & -> & NA). exists a, (b ++ [Answered i real]). rewrite <- app_assoc. split; [reflexivity|].
          intros r IR. apply in_app_iff in IR. destruct IR as [IR|[IR|[]]]; [now apply (NA r)|]. injection IR as -> _. apply NW. apply in_map_iff. now exists (j, kj). }
      destruct real as [r|x]; [|injection E as _ _ <-; apply Forall_inv in HR; destruct HR as [r Q]; discriminate Q].
      injection E as <- <- <-. apply wait_key_in in WK. rewrite (f_waiting _ _ _ _ _ _ F) in WK. unfold mark_waiting in WK. apply in_map_iff in WK as ([j k] & EQ & I). cbn [fst snd] in EQ. injection EQ as -> <-.
      destruct (f_miss _ _ _ _ _ _ F _ I) as [CAP FN]. cbn [snd] in FN.
      apply in_split in I as (u & v & EW). pose proof (f_alone _ _ _ _ _ _ F) as AL. rewrite EW, map_app in AL. cbn [map snd] in AL.
      assert (OTHER : forall e, In e (u ++ v) -> k_hash (snd e) <> k_hash k).
      { intros e I EH. apply NoDup_remove_2 in AL. apply AL. rewrite <- map_app, <- EH. now apply (in_map (fun e => k_hash (snd e))). }
      assert (BK : base k).
      { rewrite Forall_forall in BW. apply (BW (i, k)). rewrite EW. apply in_or_app. right. now left. }
      assert (BUV : forall e, In e (u ++ v) -> base (snd e)).
      { intros e I. rewrite Forall_forall in BW. apply BW. rewrite EW. apply in_app_iff in I. apply in_or_app. cbn [In]. tauto. }
      assert (NI : ~ In i (map fst u) /\ ~ In i (map fst v)).
      { assert (NDW : NoDup (map fst w0)).
        { rewrite sent_app in ND. cbn [sent] in ND. rewrite app_nil_r in ND. apply (Permutation_NoDup (Permutation_map fst (f_perm _ _ _ _ _ _ F))) in ND.
          rewrite map_app in ND. clear - ND. induction (map fst (done_keys done)) as [|x l IH]; [exact ND|]. inversion ND; subst. now apply IH. }
        rewrite EW, map_app in NDW. cbn [map fst] in NDW. apply NoDup_remove_2 in NDW. rewrite in_app_iff in NDW. tauto. }
      assert (LQ : length requests <= most) by lia.
      assert (ESD : send cc sha R X capture snapshots requests k (inl r) = (requests ++ [(mark_order cc sha R requests k, r)], Returned r, true)).
      { unfold send. rewrite FN, CAP. reflexivity. }
      destruct (send_capture cc sha sha ok most sha_inj sha_same h0_same h0_order R X _ _ _ _ _ _ _ _ V LQ BK ESD) as (k' & EQ & HK & V').
      apply app_inv_head in EQ. injection EQ as <-.
      assert (MS : forall e, In e (u ++ v) -> mark_order cc sha R (requests ++ [(mark_order cc sha R requests k, r)]) (snd e) = mark_order cc sha R requests (snd e)).
      { intros e I. apply (mark_other _ _ _ k); [now apply BUV|exact BK|exact LQ|now apply OTHER|exact HK]. }
      assert (IW : forall e, In e (u ++ v) -> In e w0) by (intros e I; rewrite EW; apply in_app_iff in I; apply in_or_app; cbn [In]; tauto).
      exists (done ++ [(i, (k, inl r))]), (u ++ v). constructor.
      + rewrite !map_app. eexists. cbn [map snd]. rewrite (send_all_snoc _ _ _ _ _ _ _ _ ES). cbn [fst snd]. rewrite ESD. reflexivity.
      + rewrite !map_app, (f_ids _ _ _ _ _ _ F). reflexivity.
      + rewrite map_app. apply Forall_app. split; [exact (f_returned _ _ _ _ _ _ F)|exact HR].
      + rewrite (f_waiting _ _ _ _ _ _ F), EW. unfold mark_waiting. rewrite !map_app. cbn [map fst snd].
        rewrite wait_done_split by (rewrite map_map; cbn [fst]; tauto). rewrite <- !map_app. symmetry. apply (mark_waiting_same _ _ (u ++ v)). exact MS.
      + intros e I. rewrite MS by assumption. apply (f_miss _ _ _ _ _ _ F). now apply IW.
      + intros h. rewrite sent_app. cbn [sent]. rewrite app_nil_r, (f_hash _ _ _ _ _ _ F h), EW. unfold done_keys. rewrite !map_app, !with_hash_app, <- !app_assoc. f_equal. cbn [map fst snd].
        change ((i, k) :: v) with ([(i, k)] ++ v). rewrite with_hash_app. rewrite !app_assoc. f_equal.
        destruct (str_eqb_spec (k_hash k) h) as [EH|NH]; [|cbn [with_hash filter snd]; rewrite (proj2 (str_eqb_neq _ _) NH), app_nil_r; reflexivity].
        rewrite (with_hash_none h u) by (intros e I; rewrite <- EH; apply OTHER; apply in_or_app; now left). now rewrite app_nil_r.
      + rewrite sent_app. cbn [sent]. rewrite app_nil_r, (f_perm _ _ _ _ _ _ F), EW. unfold done_keys. rewrite map_app. cbn [map fst snd]. rewrite <- app_assoc. cbn [app].
        apply Permutation_app_head. symmetry. apply Permutation_middle.
      + intros j kj I. destruct (f_open _ _ _ _ _ _ F j kj (IW _ I)) as (a & b & -> & NA). exists a, (b ++ [Answered i (inl r)]). rewrite <- app_assoc. split; [reflexivity|].
        intros r' IR. apply in_app_iff in IR. destruct IR as [IR|[IR|[]]]; [now apply (NA r')|]. injection IR as -> _. apply (in_map fst) in I. cbn [fst] in I. rewrite map_app, in_app_iff in I. tauto.
      + rewrite map_app. now apply NoDup_remove_1 in AL.
  Qed.

  Lemma no_overlap_prefix a b : no_overlap (a ++ b) -> no_overlap a.
  Proof. intros H u v w i k j k' -> E. apply (H u v (w ++ b) i k j k'); [|exact E]. rewrite <- !app_assoc. cbn [app]. rewrite <- app_assoc. reflexivity. Qed.

  Lemma follows_run es : forall past requests w outs done w0 requests' w' new,
    follows past requests w outs done w0 ->
    no_overlap (past ++ es) -> NoDup (map fst (sent (past ++ es))) ->
    Forall (fun e => base (snd e)) (sent (past ++ es)) -> length (sent (past ++ es)) <= most ->
    async_run cc sha R X capture snapshots requests w es = (requests', w', new) -> Forall (fun o => exists r, o = Returned r) (map snd new) ->
    exists done' w0', follows (past ++ es) requests' w' (outs ++ new) done' w0'.
  Proof.
    induction es as [|e es IH]; intros past requests w outs done w0 requests' w' new F NO ND BS LS E HR; cbn [async_run] in E.
    - injection E as <- <- <-. rewrite !app_nil_r. eauto.
    - destruct (async_step cc sha R X capture snapshots requests w e) as [[requests1 w1] o1] eqn:E1.
      destruct (async_run cc sha R X capture snapshots requests1 w1 es) as [[requests2 w2] o2] eqn:E2. injection E as <- <- <-.
      rewrite map_app in HR. apply Forall_app in HR as [HR1 HR2].
      assert (EA : past ++ e :: es = (past ++ [e]) ++ es) by (now rewrite <- app_assoc). rewrite EA in *.
      destruct (follows_step past requests w outs done w0 e requests1 w1 o1 F) as (done1 & w01 & F1); try assumption.
      + now apply no_overlap_prefix in NO.
      + rewrite sent_app, map_app in ND. clear - ND. induction (map fst (sent (past ++ [e]))) as [|x l IH]; [constructor|]. cbn [app] in ND. inversion ND; subst.
        constructor; [|now apply IH]. intros I. apply H1. apply in_or_app. now left.
      + rewrite sent_app in BS. apply Forall_app in BS. tauto.
      + rewrite sent_app, app_length in LS. lia.
      + destruct (IH _ _ _ _ _ _ _ _ _ F1 NO ND BS LS E2 HR2) as (d & w3 & FF). exists d, w3. rewrite (app_assoc outs). exact FF.
  Qed.
End Async.

(** ** The replay *)
Section Replay.
  Variable cc : CharClass.
  Variable sha : obj -> str.
  Variable ok : obj -> Prop.
  Variable most : nat.
  Hypothesis sha_inj : forall a b n m, ok a -> ok b -> n <= most -> m <= most -> sha (with_order n a) = sha (with_order m b) -> same (with_order n a) (with_order m b).
  Hypothesis sha_same : forall a b n, ok a -> ok b -> n <= most -> same a b -> sha (with_order n a) = sha (with_order n b).
  Hypothesis h0_same : forall a b, ok a -> ok b -> same a b -> sha a = sha b.
  Hypothesis h0_inj : forall a b, ok a -> ok b -> sha a = sha b -> same a b.
  Hypothesis h0_order : forall a b n, ok a -> ok b -> n <= most -> sha a <> sha (with_order n b).
  Variable R X : Type.
  Notation base := (base sha ok).

  (** nothing waits in a replay: it is the requests one after the other as they are sent *)
  Lemma replay_run table es : forall reqs (cs : list (key * (R + X))), map fst cs = map snd (sent es) ->
    async_run cc sha R X false table reqs [] es =
      (let '(reqs', os, _) := send_all cc sha R X false table reqs cs in (reqs', [], combine (map fst (sent es)) os)).
  Proof.
    induction es as [|[i k|i r] es IH]; intros reqs cs E; cbn [sent map] in E.
    - destruct cs; [reflexivity|discriminate].
    - destruct cs as [|[k0 real] cs]; [discriminate|]. cbn [map fst snd] in E. injection E as -> E. cbn [async_run send_all sent map]. unfold async_step, send.
      destruct (find (matches R (mark_order cc sha R reqs k)) (rev table)) as [s|]; cbn [andb].
      + rewrite (IH _ cs E). destruct (send_all cc sha R X false table _ cs) as [[a b] c]. reflexivity.
      + rewrite (IH _ cs E). destruct (send_all cc sha R X false table _ cs) as [[a b] c]. reflexivity.
    - cbn [async_run async_step wait_key]. rewrite (IH reqs cs E). now destruct (send_all cc sha R X false table reqs cs) as [[a b] c].
  Qed.

  Lemma gets_nth os p o : Forall (fine ok) os -> length os <= most -> nth_error os p = Some o ->
    nth_error (gets sha [] os) p = Some (hash_at sha sha o (before sha o (firstn p os))).
  Proof.
    intros F L E. apply nth_error_split in E as (a & b & -> & <-). apply Forall_app in F as [FA FB]. apply Forall_inv in FB. rewrite app_length in L. cbn [length] in L.
    assert (LA : length a <= most) by lia.
    destruct (gets_split sha ok most sha_inj sha_same h0_same h0_inj h0_order a o b FA LA FB) as (tl & -> & LT).
    rewrite firstn_app, Nat.sub_diag, firstn_all. cbn [firstn]. rewrite app_nil_r.
    assert (LG : length (gets sha [] a) = length a) by (rewrite gets_length; reflexivity).
    rewrite nth_error_app2 by (rewrite LG; lia). rewrite LG, Nat.sub_diag. reflexivity.
  Qed.

  Lemma before_with_hash (l : list (nat * key)) k : Forall (fun e => base (snd e)) l -> base k ->
    before sha (k_obj k) (map (fun e => k_obj (snd e)) l) = length (with_hash (k_hash k) l).
  Proof.
    intros F B. unfold before, with_hash. induction F as [|e l Be F IH]; [reflexivity|]. cbn [map filter].
    destruct Be as (_ & He & _). destruct (B) as (_ & Hk & _). rewrite <- He, <- Hk. destruct (str_eqb _ _); cbn [length]; rewrite <- IH, <- Hk; reflexivity.
  Qed.

  Lemma with_hash_firstn (l : list (nat * key)) p i k : nth_error l p = Some (i, k) ->
    exists tl, with_hash (k_hash k) l = with_hash (k_hash k) (firstn p l) ++ (i, k) :: tl.
  Proof.
    intros E. apply nth_error_split in E as (a & b & -> & <-). rewrite firstn_app, Nat.sub_diag, firstn_all. cbn [firstn]. rewrite app_nil_r.
    exists (with_hash (k_hash k) b). rewrite with_hash_app. f_equal. cbn [with_hash filter snd]. now rewrite str_eqb_refl.
  Qed.
  Lemma NoDup_filter_ids f (l : list (nat * key)) : NoDup (map fst l) -> NoDup (map fst (filter f l)).
  Proof.
    induction l as [|e l IH]; intros ND; [constructor|]. cbn [map] in ND. inversion ND as [|? ? NI ND']; subst. cbn [filter]. destruct (f e); [|now apply IH].
    cbn [map]. constructor; [|now apply IH]. intros I. apply NI. apply in_map_iff in I as (x & <- & I). apply filter_In in I as [I _]. now apply in_map.
  Qed.
  Lemma same_id (l : list (nat * key)) i k k' : NoDup (map fst l) -> In (i, k) l -> In (i, k') l -> k = k'.
  Proof.
    induction l as [|[j x] l IH]; intros ND A B; [destruct A|]. cbn [map fst] in ND. inversion ND as [|? ? NI ND']; subst.
    destruct A as [[= -> ->]|A], B as [B|B].
    - congruence.
    - exfalso. apply NI. apply (in_map fst) in B. exact B.
    - injection B as -> ->. exfalso. apply NI. apply (in_map fst) in A. exact A.
    - now apply IH.
  Qed.

  (** the requests with each key come in the same order *)
  Definition per_key (l l' : list (nat * key)) : Prop := forall h, map fst (with_hash h l) = map fst (with_hash h l').
  Lemma per_key_place l l' p q i k k' : NoDup (map fst l) -> NoDup (map fst l') -> per_key l l' ->
    nth_error l p = Some (i, k) -> nth_error l' q = Some (i, k') ->
    k_hash k = k_hash k' /\ length (with_hash (k_hash k) (firstn p l)) = length (with_hash (k_hash k) (firstn q l')).
  Proof.
    intros ND ND' PK E E'.
    assert (HK : k_hash k = k_hash k').
    { assert (I : In i (map fst (with_hash (k_hash k) l'))).
      { rewrite <- PK. apply in_map_iff. exists (i, k). split; [reflexivity|]. apply filter_In. split; [now apply nth_error_In in E|apply str_eqb_refl]. }
      apply in_map_iff in I as ([j x] & EJ & I). cbn [fst] in EJ. subst j. apply filter_In in I as [I EH]. cbn [snd] in EH. apply str_eqb_eq in EH.
      rewrite <- EH. f_equal. apply (same_id l' i); [assumption|assumption|now apply nth_error_In in E']. }
    split; [exact HK|]. destruct (with_hash_firstn l p i k E) as (tl & E1). destruct (with_hash_firstn l' q i k' E') as (tl' & E2). rewrite <- HK in E2.
    pose proof (PK (k_hash k)) as P. rewrite E1, E2, !map_app in P. cbn [map fst] in P.
    destruct (NoDup_split_unique _ _ _ _ _ ltac:(pose proof (NoDup_filter_ids (fun e => str_eqb (k_hash (snd e)) (k_hash k)) l ND) as Q;
      change (filter _ l) with (with_hash (k_hash k) l) in Q; rewrite E1, map_app in Q; exact Q) P) as [LA _].
    apply (f_equal (@length nat)) in LA. rewrite !map_length in LA. exact LA.
  Qed.
  Lemma per_key_in l l' i k : per_key l l' -> In (i, k) l -> exists k', In (i, k') l' /\ k_hash k' = k_hash k.
  Proof.
    intros PK I. assert (J : In i (map fst (with_hash (k_hash k) l'))).
    { rewrite <- PK. apply in_map_iff. exists (i, k). split; [reflexivity|]. apply filter_In. split; [assumption|apply str_eqb_refl]. }
    apply in_map_iff in J as ([j x] & EJ & J). cbn [fst] in EJ. subst j. apply filter_In in J as [J EH]. apply str_eqb_eq in EH. eauto.
  Qed.
  Lemma per_key_sym l l' : per_key l l' -> per_key l' l.
  Proof. intros H h. symmetry. apply H. Qed.

  Variable to_disk : R -> option R.

  (** a run against recordings that replays the requests of [done], the requests with each key in the same order *)
  Lemma replay_per_key capture snapshots (done sent' : list (nat * key)) (reals : list (R + X)) (reqs : list (snap R)) os is hide stored listing table real :
    length reals = length done ->
    send_all cc sha R X capture snapshots [] (combine (map snd done) reals) = (reqs, os, is) ->
    Forall (fun o => exists r, o = Returned r) os ->
    stop R to_disk hide reqs [] = Some stored -> Permutation stored listing ->
    Permutation (map (fun e : entry R => (snd (fst (snd e)), snd (snd e))) listing) (map (fun s : snap R => (k_hash (fst s), snd s)) table) ->
    length done <= most ->
    Forall (fun e => base (snd e)) done -> Forall (fun e => base (snd e)) sent' -> NoDup (map fst done) -> NoDup (map fst sent') -> per_key done sent' ->
    exists new os' is', send_all cc sha R X false table [] (map (fun e => (snd e, real)) sent') = (new, os', is') /\ incl new table /\ Permutation (hashes R new) (hashes R reqs) /\
      length os' = length sent' /\ Permutation (map fst done) (map fst sent') /\
      forall i r, In (i, Returned r) (combine (map fst done) os) -> exists r', to_disk r = Some r' /\ In (i, Returned r') (combine (map fst sent') os').
  Proof.
    intros LRE E HR ES EP ET LM BD BS ND ND' PK.
    assert (IDS : Permutation (map fst done) (map fst sent')).
    { apply NoDup_Permutation; [assumption|assumption|]. intros i. split; intros I; apply in_map_iff in I as ([j k] & <- & I); cbn [fst].
      - destruct (per_key_in _ _ _ _ PK I) as (k' & J & _). now apply (in_map fst) in J.
      - destruct (per_key_in _ _ _ _ (per_key_sym _ _ PK) I) as (k' & J & _). now apply (in_map fst) in J. }
    assert (LS : length sent' = length done) by (apply Permutation_length in IDS; rewrite !map_length in IDS; auto).
    assert (FC : map fst (combine (map snd done) reals) = map snd done).
    { clear - LRE. revert reals LRE. induction done as [|e d IH]; intros [|x l] L; try discriminate; [reflexivity|]. cbn. f_equal. apply IH. cbn in L. congruence. }
    assert (LC : length (combine (map snd done) reals) = length done) by (rewrite combine_length, map_length, LRE; apply Nat.min_id).
    assert (BC : Forall (fun c => base (fst c)) (combine (map snd done) reals)).
    { apply Forall_forall. intros c I. apply (in_map fst) in I. rewrite FC in I. apply in_map_iff in I as (e & <- & I). rewrite Forall_forall in BD. now apply BD. }
    assert (BC' : Forall (fun c => base (fst c)) (map (fun e : nat * key => (snd e, real)) sent')).
    { apply Forall_forall. intros c I. apply in_map_iff in I as (e & <- & I). rewrite Forall_forall in BS. now apply BS. }
    assert (OB : map (fun c : key * (R + X) => k_obj (fst c)) (combine (map snd done) reals) = map (fun e => k_obj (snd e)) done).
    { rewrite <- (map_map fst k_obj), FC, map_map. reflexivity. }
    assert (OB' : map (fun c : key * (R + X) => k_obj (fst c)) (map (fun e : nat * key => (snd e, real)) sent') = map (fun e => k_obj (snd e)) sent').
    { rewrite map_map. reflexivity. }
    assert (LK : length (@nil (snap R)) + length (combine (map snd done) reals) <= most) by (rewrite LC; exact LM).
    assert (LK' : length (@nil (snap R)) + length (map (fun e : nat * key => (snd e, real)) sent') <= most) by (rewrite map_length, LS; exact LM).
    pose proof (capture_gets cc sha ok most sha_inj sha_same h0_same h0_order R X _ _ _ [] _ _ _ (valid_nil sha sha ok) LK BC E HR) as HC.
    change (hashes R []) with (@nil str) in HC. rewrite OB in HC.
    destruct (capture_all cc sha sha ok most sha_inj sha_same h0_same h0_order R X _ _ _ [] _ _ _ (valid_nil sha sha ok) LK BC E HR) as (V & new0 & E0 & EO & L0).
    cbn [app] in E0. subst new0. rewrite LC in L0.
    assert (LH : length (hashes R reqs) <= most) by (assert (Q : length (hashes R reqs) = length reqs) by apply map_length; rewrite Q, L0; exact LM).
    assert (NDH : NoDup (hashes R reqs)) by (apply (valid_nodup sha sha ok most sha_inj sha_same h0_same h0_order _ V LH)).
    destruct (stop_spec R to_disk hide reqs [] stored ES NDH) as (nw & EN & FS). cbn [app] in EN. subst nw.
    assert (TB : forall s, In s reqs -> exists s', In s' table /\ k_hash (fst s') = k_hash (fst s) /\ to_disk (snd s) = Some (snd s')).
    { intros s I. assert (J : exists e, In e stored /\ snd (fst (snd e)) = k_hash (fst s) /\ to_disk (snd s) = Some (snd (snd e))).
      { clear - FS I. induction FS as [|a e l l' (_ & A & _ & B) FS IH]; [destruct I|]. destruct I as [->|I]; [exists e; split; [now left|auto]|]. destruct (IH I) as (x & J & K). exists x. split; [now right|exact K]. }
      destruct J as (e & J & A & B). apply (Permutation_in _ EP) in J.
      apply (in_map (fun e : entry R => (snd (fst (snd e)), snd (snd e)))) in J. apply (Permutation_in _ ET) in J. apply in_map_iff in J as (s' & EQ & J). injection EQ as E1 E2.
      exists s'. split; [exact J|]. split; [congruence|]. rewrite E2. exact B. }
    assert (HT : Permutation (hashes R table) (hashes R reqs)).
    { assert (Q : hashes R table = map fst (map (fun s : snap R => (k_hash (fst s), snd s)) table)) by (unfold hashes; rewrite map_map; reflexivity).
      rewrite Q. rewrite <- (Permutation_map fst ET). rewrite <- (Permutation_map fst (Permutation_map _ EP)).
      assert (Q2 : map fst (map (fun e : entry R => (snd (fst (snd e)), snd (snd e))) stored) = hashes R reqs); [|now rewrite Q2].
      rewrite map_map. cbn [fst]. clear - FS. induction FS as [|s e l l' (_ & A & _) FS IH]; [reflexivity|]. cbn [map hashes]. rewrite A. f_equal. exact IH. }
    assert (FD : Forall (fine ok) (map (fun e => k_obj (snd e)) done)) by (apply Forall_map; revert BD; apply Forall_impl; intros e; apply base_fine).
    assert (FD' : Forall (fine ok) (map (fun e => k_obj (snd e)) sent')) by (apply Forall_map; revert BS; apply Forall_impl; intros e; apply base_fine).
    assert (ML : length (map (fun e : nat * key => k_obj (snd e)) done) <= most) by (rewrite map_length; exact LM).
    assert (ML' : length (map (fun e : nat * key => k_obj (snd e)) sent') <= most) by (rewrite map_length, LS; exact LM).
    (* the hashes of the two runs *)
    assert (PLACE : forall p q i k k', nth_error done p = Some (i, k) -> nth_error sent' q = Some (i, k') ->
      nth_error (gets sha [] (map (fun e => k_obj (snd e)) done)) p = nth_error (gets sha [] (map (fun e => k_obj (snd e)) sent')) q).
    { intros p q i k k' P Q. destruct (per_key_place _ _ _ _ _ _ _ ND ND' PK P Q) as [HK HL].
      assert (BK : base k) by (rewrite Forall_forall in BD; exact (BD _ (nth_error_In _ _ P))).
      assert (BK' : base k') by (rewrite Forall_forall in BS; exact (BS _ (nth_error_In _ _ Q))).
      assert (BF : forall (l : list (nat * key)) n, Forall (fun e => base (snd e)) l -> Forall (fun e => base (snd e)) (firstn n l)).
      { intros l n H. apply Forall_forall. intros x I. rewrite Forall_forall in H. apply H. rewrite <- (firstn_skipn n l). apply in_or_app. now left. }
      rewrite (gets_nth _ p (k_obj k) FD ML) by (now apply (map_nth_error (fun e => k_obj (snd e))) in P).
      rewrite (gets_nth _ q (k_obj k') FD' ML') by (now apply (map_nth_error (fun e => k_obj (snd e))) in Q).
      f_equal. rewrite !firstn_map. rewrite (before_with_hash _ k) by (try assumption; now apply BF). rewrite (before_with_hash _ k') by (try assumption; now apply BF). rewrite <- HK, HL.
      set (n := length _). assert (LN : n <= most).
      { unfold n. eapply Nat.le_trans; [apply (filter_le (fun e : nat * key => str_eqb (k_hash (snd e)) (k_hash k)))|]. rewrite firstn_length. lia. }
      destruct BK as (K1 & H1 & O1). destruct BK' as (K2 & H2 & O2). apply (hash_same sha sha ok most sha_same h0_same); try assumption. apply h0_inj; congruence. }
    assert (LG : forall l, length (gets sha [] (map (fun e : nat * key => k_obj (snd e)) l)) = length l) by (intros l; rewrite gets_length, map_length; reflexivity).
    assert (INC : incl (gets sha [] (map (fun e => k_obj (snd e)) sent')) (hashes R reqs)).
    { intros h I. apply In_nth_error in I as (q & Q). assert (LQ : q < length sent') by (rewrite <- (LG sent'); apply nth_error_Some; congruence).
      destruct (nth_error sent' q) as [[i k']|] eqn:EQ; [|apply nth_error_None in EQ; lia].
      assert (I : In i (map fst done)) by (apply (Permutation_in _ (Permutation_sym IDS)); exact (in_map fst _ _ (nth_error_In _ _ EQ))).
      apply in_map_iff in I as ([j k] & EJ & I). cbn [fst] in EJ. subst j. apply In_nth_error in I as (p & P).
      rewrite HC. apply (nth_error_In _ p). rewrite (PLACE p q i k k' P EQ). exact Q. }
    destruct (replay_gets cc sha ok most sha_inj sha_same h0_same h0_order R X table (map (fun e => (snd e, real)) sent') [] (valid_nil sha sha ok) LK' BC')
      as (new & os' & is' & E' & A1 & A2 & A3 & A4).
    { rewrite OB'. change (hashes R []) with (@nil str). intros h H. apply (Permutation_in _ (Permutation_sym HT)). now apply INC. }
    cbn [app] in E', A4. rewrite OB' in A4. change (hashes R []) with (@nil str) in A4.
    destruct (capture_all cc sha sha ok most sha_inj sha_same h0_same h0_order R X _ _ _ [] _ _ _ (valid_nil sha sha ok) LK' BC' E' A1) as (V' & new1 & E1 & EO' & L1).
    cbn [app] in E1. subst new1. rewrite map_length in L1.
    assert (LH' : length (hashes R new) = length (hashes R reqs)).
    { assert (Q1 : length (hashes R new) = length new) by apply map_length. assert (Q2 : length (hashes R reqs) = length reqs) by apply map_length. rewrite Q1, Q2, L1, L0. exact LS. }
    exists new, os', is'. split; [exact E'|]. split; [exact A3|]. split; [|split; [|split; [exact IDS|]]].
    - apply NoDup_Permutation_bis; [|rewrite LH'; apply le_n|rewrite A4; exact INC].
      apply (valid_nodup sha sha ok most sha_inj sha_same h0_same h0_order _ V'). rewrite LH'. exact LH.
    - rewrite EO', map_length. exact L1.
    - intros i r I. apply In_nth_error in I as (p & P).
      assert (NTHC : forall (l : list nat) (m : list (outcome R X)) n x y, nth_error (combine l m) n = Some (x, y) -> nth_error l n = Some x /\ nth_error m n = Some y).
      { intros l. induction l as [|a l IH]; intros [|b m] [|n] x y Q; try discriminate Q; cbn in *; [injection Q as <- <-; auto|now apply IH]. }
      destruct (NTHC _ _ _ _ _ P) as [PI PO]. rewrite nth_error_map in PI. destruct (nth_error done p) as [[j k]|] eqn:PD; [|discriminate]. cbn in PI. injection PI as ->.
      rewrite EO in PO. apply nth_map_inv in PO as (s & PR & PO). injection PO as <-.
      assert (I' : In i (map fst sent')) by (apply (Permutation_in _ IDS); exact (in_map fst _ _ (nth_error_In _ _ PD))).
      apply in_map_iff in I' as ([j k'] & EJ & I'). cbn [fst] in EJ. subst j. apply In_nth_error in I' as (q & Q).
      assert (HH : nth_error (hashes R new) q = Some (k_hash (fst s))).
      { rewrite A4, <- (PLACE p q i k k' PD Q), <- HC. exact (map_nth_error (fun s => k_hash (fst s)) _ _ PR). }
      apply nth_map_inv in HH as (s2 & EN2 & HH).
      destruct (TB s (nth_error_In _ _ PR)) as (s' & IT & HS & TD). exists (snd s'). split; [exact TD|].
      assert (S2 : s2 = s').
      { pose proof (A3 s2 (nth_error_In _ _ EN2)) as IT2. assert (NT : NoDup (hashes R table)) by (apply (Permutation_NoDup (Permutation_sym HT)); exact NDH).
        clear - NT IT IT2 HS HH. unfold hashes in NT. induction table as [|t tb IH]; [destruct IT|]. cbn [map] in NT. inversion NT as [|? ? NI NT']; subst.
        destruct IT as [->|IT], IT2 as [->|IT2]; [reflexivity| | |now apply IH].
        - exfalso. apply NI. apply in_map_iff. exists s2. split; [congruence|exact IT2].
        - exfalso. apply NI. apply in_map_iff. exists s'. split; [congruence|exact IT]. }
      apply (nth_error_In _ q). subst s2. rewrite EO'.
      assert (NC : forall (l : list nat) (m : list (outcome R X)) n x y, nth_error l n = Some x -> nth_error m n = Some y -> nth_error (combine l m) n = Some (x, y)).
      { intros l. induction l as [|a l IH]; intros [|b m] [|n] x y Q1 Q2; try discriminate; cbn in *; [congruence|now apply IH]. }
      apply NC; [rewrite nth_error_map, Q; reflexivity|]. exact (map_nth_error (fun s => Returned (snd s)) _ _ EN2).
  Qed.
End Replay.
