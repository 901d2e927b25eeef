(** C117: replaying requests in another order than that of the capture. *)
From Verif Require Import PyStrFacts HttpModel HttpProofs HttpHash HttpProps HttpOrderProofs.
From Coq Require Import Permutation Lia.

(** the answers that were given to the requests with the hash [h], in order; [hs]: the hashes of the requests *)
Definition answers {A} (h : str) (hs : list str) (os : list A) : list A :=
  map snd (filter (fun e => str_eqb (fst e) h) (combine hs os)).

Lemma answers_snoc {A} h hs (os : list A) h' o : length hs = length os ->
  answers h (hs ++ [h']) (os ++ [o]) = answers h hs os ++ if str_eqb h' h then [o] else [].
Proof.
  intros L. unfold answers. replace (combine (hs ++ [h']) (os ++ [o])) with (combine hs os ++ [(h', o)]).
  - rewrite filter_app, map_app. cbn [filter fst]. now destruct (str_eqb h' h).
  - revert os L. induction hs as [|x hs IH]; intros [|y os] L; try discriminate; [reflexivity|]. cbn. f_equal. apply IH. now injection L.
Qed.
Lemma str_eqb_comm (a b : str) : str_eqb a b = str_eqb b a.
Proof. destruct (str_eqb_spec a b), (str_eqb_spec b a); congruence. Qed.

Lemma answers_length {A} (h0 : obj -> str) o ps : forall (os : list A), length ps = length os -> length (answers (h0 o) (map h0 ps) os) = count h0 o ps.
Proof.
  induction ps as [|p ps IH] using rev_ind; intros os L; [destruct os; [reflexivity|discriminate]|].
  destruct os as [|x os _] using rev_ind; [rewrite app_length in L; cbn in L; lia|]. rewrite !app_length in L. cbn [length] in L.
  assert (length ps = length os) by lia.
  rewrite map_app. cbn [map]. rewrite answers_snoc by (rewrite map_length; lia). rewrite app_length, IH, count_snoc by assumption.
  rewrite (str_eqb_comm (h0 p)). now destruct (str_eqb (h0 o) (h0 p)).
Qed.
Lemma answers_nth {A} (h0 : obj -> str) o p ps : forall j (os : list A), length ps = length os ->
  nth_error ps j = Some p -> h0 p = h0 o -> nth_error (answers (h0 o) (map h0 ps) os) (count h0 o (firstn j ps)) = nth_error os j.
Proof.
  induction ps as [|q ps IH] using rev_ind; intros j os L N E; [destruct j; discriminate|].
  destruct os as [|x os _] using rev_ind; [rewrite app_length in L; cbn in L; lia|]. rewrite !app_length in L. cbn [length] in L.
  assert (L' : length ps = length os) by lia.
  assert (LJ : j < length (ps ++ [q])) by (apply nth_error_Some; congruence). rewrite app_length in LJ. cbn [length] in LJ.
  rewrite map_app. cbn [map]. rewrite answers_snoc by (rewrite map_length; lia).
  pose proof (answers_length h0 o ps os L') as AL.
  destruct (Nat.eq_dec j (length ps)) as [->|NJ].
  - rewrite nth_error_app2, Nat.sub_diag in N by lia. injection N as ->. rewrite E, str_eqb_refl.
    rewrite firstn_app, Nat.sub_diag, firstn_all. cbn [firstn]. rewrite app_nil_r.
    rewrite nth_error_app2 by lia. rewrite AL, Nat.sub_diag. rewrite L', nth_error_app2, Nat.sub_diag by lia. reflexivity.
  - rewrite nth_error_app1 in N by lia. rewrite firstn_app. replace (j - length ps) with 0 by lia. cbn [firstn]. rewrite app_nil_r.
    specialize (IH j os L' N E). rewrite nth_error_app1 with (l := os) by lia. rewrite <- IH.
    apply nth_error_app1. apply nth_error_Some. rewrite IH. apply nth_error_Some. lia.
Qed.

(** *** C117: after a capture in which every request got an answer, whatever is requested in the replay and in whatever
    order: the request number [n] (from 0) of those with one key gets the answer that the request number [n] with that key
    got in the capture, as it comes back from the disk, or the error for a missing snapshot when there were not that many;
    the network is never used. *)
Theorem C117_order (cc : CharClass) (sha : obj -> str) (ign : ignore) (R X : Type) (to_disk : R -> option R)
    capture files refresh cs reqs os is hide stored listing cs'
    (no_collision : forall a b, asked cc ign (map fst (cs ++ cs')) (length (cs ++ cs')) a -> asked cc ign (map fst (cs ++ cs')) (length (cs ++ cs')) b -> (sha a = sha b <-> same a b)) :
  send_all cc sha R X capture (load cc sha R ign None files refresh) [] (keyed cc sha ign None cs) = (reqs, os, is) ->
  Forall (fun o => exists r, o = Returned r) os ->
  stop R to_disk hide reqs [] = Some stored ->
  Permutation stored listing ->
  let hash := fun c : request * (R + X) => k_hash (key_of cc sha ign None (fst c)) in
  let '(_, os', is') := send_all cc sha R X false (load cc sha R ign None listing false) [] (keyed cc sha ign None cs') in
  length os' = length cs' /\ Forall (fun b => b = false) is' /\
  forall i c, nth_error cs' i = Some c ->
    let n := length (filter (fun c' => str_eqb (hash c') (hash c)) (firstn i cs')) in
    match nth_error (answers (hash c) (map hash cs) os) n with
    | Some o => exists r r', o = Returned r /\ to_disk r = Some r' /\ nth_error os' i = Some (Returned r')
    | None => nth_error os' i = Some Missing
    end.
Proof.
  intros E HR ES EP hash.
  set (ok := fun o => exists q, In q (map fst (cs ++ cs')) /\ o = asked_obj cc ign q).
  set (most := length (cs ++ cs')) in *.
  assert (OK : forall c, In c (cs ++ cs') -> base sha ok (key_of cc sha ign None (fst c))).
  { intros c I. apply key_of_base; [reflexivity|]. exists (fst c). split; [now apply in_map|reflexivity]. }
  assert (sha_inj : forall a b n m, ok a -> ok b -> n <= most -> m <= most -> sha (with_order n a) = sha (with_order m b) -> same (with_order n a) (with_order m b)).
  { intros a b n m (q & I & ->) (q' & I' & ->) LN LM. apply no_collision; [exists q, (Some n)|exists q', (Some m)]; split; auto. }
  assert (sha_same : forall a b n, ok a -> ok b -> n <= most -> same a b -> sha (with_order n a) = sha (with_order n b)).
  { intros a b n (q & I & ->) (q' & I' & ->) LN S. apply no_collision; [exists q, (Some n); split; auto|exists q', (Some n); split; auto|now apply same_order]. }
  assert (h0_iff : forall a b, ok a -> ok b -> sha a = sha b <-> same a b).
  { intros a b (q & I & ->) (q' & I' & ->). apply no_collision; [exists q, None; split; auto|exists q', None; split; auto]. }
  assert (h0_same : forall a b, ok a -> ok b -> same a b -> sha a = sha b) by (intros; now apply h0_iff).
  assert (h0_inj : forall a b, ok a -> ok b -> sha a = sha b -> same a b) by (intros; now apply h0_iff).
  assert (h0_order : forall a b n, ok a -> ok b -> n <= most -> sha a <> sha (with_order n b)).
  { intros a b n (q & I & ->) (q' & I' & ->) LN EQ. apply no_collision in EQ; [|exists q, None; split; auto|exists q', (Some n); split; auto].
    destruct EQ as (_ & _ & _ & EO & _). rewrite asked_order in EO. discriminate. }
  assert (B : Forall (fun c => base sha ok (fst c)) (keyed cc sha ign None cs)).
  { apply Forall_forall. intros c I. apply in_map_iff in I. destruct I as (d & <- & I). cbn [fst]. apply OK, in_or_app. now left. }
  assert (B' : Forall (fun c => base sha ok (fst c)) (keyed cc sha ign None cs')).
  { apply Forall_forall. intros c I. apply in_map_iff in I. destruct I as (d & <- & I). cbn [fst]. apply OK, in_or_app. now right. }
  assert (LM : most = length cs + length cs') by apply app_length.
  assert (LK : length (keyed cc sha ign None cs) = length cs) by apply map_length.
  assert (LK' : length (keyed cc sha ign None cs') = length cs') by apply map_length.
  assert (N0 : length (@nil obj) + length (keyed cc sha ign None cs) <= most) by (rewrite LK; cbn; lia).
  destruct (capture_gen cc sha sha ok most sha_inj sha_same h0_same h0_order R X capture _ _ [] [] reqs os is (gen_nil sha sha ok) N0 B E HR)
    as (G & new & ER & EO). cbn [app] in G, ER. subst new.
  set (ps := map (fun c => k_obj (fst c)) (keyed cc sha ign None cs)) in *.
  assert (LP : length ps = length cs) by (unfold ps; rewrite map_length; exact LK).
  assert (LR : length (hashes R reqs) = length cs) by (rewrite <- LP; symmetry; apply (gen_length _ _ _ _ _ G)).
  assert (LR' : length (hashes R reqs) <= most) by lia.
  assert (ND := valid_nodup sha sha ok most sha_inj sha_same h0_same h0_order _ (gen_valid _ _ _ _ _ G) LR').
  destruct (stop_spec R to_disk hide reqs [] stored ES ND) as (st & EN & FS). cbn [app] in EN. subst st.
  assert (HH : hashes R (load cc sha R ign None stored false) = hashes R reqs).
  { clear - FS. unfold hashes, load. induction FS as [|s e reqs' stored' (_ & A & _) FS IH]; [reflexivity|]. cbn [map]. f_equal; [|exact IH].
    destruct e as [h [[o h'] r]]. cbn in *. exact A. }
  assert (HL : Permutation (hashes R reqs) (hashes R (load cc sha R ign None listing false))).
  { rewrite <- HH. unfold hashes, load. apply Permutation_map. apply Permutation_map. exact EP. }
  assert (NDL : NoDup (hashes R (rev (load cc sha R ign None listing false)))).
  { unfold hashes. rewrite map_rev. apply NoDup_rev. apply (Permutation_NoDup (l := hashes R reqs)); [exact HL|exact ND]. }
  set (table := load cc sha R ign None listing false) in *.
  assert (HT : forall s, In s reqs -> exists s', find (fun t => str_eqb (k_hash (fst t)) (k_hash (fst s))) (rev table) = Some s' /\ to_disk (snd s) = Some (snd s')).
  { intros s I. destruct (Forall2_In_l _ _ _ _ FS I) as (e & IE & _ & A & _ & D).
    set (s' := match snd e with (o, h, r) => (request_key cc sha ign None (Some h) o, r) end : snap R).
    assert (IS : In s' (rev table)).
    { apply -> in_rev. unfold table, load. apply in_map_iff. exists e. split; [reflexivity|]. eapply Permutation_in; eassumption. }
    assert (KS : k_hash (fst s') = k_hash (fst s)) by (unfold s'; destruct e as [h [[o h'] r]]; cbn in *; exact A).
    exists s'. split; [|unfold s'; destruct e as [h [[o h'] r]]; cbn in *; exact D].
    rewrite <- KS. now apply (find_hash sha sha None eq_refl ok most h0_same h0_order). }
  assert (HT2 : forall s, In s table -> In (k_hash (fst s)) (hashes R reqs)).
  { intros s I. apply (Permutation_in _ (Permutation_sym HL)). now apply (in_map (fun s : snap R => k_hash (fst s))). }
  assert (L1 : length ps + length (@nil obj) + length (keyed cc sha ign None cs') <= most) by (rewrite LP, LK'; cbn; lia).
  assert (INV : forall o, fine ok o -> count sha o [] = Nat.min (count sha o []) (count sha o ps)) by reflexivity.
  pose proof (replay_any_order cc sha sha ok most sha_inj sha_same h0_same h0_inj h0_order R X to_disk table ps reqs G HT HT2
    (keyed cc sha ign None cs') [] [] [] L1 (gen_nil sha sha ok) INV B') as RP.
  destruct (send_all cc sha R X false table [] (keyed cc sha ign None cs')) as [[rq os'] is']. destruct RP as (A & LO & NI).
  split; [lia|]. split; [exact NI|]. intros i c NC n.
  assert (NK : nth_error (keyed cc sha ign None cs') i = Some (key_of cc sha ign None (fst c), snd c)).
  { unfold keyed. now apply (map_nth_error (fun c : request * (R + X) => (key_of cc sha ign None (fst c), snd c))). }
  specialize (A i _ NK). cbn [fst app] in A. set (o := k_obj (key_of cc sha ign None (fst c))) in *.
  assert (HO : forall d, sha (k_obj (key_of cc sha ign None (fst d))) = hash d) by reflexivity.
  assert (EC : count sha o (map (fun c0 => k_obj (fst c0)) (firstn i (keyed cc sha ign None cs'))) = n).
  { unfold n. clear. generalize i. intros j. unfold count, keyed. rewrite firstn_map, map_map. cbn [fst]. change (sha o) with (hash c). induction (firstn j cs') as [|d l IH]; [reflexivity|].
    cbn [map filter]. rewrite str_eqb_comm.
    change (sha (k_obj (key_of cc sha ign None (fst d)))) with (hash d).
    destruct (str_eqb (hash d) (hash c)); cbn [length]; [now rewrite IH|exact IH]. }
  cbv zeta in A. rewrite EC in A.
  assert (MH : map hash cs = map sha ps) by (unfold ps, keyed; rewrite !map_map; reflexivity).
  assert (LS : length ps = length os). { rewrite EO, map_length. unfold hashes in LR. rewrite map_length in LR. congruence. }
  rewrite MH. change (hash c) with (sha o).
  destruct (Nat.ltb_spec n (count sha o ps)) as [LT|GE].
  - destruct A as (j & p & s & r' & NP & HP & CJ & NS & TD & NO). rewrite <- CJ, (answers_nth sha o p ps j os LS NP HP).
    rewrite EO. rewrite (map_nth_error (fun s : snap R => Returned (snd s)) j reqs NS). exists (snd s), r'. auto.
  - assert (NN : nth_error (answers (sha o) (map sha ps) os) n = None) by (apply nth_error_None; rewrite answers_length by exact LS; exact GE).
    rewrite NN. exact A.
Qed.
Print Assumptions C117_order.

Example C117_example :
  let cs := [(get "a", inl 1); (get "b", inl 2); (get "a", inl 3)] in
  let cs' := [(get "b", inr tt); (get "a", inr tt); (get "c", inr tt); (get "b", inr tt); (get "a", inr tt); (get "a", inr tt)] in
  exists reqs os is stored,
    send_all ascii_class demo_sha nat unit true (load ascii_class demo_sha nat IgnoreAll None [] true) [] (keyed ascii_class demo_sha IgnoreAll None cs) = (reqs, os, is) /\
    Forall (fun o => exists r, o = Returned r) os /\ stop nat Some true reqs [] = Some stored /\
    (forall a b, demo_sha a = demo_sha b <-> same a b) /\
    snd (fst (send_all ascii_class demo_sha nat unit false (load ascii_class demo_sha nat IgnoreAll None (rev stored) false) [] (keyed ascii_class demo_sha IgnoreAll None cs'))) =
      [Returned 2; Returned 1; Missing; Missing; Returned 3; Missing].
Proof.
  do 4 eexists. split; [vm_compute; reflexivity|]. split; [repeat constructor; eexists; reflexivity|]. split; [vm_compute; reflexivity|].
  split; [intros a b; split; [apply demo_sha_inj|apply demo_sha_same]|]. vm_compute. reflexivity.
Qed.
