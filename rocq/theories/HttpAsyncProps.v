(** C103: requests that are made at the same time. *)
From Verif Require Import PyStrFacts HttpModel HttpProofs HttpHash HttpProps HttpListModel HttpListProofs HttpAsyncModel HttpAsyncProofs TokenizerProps.
From Coq Require Import Permutation Lia.

(** the events of a test, with the keys of its requests *)
Definition keyed_event {R X} cc sha ign (e : event request R X) : event key R X :=
  match e with
  | Sent i q => Sent i (key_of cc sha ign None q)
  | Answered i r => Answered i r
  end.
Lemma sent_keyed {R X} cc sha ign (es : list (event request R X)) :
  sent (map (keyed_event cc sha ign) es) = map (fun e => (fst e, key_of cc sha ign None (snd e))) (sent es).
Proof. induction es as [|[i q|i r] es IH]; cbn [map keyed_event sent]; [reflexivity| |exact IH]. now rewrite IH. Qed.

(** A capture with any number of requests in flight, in which every request is answered and no request is sent while an identical one
    waits. The replay may send the requests in any order in which identical requests keep theirs: every request gets the response it
    got in the capture (as read back from the file), nothing waits for the network, and the same list is printed. *)
Theorem C103_concurrent_partial (cc : CharClass) (sha : obj -> str) (ign : ignore) (R X : Type) (to_disk : R -> option R)
    capture files refresh (es es' : list (event request R X)) reqs w outs hide stored listing
    (no_collision : forall a b, asked cc ign (map snd (sent es ++ sent es')) (length (sent es)) a -> asked cc ign (map snd (sent es ++ sent es')) (length (sent es)) b ->
      (sha a = sha b <-> same a b)) :
  let hash := fun q => k_hash (key_of cc sha ign None q) in
  NoDup (map fst (sent es)) -> NoDup (map fst (sent es')) ->
  async_run cc sha R X capture (load cc sha R ign None files refresh) [] [] (map (keyed_event cc sha ign) es) = (reqs, w, outs) ->
  (forall i, In i (map fst (sent es)) -> In i (map fst outs)) -> Forall (fun o => exists r, o = Returned r) (map snd outs) ->
  (forall a b c i q j q', es = a ++ Sent i q :: b ++ Sent j q' :: c -> hash q = hash q' -> exists r, In (Answered i r) b) ->
  stop R to_disk hide reqs [] = Some stored -> Permutation stored listing ->
  (forall h, map fst (filter (fun e => str_eqb (hash (snd e)) h) (sent es)) = map fst (filter (fun e => str_eqb (hash (snd e)) h) (sent es'))) ->
  exists reqs' outs',
    async_run cc sha R X false (load cc sha R ign None listing false) [] [] (map (keyed_event cc sha ign) es') = (reqs', [], outs') /\
    map fst outs' = map fst (sent es') /\ Permutation (map fst outs') (map fst outs) /\
    (forall i r, In (i, Returned r) outs -> exists r', to_disk r = Some r' /\ In (i, Returned r') outs') /\
    snapshot_lines reqs' = snapshot_lines reqs.
Proof.
  intros hash ND ND' E ALL HR NO ES EP PK.
  set (ok := fun o => exists q, In q (map snd (sent es ++ sent es')) /\ o = asked_obj cc ign q). set (most := length (sent es)).
  assert (OK : forall e, In e (sent es ++ sent es') -> ok (k_obj (key_of cc sha ign None (snd e)))).
  { intros e I. exists (snd e). split; [now apply in_map|reflexivity]. }
  assert (sha_inj : forall a b n m, ok a -> ok b -> n <= most -> m <= most -> sha (with_order n a) = sha (with_order m b) -> same (with_order n a) (with_order m b)).
  { intros a b n m (q & I & ->) (q' & I' & ->) LN LM. apply no_collision; [exists q, (Some n)|exists q', (Some m)]; split; auto. }
  assert (sha_same : forall a b n, ok a -> ok b -> n <= most -> same a b -> sha (with_order n a) = sha (with_order n b)).
  { intros a b n (q & I & ->) (q' & I' & ->) LN S. apply no_collision; [exists q, (Some n); split; auto|exists q', (Some n); split; auto|now apply same_order]. }
  assert (h0_iff : forall a b, ok a -> ok b -> sha a = sha b <-> same a b).
  { intros a b (q & I & ->) (q' & I' & ->). apply no_collision; [exists q, None; split; auto|exists q', None; split; auto]. }
  assert (h0_same : forall a b, ok a -> ok b -> same a b -> sha a = sha b) by (intros a b A B; now apply h0_iff).
  assert (h0_inj : forall a b, ok a -> ok b -> sha a = sha b -> same a b) by (intros a b A B; now apply h0_iff).
  assert (h0_order : forall a b n, ok a -> ok b -> n <= most -> sha a <> sha (with_order n b)).
  { intros a b n (q & I & ->) (q' & I' & ->) LN EQ. apply no_collision in EQ; [|exists q, None; split; auto|exists q', (Some n); split; auto].
    destruct EQ as (_ & _ & _ & EO & _). rewrite asked_order in EO. discriminate. }
  set (kes := map (keyed_event cc sha ign) es) in *. set (kes' := map (keyed_event cc sha ign) es').
  assert (SK : sent kes = map (fun e => (fst e, key_of cc sha ign None (snd e))) (sent es)) by apply sent_keyed.
  assert (SK' : sent kes' = map (fun e => (fst e, key_of cc sha ign None (snd e))) (sent es')) by apply sent_keyed.
  assert (BASE : forall l, incl l (sent es ++ sent es') -> Forall (fun e : nat * key => base sha ok (snd e)) (map (fun e => (fst e, key_of cc sha ign None (snd e))) l)).
  { intros l I. apply Forall_forall. intros c C. apply in_map_iff in C as (d & <- & D). cbn [snd]. apply key_of_base; [reflexivity|]. apply OK. now apply I. }
  assert (B1 : Forall (fun e : nat * key => base sha ok (snd e)) (sent kes)) by (rewrite SK; apply BASE, incl_appl, incl_refl).
  assert (B2 : Forall (fun e : nat * key => base sha ok (snd e)) (sent kes')) by (rewrite SK'; apply BASE, incl_appr, incl_refl).
  assert (IDS : map fst (sent kes) = map fst (sent es)) by (rewrite SK, map_map; reflexivity).
  assert (IDS' : map fst (sent kes') = map fst (sent es')) by (rewrite SK', map_map; reflexivity).
  assert (PKK : per_key (sent kes) (sent kes')).
  { intros h. rewrite SK, SK'. specialize (PK h). unfold with_hash.
    assert (Q : forall l : list (nat * request), map fst (filter (fun e : nat * key => str_eqb (k_hash (snd e)) h) (map (fun e => (fst e, key_of cc sha ign None (snd e))) l)) =
      map fst (filter (fun e => str_eqb (hash (snd e)) h) l)).
    { induction l as [|e l IH]; [reflexivity|]. cbn [map filter snd]. fold (hash (snd e)). destruct (str_eqb (hash (snd e)) h); cbn [map fst]; [now rewrite IH|exact IH]. }
    rewrite !Q. exact PK. }
  assert (NOK : no_overlap R X kes).
  { intros a b c i k j k' EQ EH. unfold kes in EQ. apply map_eq_app in EQ as (a0 & r0 & -> & <- & EQ). apply map_eq_cons in EQ as (e1 & r1 & -> & E1 & EQ).
    apply map_eq_app in EQ as (b0 & r2 & -> & <- & EQ). apply map_eq_cons in EQ as (e2 & c0 & -> & E2 & <-).
    destruct e1 as [i1 q1|]; [|discriminate]. destruct e2 as [i2 q2|]; [|discriminate]. cbn [keyed_event] in E1, E2. injection E1 as -> <-. injection E2 as -> <-.
    destruct (NO a0 b0 c0 i q1 j q2 eq_refl EH) as [r I]. exists r. apply in_map_iff. exists (Answered i r). auto. }
  assert (LK : length (sent kes) <= most) by (rewrite SK, map_length; apply le_n).
  destruct (follows_run cc sha ok most sha_inj sha_same h0_same h0_inj h0_order R X capture (load cc sha R ign None files refresh) kes [] [] [] [] [] [] reqs w outs)
    as (done & w0 & F); try assumption.
  { constructor; [now exists []|reflexivity|apply Forall_nil|reflexivity|intros e []|reflexivity|apply perm_nil|intros i k []|apply NoDup_nil]. }
  { change ([] ++ kes) with kes. rewrite IDS. exact ND. }
  cbn [app] in F. destruct (f_seq _ _ _ _ _ _ _ _ _ _ _ _ F) as [is SEQ]. pose proof (f_perm _ _ _ _ _ _ _ _ _ _ _ _ F) as PERM. pose proof (f_ids _ _ _ _ _ _ _ _ _ _ _ _ F) as FID.
  assert (W0 : w0 = []).
  { destruct w0 as [|[i k] w0]; [reflexivity|]. exfalso.
    assert (NDI : NoDup (map fst (done_keys R X done ++ (i, k) :: w0))) by (apply (Permutation_NoDup (Permutation_map fst PERM)); rewrite IDS; exact ND).
    rewrite map_app in NDI. cbn [map fst] in NDI. apply NoDup_remove_2 in NDI. apply NDI. apply in_or_app. left.
    assert (I : In i (map fst (sent es))).
    { rewrite <- IDS. apply (Permutation_in _ (Permutation_sym (Permutation_map fst PERM))). rewrite map_app. apply in_or_app. right. now left. }
    apply ALL in I. rewrite <- FID in I. unfold done_keys. rewrite map_map. exact I. }
  subst w0. rewrite app_nil_r in PERM.
  assert (PKD : per_key (done_keys R X done) (sent kes')).
  { intros h. rewrite <- PKK. rewrite (f_hash _ _ _ _ _ _ _ _ _ _ _ _ F h). cbn [with_hash filter]. now rewrite app_nil_r. }
  assert (DID : map fst (done_keys R X done) = map fst outs) by (unfold done_keys; rewrite map_map; exact FID).
  assert (NDD : NoDup (map fst (done_keys R X done))) by (apply (Permutation_NoDup (Permutation_map fst PERM)); rewrite IDS; exact ND).
  assert (BD : Forall (fun e : nat * key => base sha ok (snd e)) (done_keys R X done)) by (apply (Permutation_Forall PERM); exact B1).
  assert (LD : length (done_keys R X done) <= most) by (rewrite <- (Permutation_length PERM); exact LK).
  assert (SC : combine (map snd (done_keys R X done)) (map (fun e => snd (snd e)) done) = map snd done).
  { clear. unfold done_keys. induction done as [|[i [k r]] d IH]; [reflexivity|]. cbn [map combine fst snd]. now rewrite IH. }
  assert (COMB : combine (map fst (done_keys R X done)) (map snd outs) = outs).
  { rewrite DID. clear. induction outs as [|[i o] l IH]; [reflexivity|]. cbn [map combine fst snd]. now rewrite IH. }
  set (table := load cc sha R ign None listing false).
  assert (ET : Permutation (map (fun e : entry R => (snd (fst (snd e)), snd (snd e))) listing) (map (fun s : snap R => (k_hash (fst s), snd s)) table)).
  { unfold table, load. rewrite map_map. assert (Q : forall e : entry R, (snd (fst (snd e)), snd (snd e)) =
      (let s := match snd e with (o, h, r) => (request_key cc sha ign None (Some h) o, r) end in (k_hash (fst s), snd s))) by (intros [h [[o h'] r]]; reflexivity).
    rewrite (map_ext _ _ Q). reflexivity. }
  (* a request that is not made needs no answer *)
  assert (REAL : sent kes' = [] \/ exists real : R + X, True).
  { destruct (sent kes') as [|[i k] l] eqn:EQ; [now left|right]. destruct (per_key_in _ _ i k (per_key_sym _ _ PKD) (or_introl eq_refl)) as (k' & I & _).
    unfold done_keys in I. apply in_map_iff in I as ([j [x real]] & _ & _). now exists real. }
  assert (RUN : exists new os' is' (cs' : list (key * (R + X))), map fst cs' = map snd (sent kes') /\
    send_all cc sha R X false table [] cs' = (new, os', is') /\ incl new table /\ Permutation (hashes R new) (hashes R reqs) /\
    length os' = length (sent kes') /\ Permutation (map fst (done_keys R X done)) (map fst (sent kes')) /\
    forall i r, In (i, Returned r) (combine (map fst (done_keys R X done)) (map snd outs)) -> exists r', to_disk r = Some r' /\ In (i, Returned r') (combine (map fst (sent kes')) os')).
  { destruct REAL as [EQ|[real _]].
    - assert (DE : done_keys R X done = []).
      { destruct (done_keys R X done) as [|[i k] l] eqn:ED; [reflexivity|]. destruct (per_key_in _ _ i k PKD (or_introl eq_refl)) as (k' & I & _). rewrite EQ in I. destruct I. }
      assert (D0 : done = []) by (destruct done; [reflexivity|discriminate DE]). rewrite D0 in SEQ, DID. cbn [map send_all] in SEQ. injection SEQ as ER EO _.
      exists [], [], [], []. rewrite EQ, D0, <- ER. cbn. repeat split; try (intros ? []); try (intros ? ? []); constructor.
    - rewrite <- SC in SEQ. destruct (replay_per_key cc sha ok most sha_inj sha_same h0_same h0_inj h0_order R X to_disk _ _ (done_keys R X done) (sent kes') (map (fun e => snd (snd e)) done)
        reqs (map snd outs) is hide stored listing table real ltac:(unfold done_keys; rewrite !map_length; reflexivity) SEQ HR ES EP ET LD BD B2 NDD
        ltac:(rewrite IDS'; exact ND') PKD) as (new & os' & is' & A).
      exists new, os', is', (map (fun e => (snd e, real)) (sent kes')). rewrite map_map. split; [reflexivity|exact A]. }
  destruct RUN as (new & os' & is' & cs' & EC & ER & IT & PH & LO & PI & ANS).
  exists new, (combine (map fst (sent kes')) os'). split; [|split; [|split; [|split]]].
  - rewrite (replay_run cc sha R X table kes' [] cs' EC), ER. reflexivity.
  - rewrite <- IDS'. clear - LO. assert (L : length os' = length (map fst (sent kes'))) by (now rewrite map_length). revert L. generalize (map fst (sent kes')). clear. induction os' as [|o os IH]; intros [|i l] L; try discriminate; [reflexivity|].
    cbn [combine map fst]. f_equal. apply IH. cbn in L. congruence.
  - assert (Q : map fst (combine (map fst (sent kes')) os') = map fst (sent kes')).
    { clear - LO. assert (L : length os' = length (map fst (sent kes'))) by (now rewrite map_length). revert L. generalize (map fst (sent kes')). clear. induction os' as [|o os IH]; intros [|i l] L; try discriminate; [reflexivity|].
      cbn [combine map fst]. f_equal. apply IH. cbn in L. congruence. }
    rewrite Q, <- DID. now symmetry.
  - intros i r I. apply ANS. rewrite COMB. exact I.
  - apply lines_same.
    assert (NDH : NoDup (hashes R reqs)).
    { destruct (done_valid cc sha ok most sha_inj sha_same h0_same h0_order R X capture _ kes reqs w outs done [] B1 LK F) as (V & LR & LL).
      apply (valid_nodup sha sha ok most sha_inj sha_same h0_same h0_order _ V). assert (Q : length (hashes R reqs) = length reqs) by apply map_length. rewrite Q, LR. cbn [length] in LL. lia. }
    destruct (stop_spec R to_disk hide reqs [] stored ES NDH) as (nw & EN & FS). cbn [app] in EN. subst nw.
    assert (KEYS : map list_key (load cc sha R ign None stored false) = map list_key reqs).
    { clear - FS. unfold load. induction FS as [|s e reqs' stored' (_ & A & B & _) FS IH]; [reflexivity|]. cbn [map]. f_equal; [|exact IH].
      destruct e as [h [[o h'] r]]. cbn [fst snd] in *. subst. unfold list_key. cbn. f_equal. destruct ign; cbn; unfold to_json_object; destruct hide; reflexivity. }
    assert (PT : Permutation (map list_key table) (map list_key reqs)).
    { rewrite <- KEYS. apply Permutation_map. unfold table, load. now apply Permutation_map, Permutation_sym. }
    rewrite <- PT. apply NoDup_Permutation_bis.
    + apply (NoDup_map_inv snd). rewrite map_map. change (NoDup (hashes R new)). apply (Permutation_NoDup (Permutation_sym PH)). exact NDH.
    + apply Permutation_length in PH. apply Permutation_length in PT. rewrite PT, !map_length.
      assert (Q : length new = length reqs) by (unfold hashes in PH; rewrite !map_length in PH; exact PH). refine (eq_ind_r (fun n => _ <= n) _ Q). apply le_n.
    + intros k K. apply in_map_iff in K as (s & <- & K). apply in_map. now apply IT.
Qed.
Print Assumptions C103_concurrent_partial.

(** False of identical requests that wait together: both are recorded under one key, the first gets the answer of the second in the
    replay, and the second finds no recording. *)
Theorem C103_concurrent_refuted : exists (es es' : list (event request nat unit)) reqs stored,
  map fst (sent es) = [0; 1] /\ sent es' = sent es /\
  async_run ascii_class demo_sha nat unit true [] [] [] (map (keyed_event ascii_class demo_sha IgnoreAll) es) = (reqs, [], [(0, Returned 10); (1, Returned 11)]) /\
  stop nat Some true reqs [] = Some stored /\
  snd (async_run ascii_class demo_sha nat unit false (load ascii_class demo_sha nat IgnoreAll None stored false) [] [] (map (keyed_event ascii_class demo_sha IgnoreAll) es')) =
    [(0, Returned 11); (1, Missing)].
Proof.
  exists [Sent 0 (HttpProps.get "a"); Sent 1 (HttpProps.get "a"); Answered 0 (inl 10); Answered 1 (inl 11)], [Sent 0 (HttpProps.get "a"); Sent 1 (HttpProps.get "a")]. do 2 eexists.
  split; [reflexivity|]. split; [reflexivity|]. split; [vm_compute; reflexivity|]. split; vm_compute; reflexivity.
Qed.
Print Assumptions C103_concurrent_refuted.

(** the hypotheses can be met: the answers to [a], [b] and again [a] arrive out of order, and the replay starts with [b] *)
Example C103_example :
  let a := HttpProps.get "a" in let b := HttpProps.get "b" in
  let es := [Sent 0 a; Sent 1 b; Answered 0 (inl 10); Sent 2 a; Answered 2 (inl 12); Answered 1 (inl 11)] in
  let es' : list (event request nat unit) := [Sent 1 b; Sent 0 a; Sent 2 a] in
  let hash := fun q => k_hash (key_of ascii_class demo_sha IgnoreAll None q) in
  exists reqs stored,
    NoDup (map fst (sent es)) /\ NoDup (map fst (sent es')) /\
    async_run ascii_class demo_sha nat unit true (load ascii_class demo_sha nat IgnoreAll None [] true) [] [] (map (keyed_event ascii_class demo_sha IgnoreAll) es) =
      (reqs, [], [(0, Returned 10); (2, Returned 12); (1, Returned 11)]) /\
    (forall x y z i q j q', es = x ++ Sent i q :: y ++ Sent j q' :: z -> hash q = hash q' -> exists r, In (Answered i r) y) /\
    stop nat Some true reqs [] = Some stored /\
    (forall h, map fst (filter (fun e => str_eqb (hash (snd e)) h) (sent es)) = map fst (filter (fun e => str_eqb (hash (snd e)) h) (sent es'))) /\
    snd (async_run ascii_class demo_sha nat unit false (load ascii_class demo_sha nat IgnoreAll None (rev stored) false) [] [] (map (keyed_event ascii_class demo_sha IgnoreAll) es')) =
      [(1, Returned 11); (0, Returned 10); (2, Returned 12)].
Proof.
  intros a b es es' hash.
  assert (NEQ : str_eqb (hash a) (hash b) = false) by (vm_compute; reflexivity). apply str_eqb_neq in NEQ.
  do 2 eexists. split; [repeat constructor; cbn; lia|]. split; [repeat constructor; cbn; lia|]. split; [vm_compute; reflexivity|]. split; [|split; [vm_compute; reflexivity|split; [|vm_compute; reflexivity]]].
  - intros x y z i q j q' E H. unfold es in E.
    destruct x as [|? [|? [|? [|? [|? [|? x]]]]]]; cbn [app] in E; try discriminate E; injection E; clear E; intros E; intros; subst;
    try (destruct y as [|? [|? [|? [|? [|? [|? y]]]]]]; cbn [app] in *; try discriminate; match goal with H : _ :: _ = _ |- _ => injection H; clear H; intros; subst end);
    try discriminate; try congruence; try (exists (inl 10); cbn; tauto).
    all: exfalso; try (now destruct x); try (now destruct y); congruence.
  - intros h. cbn [sent filter map fst snd es es']. destruct (str_eqb_spec (hash a) h) as [EA|NA], (str_eqb_spec (hash b) h) as [EB|NB]; try reflexivity. exfalso. apply NEQ. congruence.
Qed.
