(** C101: the list of requests that is printed after a test. *)
From Verif Require Import PyStrFacts HttpModel HttpProofs HttpHash HttpProps HttpListModel HttpListProofs HttpFilesModel.
From Coq Require Import Permutation Sorted Lia.

(** one line per request that was answered, ordered by URL and hash *)
Theorem C101_lines (R : Type) (requests : list (snap R)) :
  let line := fun k : str * str => lit " * " ++ fst k ++ lit " - " ++ snd k in
  exists keys, snapshot_lines requests = map line keys /\
    Permutation keys (map (fun s => (o_url (k_obj (fst s)), k_hash (fst s))) requests) /\
    Sorted (fun a b => str_less (fst b) (fst a) = false /\ (fst a = fst b -> str_less (snd b) (snd a) = false)) keys.
Proof.
  intros line. exists (map list_key (sorted_by list_key requests)). split; [|split].
  - unfold snapshot_lines. rewrite map_map. reflexivity.
  - apply Permutation_map, sorted_perm.
  - apply StronglySorted_Sorted. rewrite map_sorted. pose proof (sorted_sorted (fun k : str * str => k) (map list_key requests)) as S.
    induction S as [|x l S IH F]; constructor; [assumption|]. revert F. apply Forall_impl. intros y. unfold not_after, pair_less.
    rewrite Bool.orb_false_iff. intros [A B]. split; [exact A|]. intros E. rewrite E, str_eqb_refl in B. exact B.
Qed.
Print Assumptions C101_lines.

(** With the default hash: after any capture in which every request got an answer, the replay of the same requests, in any order
    and repeated as often, prints the same lines, one for each request. [stored] may be read back in any order. *)
Theorem C101_same_list (cc : CharClass) (sha : obj -> str) (ign : ignore) (R X : Type) (to_disk : R -> option R)
    capture files refresh cs reqs os is hide stored listing cs' again
    (no_collision : forall a b, asked cc ign (map fst (cs ++ cs')) (length cs) a -> asked cc ign (map fst (cs ++ cs')) (length cs) b -> (sha a = sha b <-> same a b)) :
  send_all cc sha R X capture (load cc sha R ign None files refresh) [] (keyed cc sha ign None cs) = (reqs, os, is) ->
  Forall (fun o => exists r, o = Returned r) os ->
  stop R to_disk hide reqs [] = Some stored ->
  Permutation stored listing ->
  Permutation cs' again ->
  Forall2 (fun c c' => k_hash (key_of cc sha ign None (fst c)) = k_hash (key_of cc sha ign None (fst c'))) cs again ->
  let '(reqs', os', is') := send_all cc sha R X false (load cc sha R ign None listing false) [] (keyed cc sha ign None cs') in
  Forall (fun o => exists r, o = Returned r) os' /\ Forall (fun i => i = false) is' /\
  snapshot_lines reqs' = snapshot_lines reqs /\ length (snapshot_lines reqs) = length cs.
Proof.
  intros E HR ES EP PA F.
  set (ok := fun o => exists q, In q (map fst (cs ++ cs')) /\ o = asked_obj cc ign q).
  assert (OK : forall c, In c (cs ++ cs') -> ok (k_obj (key_of cc sha ign None (fst c)))).
  { intros c I. exists (fst c). split; [now apply in_map|reflexivity]. }
  set (most := length cs).
  assert (sha_inj : forall a b n m, ok a -> ok b -> n <= most -> m <= most -> sha (with_order n a) = sha (with_order m b) -> same (with_order n a) (with_order m b)).
  { intros a b n m (q & I & ->) (q' & I' & ->) LN LM. apply no_collision; [exists q, (Some n)|exists q', (Some m)]; split; auto. }
  assert (sha_same : forall a b n, ok a -> ok b -> n <= most -> same a b -> sha (with_order n a) = sha (with_order n b)).
  { intros a b n (q & I & ->) (q' & I' & ->) LN S. apply no_collision; [exists q, (Some n); split; auto|exists q', (Some n); split; auto|now apply same_order]. }
  assert (h0_iff : forall a b, ok a -> ok b -> sha a = sha b <-> same a b).
  { intros a b (q & I & ->) (q' & I' & ->). apply no_collision; [exists q, None; split; auto|exists q', None; split; auto]. }
  assert (h0_same : forall a b, ok a -> ok b -> same a b -> sha a = sha b) by (intros a b A B; now apply h0_iff).
  assert (h0_inj : forall a b, ok a -> ok b -> sha a = sha b -> same a b) by (intros a b A B; now apply h0_iff).
  assert (h0_order : forall a b n, ok a -> ok b -> n <= most -> sha a <> sha (with_order n b)).
  { intros a b n (q & I & ->) (q' & I' & ->) LN EQ. apply no_collision in EQ; [|exists q, None; split; auto|exists q', (Some n); split; auto].
    destruct EQ as (_ & _ & _ & EO & _). rewrite asked_order in EO. discriminate. }
  assert (BASE : forall l : list (request * (R + X)), incl l (cs ++ cs') -> Forall (fun c => base sha ok (fst c)) (keyed cc sha ign None l)).
  { intros l I. apply Forall_forall. intros c C. apply in_map_iff in C as (d & <- & D). cbn [fst]. apply key_of_base; [reflexivity|]. apply OK. now apply I. }
  assert (I1 : incl cs (cs ++ cs')) by (now apply incl_appl, incl_refl).
  assert (I2 : incl cs' (cs ++ cs')) by (now apply incl_appr, incl_refl).
  assert (I3 : incl again (cs ++ cs')) by (intros c C; apply I2; eapply Permutation_in; [symmetry; exact PA|exact C]).
  set (objs := fun l : list (request * (R + X)) => map (fun c => k_obj (key_of cc sha ign None (fst c))) l).
  assert (OB : forall l, map (fun c => k_obj (fst c)) (keyed cc sha ign None l) = objs l) by (intros l; unfold keyed, objs; rewrite map_map; reflexivity).
  assert (OKS : forall l, incl l (cs ++ cs') -> Forall ok (objs l)).
  { intros l I. apply Forall_forall. intros o C. apply in_map_iff in C as (d & <- & D). apply OK. now apply I. }
  assert (FINE : forall l, incl l (cs ++ cs') -> Forall (fine ok) (objs l)).
  { intros l I. apply Forall_forall. intros o C. apply in_map_iff in C as (d & <- & D). split; [apply OK; now apply I|]. unfold key_of, from_request, request_key. now destruct ign. }
  assert (LA : length again = length cs) by (clear - F; induction F; cbn [length]; congruence).
  assert (LC : length cs' = length cs) by (rewrite <- LA; now apply Permutation_length).
  assert (LK : length (@nil (snap R)) + length (keyed cc sha ign None cs) <= most) by (unfold keyed, most; rewrite map_length; apply le_n).
  assert (LK' : length (@nil (snap R)) + length (keyed cc sha ign None cs') <= most) by (unfold keyed, most; rewrite map_length, LC; apply le_n).
  pose proof (capture_gets cc sha ok most sha_inj sha_same h0_same h0_order R X _ _ _ [] _ _ _ (valid_nil sha sha ok) LK (BASE cs I1) E HR) as HC.
  rewrite OB in HC. change (hashes R []) with (@nil str) in HC.
  destruct (capture_all cc sha sha ok most sha_inj sha_same h0_same h0_order R X _ _ _ [] _ _ _ (valid_nil sha sha ok) LK (BASE cs I1) E HR) as (V & new0 & E0 & _ & L0).
  assert (LR : length (hashes R reqs) = length cs).
  { rewrite HC, gets_length. unfold objs. rewrite map_length. reflexivity. }
  assert (ND : NoDup (hashes R reqs)) by (apply (valid_nodup sha sha ok most sha_inj sha_same h0_same h0_order _ V); rewrite LR; apply le_n).
  clear new0 E0 L0.
  destruct (stop_spec R to_disk hide reqs [] stored ES ND) as (new & EN & FS). cbn [app] in EN. subst new.
  set (table := load cc sha R ign None listing false).
  assert (KEYS : map list_key (load cc sha R ign None stored false) = map list_key reqs).
  { clear - FS. unfold load. induction FS as [|s e reqs' stored' (_ & A & B & _) FS IH]; [reflexivity|]. cbn [map]. f_equal; [|exact IH].
    destruct e as [h [[o h'] r]]. cbn [fst snd] in *. subst. unfold list_key. cbn. f_equal. destruct ign; cbn; unfold to_json_object; destruct hide; reflexivity. }
  assert (PT : Permutation (map list_key table) (map list_key reqs)).
  { rewrite <- KEYS. apply Permutation_map. unfold table, load. now apply Permutation_map, Permutation_sym. }
  assert (HT : Permutation (hashes R table) (hashes R reqs)).
  { assert (HK : forall l : list (snap R), hashes R l = map snd (map list_key l)) by (intros l; unfold hashes; rewrite map_map; reflexivity).
    rewrite !HK. now apply Permutation_map. }
  assert (PG : Permutation (gets sha [] (objs cs')) (hashes R reqs)).
  { rewrite HC. rewrite (gets_same sha ok most sha_same h0_same (objs cs) (objs again)).
    - apply (gets_perm sha ok most sha_inj sha_same h0_same h0_inj h0_order); [now apply Permutation_map|now apply FINE|constructor|].
      unfold objs. rewrite map_length, LC. apply le_n.
    - clear - F h0_iff OK I1 I3. unfold objs.
      assert (C1 : forall c, In c cs -> ok (k_obj (key_of cc sha ign None (fst c)))) by (intros c I; apply OK, I1, I).
      assert (C2 : forall c, In c again -> ok (k_obj (key_of cc sha ign None (fst c)))) by (intros c I; apply OK, I3, I).
      clear OK I1 I3. clearbody ok. induction F as [|c c' l l' S F IH]; cbn [map]; constructor; [|apply IH; intros; [apply C1|apply C2]; now right].
      apply h0_iff; [apply C1; now left|apply C2; now left|exact S].
    - now apply OKS.
    - now apply OKS.
    - unfold objs. rewrite map_length. apply le_n. }
  destruct (replay_gets cc sha ok most sha_inj sha_same h0_same h0_order R X table (keyed cc sha ign None cs') [] (valid_nil sha sha ok) LK' (BASE cs' I2))
    as (new & os' & is' & E' & A1 & A2 & A3 & A4).
  { rewrite OB. change (hashes R []) with (@nil str). intros h H. apply (Permutation_in _ (Permutation_sym HT)). now apply (Permutation_in _ PG). }
  rewrite E'. cbn [app] in *. split; [exact A1|]. split; [exact A2|]. rewrite OB in A4. change (hashes R []) with (@nil str) in A4.
  assert (PN : Permutation (map list_key new) (map list_key reqs)).
  { rewrite <- PT. apply NoDup_Permutation_bis.
    - apply (NoDup_map_inv snd). rewrite map_map. change (NoDup (hashes R new)). rewrite A4. apply (Permutation_NoDup (Permutation_sym PG)). exact ND.
    - apply Permutation_length in PG. rewrite <- A4 in PG. apply Permutation_length in PT. rewrite PT, !map_length.
      assert (Q : length new = length reqs) by (unfold hashes in PG; rewrite !map_length in PG; exact PG). refine (eq_ind_r (fun n => _ <= n) _ Q). apply le_n.
    - intros k K. apply in_map_iff in K as (s & <- & K). apply in_map. now apply A3. }
  split; [now apply lines_same|].
  unfold snapshot_lines. rewrite map_length. refine (eq_trans (Permutation_length (sorted_perm list_key reqs)) (eq_trans _ LR)). unfold hashes. now rewrite map_length.
Qed.
Print Assumptions C101_same_list.

(** the hypotheses can be met: four requests, of which three are the same, sent again in another order *)
Example C101_example :
  let ign := IgnoreList [lit "DATE"] in
  let cs := [(HttpProps.get "b", inl 1); (HttpProps.get "a", inl 2); (HttpProps.get "b", inl 3); (HttpProps.get "b", inl 4)] in
  let cs' := [(HttpProps.get_later "b", inr tt); (HttpProps.get_later "b", inr tt); (HttpProps.get_later "b", inr tt); (HttpProps.get_later "a", inr tt)] in
  let again := [(HttpProps.get_later "b", inr tt); (HttpProps.get_later "a", inr tt); (HttpProps.get_later "b", inr tt); (HttpProps.get_later "b", inr tt)] in
  exists reqs os is stored,
    send_all ascii_class demo_sha nat unit true (load ascii_class demo_sha nat ign None [] true) [] (keyed ascii_class demo_sha ign None cs) = (reqs, os, is) /\
    Forall (fun o => exists r, o = Returned r) os /\
    stop nat Some true reqs [] = Some stored /\
    Permutation cs' again /\
    Forall2 (fun c c' => k_hash (key_of ascii_class demo_sha ign None (fst c)) = k_hash (key_of ascii_class demo_sha ign None (fst c'))) cs again /\
    length (snapshot_lines reqs) = 4 /\
    snapshot_lines (fst (fst (send_all ascii_class demo_sha nat unit false (load ascii_class demo_sha nat ign None (rev stored) false) [] (keyed ascii_class demo_sha ign None cs')))) =
      snapshot_lines reqs.
Proof.
  do 4 eexists. split; [vm_compute; reflexivity|]. split; [repeat constructor; eexists; reflexivity|]. split; [vm_compute; reflexivity|].
  split; [|split; [repeat constructor|split; [reflexivity|vm_compute; reflexivity]]].
  apply perm_skip. etransitivity; [apply perm_skip, perm_swap|]. apply perm_swap.
Qed.
