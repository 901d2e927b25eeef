(** C45, C46, and C43 for HTTP requests. *)
From Verif Require Import PyStrFacts HttpModel HttpProofs HttpHash.
From Coq Require Import Permutation Lia.

(** a request, as the caller makes it *)
Record request := { r_url : str; r_method : str; r_headers : list (str * str); r_body : option str }.
Definition key_of cc sha ign json_to_hash (q : request) : key :=
  from_request cc sha ign json_to_hash (r_url q) (r_method q) (r_headers q) (r_body q).
Definition keyed {A} cc sha ign json_to_hash (cs : list (request * A)) : list (key * A) :=
  map (fun c => (key_of cc sha ign json_to_hash (fst c), snd c)) cs.

Lemma Forall2_In_l {A B} (P : A -> B -> Prop) l l' a : Forall2 P l l' -> In a l -> exists b, In b l' /\ P a b.
Proof. induction 1; cbn; [easy|]. intros [->|I]; [eauto|]. destruct (IHForall2 I) as (b & ? & ?). eauto. Qed.

Section Replay.
  Variable cc : CharClass.
  Variable sha : obj -> str.
  Variable h0 : obj -> str.
  Variable ign : ignore.
  Variable json_to_hash : option (obj -> str).
  Hypothesis H0 : h0 = match json_to_hash with Some f => f | None => sha end.
  Variable ok : obj -> Prop.
  Variable most : nat.
  Hypothesis sha_inj : forall a b n m, ok a -> ok b -> n <= most -> m <= most -> sha (with_order n a) = sha (with_order m b) -> same (with_order n a) (with_order m b).
  Hypothesis sha_same : forall a b n, ok a -> ok b -> n <= most -> same a b -> sha (with_order n a) = sha (with_order n b).
  Hypothesis h0_same : forall a b, ok a -> ok b -> same a b -> h0 a = h0 b.
  Hypothesis h0_order : forall a b n, ok a -> ok b -> n <= most -> h0 a <> sha (with_order n b).
  Variable R X : Type.
  Variable to_disk : R -> option R.

  Lemma key_of_base q : ok (k_obj (key_of cc sha ign json_to_hash q)) -> base h0 ok (key_of cc sha ign json_to_hash q).
  Proof.
    intros K. unfold base. split; [exact K|]. clear K. unfold key_of, from_request, request_key. cbn [k_obj k_hash]. split.
    - rewrite H0. now destruct json_to_hash.
    - now destruct ign.
  Qed.

  Lemma find_hash (l : list (snap R)) s : NoDup (hashes R l) -> In s l -> find (fun t => str_eqb (k_hash (fst t)) (k_hash (fst s))) l = Some s.
  Proof.
    induction l as [|t l IH]; [easy|]. cbn [hashes map find]. intros ND I. inversion ND as [|? ? N ND']; subst.
    destruct (str_eqb_spec (k_hash (fst t)) (k_hash (fst s))) as [E|E].
    - destruct I as [->|I]; [reflexivity|]. exfalso. apply N. rewrite E. now apply (in_map (fun s : snap R => k_hash (fst s))).
    - destruct I as [->|I]; [congruence|]. now apply IH.
  Qed.

  Lemma replay capture snapshots cs reqs os is hide stored listing cs' :
    send_all cc sha R X capture snapshots [] (keyed cc sha ign json_to_hash cs) = (reqs, os, is) ->
    Forall (fun o => exists r, o = Returned r) os ->
    stop R to_disk hide reqs [] = Some stored ->
    Permutation stored listing ->
    length cs <= most ->
    Forall (fun c => ok (k_obj (key_of cc sha ign json_to_hash (fst c)))) cs -> Forall (fun c => ok (k_obj (key_of cc sha ign json_to_hash (fst c)))) cs' ->
    Forall2 (fun c c' => same (k_obj (key_of cc sha ign json_to_hash (fst c))) (k_obj (key_of cc sha ign json_to_hash (fst c')))) cs cs' ->
    let '(_, os', is') := send_all cc sha R X false (load cc sha R ign json_to_hash listing false) [] (keyed cc sha ign json_to_hash cs') in
    Forall2 (fun o o' => exists r r', o = Returned r /\ to_disk r = Some r' /\ o' = Returned r') os os' /\ Forall (fun i => i = false) is'.
  Proof.
    intros E HR ES EP LC OC OC' F.
    assert (B : forall A (l : list (request * A)), Forall (fun c => ok (k_obj (key_of cc sha ign json_to_hash (fst c)))) l -> Forall (fun c => base h0 ok (fst c)) (keyed cc sha ign json_to_hash l)).
    { intros A l. rewrite !Forall_forall. intros H c I. apply in_map_iff in I. destruct I as (d & <- & I). cbn [fst]. apply key_of_base. now apply H. }
    assert (LK : length (@nil (snap R)) + length (keyed cc sha ign json_to_hash cs) <= most) by (unfold keyed; rewrite map_length; exact LC).
    destruct (capture_all cc sha h0 ok most sha_inj sha_same h0_same h0_order R X capture snapshots (keyed cc sha ign json_to_hash cs) [] reqs os is (valid_nil sha h0 ok) LK (B _ cs OC) E HR)
      as (V & new0 & E0 & _ & L0).
    assert (LR : length (hashes R reqs) <= most) by (unfold hashes; rewrite map_length, E0; refine (eq_ind_r (fun n => n <= most) LK L0)).
    pose proof (valid_nodup sha h0 ok most sha_inj sha_same h0_same h0_order _ V LR) as ND. clear new0 E0 L0.
    destruct (stop_spec R to_disk hide reqs [] stored ES ND) as (new & EN & FS). cbn [app] in EN. subst new.
    apply (replay_all cc sha h0 ok most sha_inj sha_same h0_same h0_order R X to_disk capture snapshots (load cc sha R ign json_to_hash listing false)
             (keyed cc sha ign json_to_hash cs) (keyed cc sha ign json_to_hash cs') [] [] reqs os is).
    - assert (HH : hashes R (load cc sha R ign json_to_hash stored false) = hashes R reqs).
      { clear - FS. unfold hashes, load. induction FS as [|s e reqs' stored' (_ & A & _) FS IH]; [reflexivity|]. cbn [map]. f_equal; [|exact IH].
        destruct e as [h [[o h'] r]]. cbn in *. exact A. }
      assert (NDL : NoDup (hashes R (rev (load cc sha R ign json_to_hash listing false)))).
      { unfold hashes. rewrite map_rev. apply NoDup_rev. apply (Permutation_NoDup (l := hashes R reqs)); [|exact ND].
        rewrite <- HH. unfold hashes, load. apply Permutation_map. apply Permutation_map. exact EP. }
      intros s I. destruct (Forall2_In_l _ _ _ _ FS I) as (e & IE & _ & A & _ & D).
      set (s' := match snd e with (o, h, r) => (request_key cc sha ign json_to_hash (Some h) o, r) end : snap R).
      assert (IS : In s' (rev (load cc sha R ign json_to_hash listing false))).
      { apply -> in_rev. unfold load. apply in_map_iff. exists e. split; [reflexivity|]. eapply Permutation_in; eassumption. }
      assert (KS : k_hash (fst s') = k_hash (fst s)) by (unfold s'; destruct e as [h [[o h'] r]]; cbn in *; exact A).
      exists s'. split; [exact IS|]. split; [|unfold s'; destruct e as [h [[o h'] r]]; cbn in *; exact D].
      rewrite <- KS. now apply find_hash.
    - constructor.
    - exact LK.
    - reflexivity.
    - now apply B.
    - clear - F H0 OC' h0 ok. induction F as [|c c' l l' S F IH]; cbn; constructor; [|apply IH; exact (Forall_inv_tail OC')]. split; [apply key_of_base; exact (Forall_inv OC')|exact S].
    - exact E.
    - exact HR.
  Qed.
End Replay.

(** the JSON objects that are hashed for requests [qs] of which none is repeated more than [most] times *)
Definition asked_obj (cc : CharClass) (ign : ignore) (q : request) : obj :=
  strip_headers cc ign {| o_url := r_url q; o_method := r_method q; o_headers := Some (r_headers q); o_body := r_body q; o_order := None |}.
Lemma asked_order cc ign q : o_order (asked_obj cc ign q) = None.
Proof. now destruct ign. Qed.
Definition asked (cc : CharClass) (ign : ignore) (qs : list request) (most : nat) (o : obj) : Prop :=
  exists q order, In q qs /\
    match order with
    | None => True /\ o = asked_obj cc ign q
    | Some n => n <= most /\ o = with_order n (asked_obj cc ign q)
    end.

(** *** C45, with the default hash: after any capture in which every request got an answer (with -s or -S, whatever
    snapshots were there before), the replay of any sequence of requests with the same keys (that is, the same URL, method,
    body and non-ignored headers, see C46_hash) gives each request the answer that its counterpart got in the capture,
    as it comes back from the disk, and never uses the network. [stored] may be read back in any order. *)
Theorem C45_partial (cc : CharClass) (sha : obj -> str) (ign : ignore) (R X : Type) (to_disk : R -> option R)
    capture files refresh cs reqs os is hide stored listing cs'
    (no_collision : forall a b, asked cc ign (map fst (cs ++ cs')) (length cs) a -> asked cc ign (map fst (cs ++ cs')) (length cs) b -> (sha a = sha b <-> same a b)) :
  send_all cc sha R X capture (load cc sha R ign None files refresh) [] (keyed cc sha ign None cs) = (reqs, os, is) ->
  Forall (fun o => exists r, o = Returned r) os ->
  stop R to_disk hide reqs [] = Some stored ->
  Permutation stored listing ->
  Forall2 (fun c c' => k_hash (key_of cc sha ign None (fst c)) = k_hash (key_of cc sha ign None (fst c'))) cs cs' ->
  let '(_, os', is') := send_all cc sha R X false (load cc sha R ign None listing false) [] (keyed cc sha ign None cs') in
  Forall2 (fun o o' => exists r r', o = Returned r /\ to_disk r = Some r' /\ o' = Returned r') os os' /\ Forall (fun i => i = false) is'.
Proof.
  intros E HR ES EP F.
  set (ok := fun o => exists q, In q (map fst (cs ++ cs')) /\ o = asked_obj cc ign q).
  assert (OK : forall c, In c (cs ++ cs') -> ok (k_obj (key_of cc sha ign None (fst c)))).
  { intros c I. exists (fst c). split; [now apply in_map|reflexivity]. }
  apply (replay cc sha sha ign None eq_refl ok (length cs)) with (capture := capture) (snapshots := load cc sha R ign None files refresh)
    (cs := cs) (reqs := reqs) (is := is) (hide := hide) (stored := stored); try assumption.
  - intros a b n m (q & I & ->) (q' & I' & ->) LN LM. apply no_collision; [exists q, (Some n)|exists q', (Some m)]; split; auto.
  - intros a b n (q & I & ->) (q' & I' & ->) LN S. apply no_collision; [exists q, (Some n); split; auto|exists q', (Some n); split; auto|now apply same_order].
  - intros a b (q & I & ->) (q' & I' & ->) S. apply no_collision; [exists q, None; split; auto|exists q', None; split; auto|exact S].
  - intros a b n (q & I & ->) (q' & I' & ->) LN EQ. apply no_collision in EQ; [|exists q, None; split; auto|exists q', (Some n); split; auto].
    destruct EQ as (_ & _ & _ & EO & _). rewrite asked_order in EO. discriminate.
  - constructor.
  - apply Forall_forall. intros c I. apply OK. apply in_or_app. now left.
  - apply Forall_forall. intros c I. apply OK. apply in_or_app. now right.
  - assert (C : forall c, In c (cs ++ cs') -> asked cc ign (map fst (cs ++ cs')) (length cs) (k_obj (key_of cc sha ign None (fst c)))).
    { intros c I. exists (fst c), None. split; [now apply in_map|]. split; [exact Logic.I|reflexivity]. }
    clear - F no_collision C.
    assert (C1 : forall c, In c cs -> asked cc ign (map fst (cs ++ cs')) (length cs) (k_obj (key_of cc sha ign None (fst c)))) by (intros; apply C, in_or_app; now left).
    assert (C2 : forall c, In c cs' -> asked cc ign (map fst (cs ++ cs')) (length cs) (k_obj (key_of cc sha ign None (fst c)))) by (intros; apply C, in_or_app; now right).
    clear C. revert no_collision C1 C2. generalize (asked cc ign (map fst (cs ++ cs')) (length cs)). intros P NC C1 C2.
    induction F as [|c c' l l' S F IH]; constructor; [|apply IH; intros; [apply C1|apply C2]; now right]. apply NC; [apply C1; now left|apply C2; now left|exact S].
Qed.
Print Assumptions C45_partial.

(** with a custom hash: the replay of the same requests *)
Theorem C45_custom_hash (cc : CharClass) (sha : obj -> str) (ign : ignore) (f : obj -> str) (R X : Type) (to_disk : R -> option R)
    capture files refresh cs reqs os is hide stored listing cs'
    (no_collision : forall a b, asked cc ign (map fst cs) (length cs) a -> asked cc ign (map fst cs) (length cs) b -> (sha a = sha b <-> same a b))
    (f_function : forall a b, asked cc ign (map fst cs) (length cs) a -> asked cc ign (map fst cs) (length cs) b -> same a b -> f a = f b)
    (f_not_repeat : forall a b, asked cc ign (map fst cs) (length cs) a -> asked cc ign (map fst cs) (length cs) b -> o_order a = None -> o_order b <> None -> f a <> sha b) :
  send_all cc sha R X capture (load cc sha R ign (Some f) files refresh) [] (keyed cc sha ign (Some f) cs) = (reqs, os, is) ->
  Forall (fun o => exists r, o = Returned r) os ->
  stop R to_disk hide reqs [] = Some stored ->
  Permutation stored listing ->
  map fst cs' = map fst cs ->
  let '(_, os', is') := send_all cc sha R X false (load cc sha R ign (Some f) listing false) [] (keyed cc sha ign (Some f) cs') in
  Forall2 (fun o o' => exists r r', o = Returned r /\ to_disk r = Some r' /\ o' = Returned r') os os' /\ Forall (fun i => i = false) is'.
Proof.
  intros E HR ES EP F.
  set (ok := fun o => exists q, In q (map fst cs) /\ o = asked_obj cc ign q).
  apply (replay cc sha f ign (Some f) eq_refl ok (length cs)) with (capture := capture) (snapshots := load cc sha R ign (Some f) files refresh)
    (cs := cs) (reqs := reqs) (is := is) (hide := hide) (stored := stored); try assumption.
  - intros a b n m (q & I & ->) (q' & I' & ->) LN LM. apply no_collision; [exists q, (Some n)|exists q', (Some m)]; split; auto.
  - intros a b n (q & I & ->) (q' & I' & ->) LN S. apply no_collision; [exists q, (Some n); split; auto|exists q', (Some n); split; auto|now apply same_order].
  - intros a b (q & I & ->) (q' & I' & ->) S. apply f_function; [exists q, None; split; auto|exists q', None; split; auto|exact S].
  - intros a b n (q & I & ->) (q' & I' & ->) LN. apply f_not_repeat; [exists q, None; split; auto|exists q', (Some n); split; auto|apply asked_order|discriminate].
  - constructor.
  - apply Forall_forall. intros c I. exists (fst c). split; [now apply in_map|reflexivity].
  - apply Forall_forall. intros c I. exists (fst c). split; [rewrite <- F; now apply in_map|reflexivity].
  - clear - F. revert cs' F. induction cs as [|c cs IH]; intros [|c' cs'] F; try discriminate; constructor; cbn [map] in F; injection F as A B.
    + rewrite A. apply same_refl.
    + now apply IH.
Qed.
Print Assumptions C45_custom_hash.

(** *** C46: what is stored. Whatever was loaded and whatever was requested, no stored request has an ignored header
    (names compared in lower case), and with lose_request_details none has headers or a body. *)
Definition header_ignored (cc : CharClass) (ign : ignore) (h : str) : Prop :=
  match ign with
  | IgnoreNone => False
  | IgnoreAll => True
  | IgnoreList l => exists i, In i l /\ str_lower cc i = str_lower cc h
  end.
Definition header_names (o : obj) : list str := match o_headers o with Some h => map fst h | None => [] end.

Lemma is_ignored_spec cc l h : is_ignored cc l h = true <-> header_ignored cc (IgnoreList l) h.
Proof.
  unfold is_ignored, str_mem, header_ignored. rewrite existsb_exists. split.
  - intros (x & I & E). apply str_eqb_eq in E. apply in_map_iff in I. destruct I as (i & <- & I). eauto.
  - intros (i & I & E). exists (str_lower cc i). split; [now apply in_map|]. apply str_eqb_eq. now symmetry.
Qed.

Section Clean.
  Variable cc : CharClass.
  Variable sha : obj -> str.
  Variable ign : ignore.
  Variable json_to_hash : option (obj -> str).
  Variable R X : Type.
  Variable to_disk : R -> option R.
  Definition clean (o : obj) : Prop := forall h, In h (header_names o) -> ~ header_ignored cc ign h.

  Lemma strip_clean o : clean (strip_headers cc ign o).
  Proof.
    unfold clean, strip_headers, header_names. destruct ign as [| |l].
    - intros h _ [].
    - intros h [].
    - cbn [o_headers]. destruct (o_headers o) as [hs|]; cbn [option_map]; [|easy]. intros h I. apply in_map_iff in I.
      destruct I as ([n v] & <- & I). apply filter_In in I. destruct I as [_ I]. cbn [fst] in *. rewrite <- is_ignored_spec.
      destruct (is_ignored cc l n); [discriminate|]. discriminate.
  Qed.
  Lemma increase_clean k : clean (k_obj k) -> clean (k_obj (increase_order cc sha k)).
  Proof. unfold clean, increase_order, request_key, strip_headers, header_names. cbn. tauto. Qed.
  Lemma mark_clean (reqs : list (snap R)) : forall k, clean (k_obj k) -> clean (k_obj (mark_order cc sha R reqs k)).
  Proof.
    unfold mark_order. induction reqs as [|s reqs IH]; intros k C; [exact C|]. cbn [fold_left]. apply IH.
    destruct (str_eqb _ _); [now apply increase_clean|exact C].
  Qed.
  Definition all_clean (l : list (snap R)) := forall s, In s l -> clean (k_obj (fst s)).
  Lemma send_clean capture snaps reqs k real reqs' o i : all_clean snaps -> all_clean reqs -> clean (k_obj k) ->
    send cc sha R X capture snaps reqs k real = (reqs', o, i) -> all_clean reqs'.
  Proof.
    intros CS CR CK E. unfold send in E.
    destruct (find _ (rev snaps)) as [s|] eqn:F.
    - apply find_some in F. destruct F as [F _]. apply in_rev in F. injection E as <- _ _. match goal with |- context [existsb ?f reqs] => destruct (existsb f reqs) end; [exact CR|].
      intros t I. apply in_app_or in I. destruct I as [I|[<-|[]]]; [now apply CR|now apply CS].
    - destruct capture; [|injection E as <- _ _; exact CR]. destruct real as [r|x]; injection E as <- _ _; [|exact CR].
      intros t I. apply in_app_or in I. destruct I as [I|[<-|[]]]; [now apply CR|]. now apply mark_clean.
  Qed.
  Lemma send_all_clean capture snaps cs : forall reqs reqs' os is, all_clean snaps -> all_clean reqs -> Forall (fun c => clean (k_obj (fst c))) cs ->
    send_all cc sha R X capture snaps reqs cs = (reqs', os, is) -> all_clean reqs'.
  Proof.
    induction cs as [|[k real] cs IH]; intros reqs reqs' os is CS CR CC E; cbn [send_all] in E.
    - injection E as <- _ _. exact CR.
    - destruct (send cc sha R X capture snaps reqs k real) as [[reqs1 o] i] eqn:E1.
      destruct (send_all cc sha R X capture snaps reqs1 cs) as [[reqs2 os2] is2] eqn:E2. injection E as <- _ _.
      inversion CC; subst. eapply IH; [exact CS| |eassumption|exact E2]. eapply send_clean; [exact CS|exact CR| |exact E1]. assumption.
  Qed.
  Lemma load_clean files refresh : all_clean (load cc sha R ign json_to_hash files refresh).
  Proof.
    unfold load. destruct refresh; [easy|]. intros s I. apply in_map_iff in I. destruct I as ([h [[o h'] r]] & <- & _). cbn. apply strip_clean.
  Qed.
  Lemma dict_put_In e f (d : list (entry R)) : In f (dict_put R e d) -> f = e \/ In f d.
  Proof.
    induction d as [|g d IH]; cbn [dict_put].
    - intros [<-|[]]. now left.
    - destruct (str_eqb (fst g) (fst e)); cbn [In]; intros [<-|I]; auto. destruct (IH I); auto.
  Qed.
  Lemma stop_In hide reqs : forall d stored e, stop R to_disk hide reqs d = Some stored -> In e stored ->
    In e d \/ exists s, In s reqs /\ fst (fst (snd e)) = fst (to_json_object hide (fst s)).
  Proof.
    induction reqs as [|[k r] reqs IH]; intros d stored e E I; cbn [stop] in E.
    - injection E as <-. now left.
    - destruct (to_disk r) as [r'|]; [|discriminate]. destruct (IH _ _ _ E I) as [I'|(s & I' & ES)].
      + apply dict_put_In in I'. destruct I' as [-> |I']; [|now left]. right. exists (k, r). split; [now left|reflexivity].
      + right. exists s. split; [now right|exact ES].
  Qed.
End Clean.

Theorem C46_stored cc sha ign json_to_hash (R X : Type) to_disk capture files refresh cs reqs os is hide stored :
  send_all cc sha R X capture (load cc sha R ign json_to_hash files refresh) [] (keyed cc sha ign json_to_hash cs) = (reqs, os, is) ->
  stop R to_disk hide reqs [] = Some stored ->
  forall name o hash r, In (name, (o, hash, r)) stored ->
    (forall h, In h (header_names o) -> ~ header_ignored cc ign h) /\
    (hide = true -> o_headers o = None /\ o_body o = None).
Proof.
  intros E ES name o hash r I. destruct (stop_In R to_disk hide reqs [] stored _ ES I) as [[]|(s & IS & EO)]. cbn [fst snd] in EO.
  assert (AC : all_clean cc ign R reqs).
  { eapply (send_all_clean cc sha ign R X); [apply (load_clean cc sha ign json_to_hash)| | |exact E].
    - easy.
    - apply Forall_forall. intros c IC. apply in_map_iff in IC. destruct IC as (d & <- & _). exact (strip_clean cc ign _). }
  specialize (AC s IS). subst o. unfold to_json_object. cbn [fst]. split.
  - destruct hide; [intros h []|exact AC].
  - intros ->. auto.
Qed.
Print Assumptions C46_stored.

(** nothing else is dropped from the headers *)
Lemma hget_filter p h hs : hget h (filter (fun e => negb (p (fst e))) hs) = if p h then None else hget h hs.
Proof.
  induction hs as [|[n v] hs IH]; cbn [filter hget fst]; [now destruct (p h)|].
  destruct (str_eqb_spec n h) as [->|N].
  - destruct (p h); cbn [negb]; [exact IH|]. cbn [hget]. now rewrite str_eqb_refl.
  - destruct (p n); cbn [negb]; [exact IH|]. cbn [hget]. destruct (str_eqb_spec n h); [congruence|exact IH].
Qed.
Theorem C46_kept cc sha l json_to_hash q h :
  ~ header_ignored cc (IgnoreList l) h ->
  match o_headers (k_obj (key_of cc sha (IgnoreList l) json_to_hash q)) with
  | Some hs => hget h hs = hget h (r_headers q)
  | None => False
  end.
Proof.
  intros N. cbn. rewrite hget_filter. destruct (is_ignored cc l h) eqn:E; [|reflexivity]. apply is_ignored_spec in E. contradiction.
Qed.
Print Assumptions C46_kept.

(** the hash: two requests that differ only in ignored headers get the same hash, also as repeated requests after
    any others *)
Theorem C46_hash cc sha ign json_to_hash (R : Type) (reqs : list (snap R)) q q'
    (sha_function : forall a b, same a b -> sha a = sha b)
    (hash_function : forall f, json_to_hash = Some f -> forall a b, same a b -> f a = f b) :
  r_url q = r_url q' -> r_method q = r_method q' -> r_body q = r_body q' ->
  (forall h, ~ header_ignored cc ign h -> hget h (r_headers q) = hget h (r_headers q')) ->
  k_hash (mark_order cc sha R reqs (key_of cc sha ign json_to_hash q)) = k_hash (mark_order cc sha R reqs (key_of cc sha ign json_to_hash q')).
Proof.
  intros U M B H.
  assert (SO : same (k_obj (key_of cc sha ign json_to_hash q)) (k_obj (key_of cc sha ign json_to_hash q'))).
  { unfold key_of, from_request, request_key, same. cbn [k_obj]. destruct ign as [| |l]; cbn; repeat split; auto.
    intros h. rewrite !hget_filter. destruct (is_ignored cc l h) eqn:E; [reflexivity|]. apply H. rewrite <- is_ignored_spec. congruence. }
  assert (SH : k_hash (key_of cc sha ign json_to_hash q) = k_hash (key_of cc sha ign json_to_hash q')).
  { unfold key_of, from_request, request_key in *. cbn [k_obj k_hash] in *. destruct json_to_hash as [f|]; [now apply (hash_function f)|now apply sha_function]. }
  revert SO SH. generalize (key_of cc sha ign json_to_hash q) (key_of cc sha ign json_to_hash q'). clear - sha_function.
  unfold mark_order. induction reqs as [|s reqs IH]; intros k k' SO SH; [exact SH|]. cbn [fold_left]. rewrite SH.
  destruct (str_eqb (k_hash k') (k_hash (fst s))); [|now apply IH].
  assert (SI : same (k_obj (increase_order cc sha k)) (k_obj (increase_order cc sha k'))).
  { unfold same, increase_order, request_key in *. cbn. destruct SO as (A & C & D & E & F). rewrite E. tauto. }
  apply IH; [exact SI|]. apply sha_function. exact SI.
Qed.
Print Assumptions C46_hash.

(** *** C43 for requests and httpx: without -s and -S the network is never used; each request gets an answer that was
    loaded for its key, or the missing snapshot error. *)
Theorem C43_http cc sha (R X : Type) (snapshots requests : list (snap R)) (k : key) (real : R + X) :
  let '(_, o, network) := send cc sha R X false snapshots requests k real in
  network = false /\
  ((exists s, In s snapshots /\ k_hash (fst s) = k_hash (mark_order cc sha R requests k) /\ o = Returned (snd s)) \/
   (o = Missing /\ forall s, In s snapshots -> k_hash (fst s) <> k_hash (mark_order cc sha R requests k))).
Proof.
  unfold send. destruct (find _ (rev snapshots)) as [s|] eqn:F.
  - apply find_some in F. destruct F as [I M]. split; [reflexivity|]. left. exists s. apply in_rev in I. apply str_eqb_eq in M. auto.
  - split; [reflexivity|]. right. split; [reflexivity|]. intros s I E. apply in_rev in I. pose proof (find_none _ _ F s I) as N.
    unfold matches in N. rewrite E, str_eqb_refl in N. discriminate.
Qed.
Print Assumptions C43_http.
Theorem C43_http_all cc sha (R X : Type) (snapshots : list (snap R)) cs : forall requests,
  let '(_, os, network) := send_all cc sha R X false snapshots requests cs in
  Forall (fun n => n = false) network /\
  Forall (fun o => o = Missing \/ exists s, In s snapshots /\ o = Returned (snd s)) os.
Proof.
  induction cs as [|[k real] cs IH]; intros requests; cbn [send_all]; [split; constructor|].
  pose proof (C43_http cc sha R X snapshots requests k real) as C. destruct (send cc sha R X false snapshots requests k real) as [[r1 o] n].
  destruct C as [-> C]. specialize (IH r1). destruct (send_all cc sha R X false snapshots r1 cs) as [[r2 os] ns]. destruct IH as [A B].
  split; constructor; auto. destruct C as [(s & I & _ & ->)|[-> _]]; eauto.
Qed.
Print Assumptions C43_http_all.

(** *** Examples and counterexamples *)
Definition get (body : string) : request :=
  {| r_url := lit "http://x"; r_method := lit "GET"; r_headers := [(lit "Date", lit "1"); (lit "Accept", lit "a")]; r_body := Some (lit body) |}.
Definition get_later (body : string) : request :=
  {| r_url := lit "http://x"; r_method := lit "GET"; r_headers := [(lit "Accept", lit "a"); (lit "date", lit "2")]; r_body := Some (lit body) |}.

(** the hypotheses of C45_partial are met: three identical requests with different answers, another between them,
    replayed later *)
Example C45_example :
  let ign := IgnoreList [lit "DATE"] in
  let cs := [(get "a", inl 1); (get "b", inl 2); (get "a", inl 3); (get "a", inl 4)] in
  let cs' := [(get_later "a", inr tt); (get_later "b", inr tt); (get_later "a", inr tt); (get_later "a", inr tt)] in
  exists reqs os is stored,
    send_all ascii_class demo_sha nat unit true (load ascii_class demo_sha nat ign None [] true) [] (keyed ascii_class demo_sha ign None cs) = (reqs, os, is) /\
    Forall (fun o => exists r, o = Returned r) os /\ os = [Returned 1; Returned 2; Returned 3; Returned 4] /\
    stop nat Some true reqs [] = Some stored /\ length stored = 4 /\
    Forall2 (fun c c' => k_hash (key_of ascii_class demo_sha ign None (fst c)) = k_hash (key_of ascii_class demo_sha ign None (fst c'))) cs cs' /\
    snd (fst (send_all ascii_class demo_sha nat unit false (load ascii_class demo_sha nat ign None (rev stored) false) [] (keyed ascii_class demo_sha ign None cs'))) =
      [Returned 1; Returned 2; Returned 3; Returned 4].
Proof.
  do 4 eexists. split; [vm_compute; reflexivity|]. split; [repeat constructor; eexists; reflexivity|]. split; [reflexivity|]. split; [vm_compute; reflexivity|].
  split; [reflexivity|]. split; [repeat constructor|]. vm_compute. reflexivity.
Qed.

(** a hash that prunes the body, as the documentation of json_to_hash suggests *)
Definition no_body_hash (o : obj) : str :=
  demo_sha {| o_url := o_url o; o_method := o_method o; o_headers := o_headers o; o_body := None; o_order := o_order o |}.

(** C45 with a custom json_to_hash: False. The second of two requests that the hash identifies is given a key by the
    default hash of the whole request; when the pruned part differs in the replay, the snapshot is missing. *)
Theorem C45_refuted : exists (f : obj -> str) cs cs' reqs os is stored,
  (forall a b, same a b -> f a = f b) /\ (forall a b, o_order a = None -> o_order b <> None -> f a <> demo_sha b) /\
  send_all ascii_class demo_sha nat unit true [] [] (keyed ascii_class demo_sha IgnoreAll (Some f) cs) = (reqs, os, is) /\
  os = [Returned 1; Returned 2] /\
  stop nat Some true reqs [] = Some stored /\
  Forall2 (fun c c' => k_hash (key_of ascii_class demo_sha IgnoreAll (Some f) (fst c)) = k_hash (key_of ascii_class demo_sha IgnoreAll (Some f) (fst c'))) cs cs' /\
  snd (fst (send_all ascii_class demo_sha nat unit false (load ascii_class demo_sha nat IgnoreAll (Some f) stored false) [] (keyed ascii_class demo_sha IgnoreAll (Some f) cs'))) =
    [Returned 1; Missing].
Proof.
  exists no_body_hash, [(get "time 1", inl 1); (get "time 2", inl 2)], [(get "time 3", inr tt); (get "time 4", inr tt)]. do 4 eexists.
  split; [intros a b (A & B & _ & D & F); apply demo_sha_same; unfold same; cbn; auto|].
  split; [intros a b O N E; apply demo_sha_inj in E; destruct E as (_ & _ & _ & D & _); cbn in D; congruence|].
  split; [vm_compute; reflexivity|]. split; [reflexivity|]. split; [vm_compute; reflexivity|]. split; [repeat constructor|]. vm_compute. reflexivity.
Qed.
Print Assumptions C45_refuted.

(** the same capture replayed with the same requests meets the hypotheses of C45_custom_hash *)
Example C45_custom_hash_example :
  let cs := [(get "time 1", inl 1); (get "time 2", inl 2)] in
  exists reqs os is stored,
    send_all ascii_class demo_sha nat unit true [] [] (keyed ascii_class demo_sha IgnoreAll (Some no_body_hash) cs) = (reqs, os, is) /\
    stop nat Some true reqs [] = Some stored /\ os = [Returned 1; Returned 2] /\
    snd (fst (send_all ascii_class demo_sha nat unit false (load ascii_class demo_sha nat IgnoreAll (Some no_body_hash) stored false) [] (keyed ascii_class demo_sha IgnoreAll (Some no_body_hash) cs))) =
      [Returned 1; Returned 2].
Proof. do 4 eexists. split; [vm_compute; reflexivity|]. split; [vm_compute; reflexivity|]. split; vm_compute; reflexivity. Qed.

(** a request that raised (a timeout, say) and was retried is not recorded: the replay answers the first, and the
    second is missing *)
Theorem C45_raised_refuted : exists cs reqs is stored,
  send_all ascii_class demo_sha nat unit true [] [] (keyed ascii_class demo_sha IgnoreAll None cs) = (reqs, [Raised tt; Returned 1], is) /\
  stop nat Some true reqs [] = Some stored /\
  snd (fst (send_all ascii_class demo_sha nat unit false (load ascii_class demo_sha nat IgnoreAll None stored false) [] (keyed ascii_class demo_sha IgnoreAll None cs))) =
    [Returned 1; Missing].
Proof.
  exists [(get "a", inr tt); (get "a", inl 1)]. do 3 eexists. split; [vm_compute; reflexivity|]. split; [vm_compute; reflexivity|]. vm_compute. reflexivity.
Qed.
Print Assumptions C45_raised_refuted.

Example C46_example :
  let ign := IgnoreList [lit "DATE"] in
  let cs := [(get "a", inl 1); (get "a", inl 2)] in
  exists reqs os is stored,
    send_all ascii_class demo_sha nat unit true [] [] (keyed ascii_class demo_sha ign None cs) = (reqs, os, is) /\
    stop nat Some false reqs [] = Some stored /\
    map (fun e => o_headers (fst (fst (snd e)))) stored = [Some [(lit "Accept", lit "a")]; Some [(lit "Accept", lit "a")]] /\
    header_ignored ascii_class ign (lit "Date") /\ ~ header_ignored ascii_class ign (lit "Accept").
Proof.
  do 4 eexists. split; [vm_compute; reflexivity|]. split; [vm_compute; reflexivity|]. split; [vm_compute; reflexivity|].
  split; [exists (lit "DATE"); split; [now left|reflexivity]|]. intros (i & [<-|[]] & E). vm_compute in E. discriminate.
Qed.
Example C46_hash_example : k_hash (key_of ascii_class demo_sha (IgnoreList [lit "DATE"]) None (get "a")) = k_hash (key_of ascii_class demo_sha (IgnoreList [lit "DATE"]) None (get_later "a"))
  /\ k_hash (key_of ascii_class demo_sha IgnoreNone None (get "a")) <> k_hash (key_of ascii_class demo_sha IgnoreNone None (get_later "a")).
Proof. split; vm_compute; [reflexivity|discriminate]. Qed.
Example C43_http_example :
  let snaps := [(key_of ascii_class demo_sha IgnoreAll None (get "a"), 1)] in
  snd (fst (send_all ascii_class demo_sha nat unit false snaps [] (keyed ascii_class demo_sha IgnoreAll None [(get "a", inl 5); (get "a", inl 6); (get "b", inl 7)]))) = [Returned 1; Missing; Missing].
Proof. vm_compute. reflexivity. Qed.
