(** C105: what a recorded function returned is what its replay returns. *)
From Verif Require Import PyStrFacts FuncModel FuncHeapModel.
From Coq Require Import Permutation Lia.

(** what the last call with the key [h] returned *)
Fixpoint last_seen {V X} (h : str) (seen : list (str * outcome V X)) : option (outcome V X) :=
  match seen with
  | [] => None
  | (k, o) :: r => match last_seen h r with Some p => Some p | None => if str_eqb k h then Some o else None end
  end.
Lemma last_seen_app {V X} h (a b : list (str * outcome V X)) : last_seen h (a ++ b) = match last_seen h b with Some o => Some o | None => last_seen h a end.
Proof. induction a as [|[k o] a IH]; cbn [app last_seen]; [now destruct (last_seen h b)|]. rewrite IH. now destruct (last_seen h b). Qed.

Section Run.
  Context {V X : Type}.
  Notation heap := (heap V).
  Notation action := (action V X).

  Lemma run_app capture loaded (a b : list action) : forall m calls,
    heap_run V X capture loaded m calls (a ++ b) =
      (let '(m1, c1, s1) := heap_run V X capture loaded m calls a in
       let '(m2, c2, s2) := heap_run V X capture loaded m1 c1 b in (m2, c2, s1 ++ s2)).
  Proof.
    induction a as [|x a IH]; intros m calls; cbn [app heap_run].
    - now destruct (heap_run V X capture loaded m calls b) as [[? ?] ?].
    - destruct (heap_step V X capture loaded m calls x) as [[m1 c1] s1]. rewrite IH.
      destruct (heap_run V X capture loaded m1 c1 a) as [[m2 c2] s2]. destruct (heap_run V X capture loaded m2 c2 b) as [[m3 c3] s3]. now rewrite app_assoc.
  Qed.

  Lemma obj_of_snoc h k (l : nat) (c : objs) : obj_of h (c ++ [(k, l)]) = match obj_of h c with Some x => Some x | None => if str_eqb k h then Some l else None end.
  Proof. induction c as [|[j x] c IH]; cbn [app obj_of]; [reflexivity|]. destruct (str_eqb j h); [reflexivity|exact IH]. Qed.
  Lemma obj_of_filter h k (c : objs) : obj_of h (filter (fun e => negb (str_eqb (fst e) k)) c) = if str_eqb k h then None else obj_of h c.
  Proof.
    induction c as [|[j x] c IH]; cbn [filter obj_of fst]; [now destruct (str_eqb k h)|].
    destruct (str_eqb_spec j k) as [->|N]; cbn [negb].
    - rewrite IH. destruct (str_eqb_spec k h) as [->|]; reflexivity.
    - cbn [obj_of]. rewrite IH. destruct (str_eqb_spec j h) as [->|]; [|reflexivity]. rewrite (proj2 (str_eqb_neq k h)) by congruence. reflexivity.
  Qed.
  Lemma obj_of_in h l (c : objs) : obj_of h c = Some l -> In (h, l) c.
  Proof. induction c as [|[j x] c IH]; cbn [obj_of]; [discriminate|]. destruct (str_eqb_spec j h) as [->|]; [intros [= ->]; now left|right; now apply IH]. Qed.
  Lemma nodup_filter k (c : objs) : NoDup (map fst c) -> NoDup (map fst (filter (fun e => negb (str_eqb (fst e) k)) c)).
  Proof.
    induction c as [|[j x] c IH]; intros ND; [constructor|]. cbn [map fst] in ND. inversion ND as [|? ? NI ND']; subst. cbn [filter fst].
    destruct (str_eqb j k); cbn [negb]; [now apply IH|]. cbn [map fst]. constructor; [|now apply IH]. intros I. apply NI. apply in_map_iff in I as (e & E & I). apply filter_In in I as [I _].
    rewrite <- E. now apply in_map.
  Qed.
  Lemma obj_of_some h (c : objs) : In h (map fst c) -> exists l, obj_of h c = Some l.
  Proof. induction c as [|[j x] c IH]; cbn [map fst In obj_of]; [intros []|]. intros [->|I]; [rewrite str_eqb_refl; eauto|]. destruct (str_eqb j h); eauto. Qed.

  (** a capture without recordings: the object kept for a key is the one that the last call returned *)
  Lemma capture_last (acts : list action) : forall m0 m1 calls seen, heap_run V X true [] m0 [] acts = (m1, calls, seen) ->
    (forall a b ma ca sa, acts = a ++ b -> heap_run V X true [] m0 [] a = (ma, ca, sa) -> forall h l, In (h, l) ca -> m1 l = ma l) ->
    Forall (fun s => exists v, snd s = Returned v) seen ->
    NoDup (map fst calls) /\ forall h, last_seen h seen = option_map (fun l => Returned (m1 l)) (obj_of h calls).
  Proof.
    intros m0 m1 calls seen E ST HR.
    assert (G : forall a b ma ca sa, acts = a ++ b -> heap_run V X true [] m0 [] a = (ma, ca, sa) ->
      NoDup (map fst ca) /\ forall h, last_seen h sa = option_map (fun l => Returned (m1 l)) (obj_of h ca)).
    { induction a as [|x a IH] using rev_ind; intros b ma ca sa EA R.
      - cbn [heap_run] in R. injection R as <- <- <-. split; [constructor|reflexivity].
      - rewrite <- app_assoc in EA. rewrite run_app in R. destruct (heap_run V X true [] m0 [] a) as [[mb cb] sb] eqn:RA.
        destruct (IH _ _ _ _ EA eq_refl) as [ND LS]. cbn [heap_run] in R. destruct (heap_step V X true [] mb cb x) as [[mc cx] sx] eqn:SX. injection R as <- <- <-. rewrite app_nil_r.
        assert (RX : heap_run V X true [] m0 [] (a ++ [x]) = (mc, cx, sb ++ sx)) by (rewrite run_app, RA; cbn [heap_run]; rewrite SX, app_nil_r; reflexivity).
        assert (SEEN : Forall (fun s => exists v, snd s = Returned v) (sb ++ sx)).
        { rewrite EA in E. change (a ++ [x] ++ b) with (a ++ ([x] ++ b)) in E. rewrite app_assoc, run_app, RX in E. destruct (heap_run V X true [] mc cx b) as [[? ?] ?]. injection E as _ _ <-. apply Forall_app in HR. tauto. }
        destruct x as [h real|eff]; cbn [heap_step rev obj_of] in SX.
        + destruct (real mb) as [m' [l|e]] eqn:RE.
          2:{ injection SX as _ _ <-. apply Forall_app in SEEN as [_ S]. apply Forall_inv in S. destruct S as [v S]. discriminate S. }
          injection SX as <- <- <-. split.
          * rewrite map_app. apply (Permutation_NoDup (l := h :: map fst (filter (fun e => negb (str_eqb (fst e) h)) cb))); [apply Permutation_cons_append|].
            constructor; [|now apply nodup_filter]. intros I. apply in_map_iff in I as (e & EH & I). apply filter_In in I as [_ I]. rewrite EH, str_eqb_refl in I. discriminate.
          * intros k. rewrite last_seen_app, obj_of_snoc, obj_of_filter. cbn [last_seen]. destruct (str_eqb_spec h k) as [->|N].
            -- cbn [option_map]. rewrite (ST _ b _ _ _ ltac:(rewrite <- app_assoc; exact EA) RX k l) by (apply in_or_app; right; now left). reflexivity.
            -- rewrite LS. now destruct (obj_of k cb).
        + injection SX as <- <- <-. rewrite app_nil_r. auto. }
    exact (G acts [] m1 calls seen ltac:(now rewrite app_nil_r) E).
  Qed.

  Lemma store_in to_json m : forall calls files, heap_store V to_json m calls = Some files ->
    map fst files = map fst calls /\ forall h l, In (h, l) calls -> exists w, to_json (m l) = Some w /\ In (h, w) files.
  Proof.
    induction calls as [|[k x] c IH]; intros files E; cbn [heap_store] in E.
    - injection E as <-. split; [reflexivity|]. intros h l [].
    - destruct (to_json (m x)) as [w|] eqn:J; [|discriminate]. destruct (heap_store V to_json m c) as [fs|]; [|discriminate]. injection E as <-.
      destruct (IH _ eq_refl) as [A B]. split; [cbn [map fst]; now rewrite A|]. intros h l [[= -> ->]|I]; [exists w; split; [exact J|now left]|].
      destruct (B h l I) as (u & U & I'). exists u. split; [exact U|now right].
  Qed.
End Run.

(** If the objects that the recorded functions returned are, at the end of the capture, as they were when they were recorded, and in
    the replay nothing changes the objects that were read from the files, then every call of the replay sees what the last call
    with the same key saw in the capture, after JSON. *)
Theorem C105_replay_partial (V X : Type) (to_json : V -> option V) (acts acts' : list (action V X)) (m0 m1 m0' m1' : nat -> V) calls calls' seen seen' files loaded :
  heap_run V X true [] m0 [] acts = (m1, calls, seen) -> Forall (fun s => exists v, snd s = Returned v) seen ->
  (forall a b ma ca sa, acts = a ++ b -> heap_run V X true [] m0 [] a = (ma, ca, sa) -> forall h l, In (h, l) ca -> m1 l = ma l) ->
  heap_store V to_json m1 calls = Some files ->
  Permutation files (map (fun e => (fst e, m0' (snd e))) loaded) ->
  heap_run V X false loaded m0' [] acts' = (m1', calls', seen') ->
  (forall a b ma ca sa, acts' = a ++ b -> heap_run V X false loaded m0' [] a = (ma, ca, sa) -> forall h l, In (h, l) loaded -> ma l = m0' l) ->
  forall h o, In (h, o) seen' ->
    match last_seen h seen with
    | Some (Returned v) => exists w, to_json v = Some w /\ o = Returned w
    | _ => o = Missing
    end.
Proof.
  intros E HR ST SF PF E' ST' h o I.
  destruct (capture_last acts m0 m1 calls seen E ST HR) as [ND LS]. destruct (store_in to_json m1 calls files SF) as [FK FI].
  assert (NDL : NoDup (map fst loaded)).
  { apply (Permutation_map fst) in PF. rewrite map_map in PF. cbn [fst] in PF. apply (Permutation_NoDup PF). rewrite FK. exact ND. }
  assert (KEY : forall k, obj_of k (rev loaded) = None <-> ~ In k (map fst calls)).
  { intros k. assert (P : forall k, In k (map fst (rev loaded)) <-> In k (map fst calls)).
    { intros j. rewrite map_rev, <- in_rev, <- FK. apply (Permutation_map fst) in PF. rewrite map_map in PF. cbn [fst] in PF. split; apply Permutation_in; [now symmetry|exact PF]. }
    split.
    - intros N C. apply P in C. destruct (obj_of_some _ _ C) as [l L]. congruence.
    - intros N. destruct (obj_of k (rev loaded)) as [l|] eqn:O; [|reflexivity]. exfalso. apply N, P. apply obj_of_in in O. now apply (in_map fst) in O. }
  (* every outcome of the replay comes from a step *)
  assert (G : forall a b ma ca sa, acts' = a ++ b -> heap_run V X false loaded m0' [] a = (ma, ca, sa) -> In (h, o) sa ->
     match obj_of h (rev loaded) with Some l => o = Returned (m0' l) | None => o = Missing end).
  { induction a as [|x a IH] using rev_ind; intros b ma ca sa EA R J.
    - cbn [heap_run] in R. injection R as _ _ <-. destruct J.
    - rewrite <- app_assoc in EA. rewrite run_app in R. destruct (heap_run V X false loaded m0' [] a) as [[mb cb] sb] eqn:RA. cbn [heap_run] in R.
      destruct (heap_step V X false loaded mb cb x) as [[mc cx] sx] eqn:SX. injection R as _ _ <-. rewrite app_nil_r in J. apply in_app_iff in J as [J|J]; [now apply (IH _ _ _ _ EA eq_refl)|].
      destruct x as [k real|eff]; cbn [heap_step] in SX; [|injection SX as _ _ <-; destruct J].
      destruct (obj_of k (rev loaded)) as [l|] eqn:O.
      + injection SX as _ _ <-. destruct J as [[= -> <-]|[]]. rewrite O. f_equal. apply obj_of_in in O. apply in_rev in O. exact (ST' a _ _ _ _ EA RA h l O).
      + injection SX as _ _ <-. destruct J as [[= -> <-]|[]]. rewrite O. reflexivity. }
  specialize (G acts' [] m1' calls' seen' ltac:(now rewrite app_nil_r) E' I). rewrite LS.
  destruct (obj_of h calls) as [l|] eqn:OC; cbn [option_map].
  - apply obj_of_in in OC. destruct (FI h l OC) as (w & W & IW). exists w. split; [exact W|].
    destruct (obj_of h (rev loaded)) as [l'|] eqn:OL.
    + rewrite G. f_equal. apply obj_of_in in OL. apply in_rev in OL. apply (Permutation_in _ PF) in IW. apply in_map_iff in IW as ([k x] & EX & IX). cbn [fst snd] in EX. injection EX as -> <-.
      clear - NDL OL IX. induction loaded as [|[j y] l IH]; [destruct OL|]. cbn [map fst] in NDL. inversion NDL as [|? ? NI ND']; subst.
      destruct OL as [[= -> ->]|OL], IX as [[= EQ]|IX]; subst; try reflexivity; [|exfalso|].
      * exfalso. apply NI. now apply (in_map fst) in IX.
      * apply NI. now apply (in_map fst) in OL.
      * now apply IH.
    + exfalso. apply KEY in OL. apply OL. now apply (in_map fst) in OC.
  - assert (N : ~ In h (map fst calls)) by (intros C; destruct (obj_of_some _ _ C); congruence). apply KEY in N. rewrite N in G. exact G.
Qed.
Print Assumptions C105_replay_partial.

(** False when the test changes what it was given: the function returns [1], the test appends 2 to it, and what is recorded and
    returned in the replay is [1; 2]. Also false when only the replay is affected: two calls with one key share an object, so the
    second sees what the test did to the first. *)
Definition demo_put (l : nat) (v : list nat) (m : nat -> list nat) : nat -> list nat := fun x => if x =? l then v else m x.
Theorem C105_replay_refuted :
  (exists (acts : list (action (list nat) unit)) m0 m1 calls files m0' loaded,
    heap_run (list nat) unit true [] m0 [] acts = (m1, calls, [(lit "f", Returned [1])]) /\
    heap_store (list nat) Some m1 calls = Some files /\ files = map (fun e => (fst e, m0' (snd e))) loaded /\
    snd (heap_run (list nat) unit false loaded m0' [] acts) = [(lit "f", Returned [1; 2])]) /\
  (exists (acts : list (action (list nat) unit)) m0 m1 calls files m0' loaded,
    heap_run (list nat) unit true [] m0 [] acts = (m1, calls, [(lit "f", Returned [1]); (lit "f", Returned [1])]) /\
    heap_store (list nat) Some m1 calls = Some files /\ files = map (fun e => (fst e, m0' (snd e))) loaded /\ files = [(lit "f", [1])] /\
    snd (heap_run (list nat) unit false loaded m0' [] acts) = [(lit "f", Returned [1]); (lit "f", Returned [1; 2])]).
Proof.
  split.
  - exists [Call (lit "f") (fun m => (demo_put 0 [1] m, inl 0)); Change (fun m => demo_put 0 (m 0 ++ [2]) m)], (fun _ => []). do 3 eexists. exists (fun _ => [1; 2]), [(lit "f", 0)].
    split; [reflexivity|]. split; [vm_compute; reflexivity|]. split; [reflexivity|]. vm_compute. reflexivity.
  - exists [Call (lit "f") (fun m => (demo_put 0 [1] m, inl 0)); Change (fun m => demo_put 0 (m 0 ++ [2]) m); Call (lit "f") (fun m => (demo_put 1 [1] m, inl 1))], (fun _ => []). do 3 eexists.
    exists (fun _ => [1]), [(lit "f", 0)]. split; [reflexivity|]. split; [vm_compute; reflexivity|]. split; [reflexivity|]. split; [reflexivity|]. vm_compute. reflexivity.
Qed.
Print Assumptions C105_replay_refuted.

(** In a replay, recorded or not, no call changes an object: the contents at the end are what the rest of the test made of them. *)
Theorem C105_functions_do_not_run (V X : Type) loaded (acts : list (action V X)) : forall m calls m' calls' seen,
  heap_run V X false loaded m calls acts = (m', calls', seen) ->
  m' = fold_left (fun m a => match a with Change effect => effect m | Call _ _ => m end) acts m.
Proof.
  induction acts as [|a acts IH]; intros m calls m' calls' seen; cbn [heap_run]; [now intros [= <- <- <-]|].
  destruct (heap_step V X false loaded m calls a) as [[m1 c1] s1] eqn:ES. destruct (heap_run V X false loaded m1 c1 acts) as [[m2 c2] s2] eqn:ER. intros [= <- <- <-].
  cbn [fold_left]. rewrite (IH _ _ _ _ _ ER). f_equal. destruct a as [h real|effect]; cbn [heap_step] in ES; [|now injection ES as <- _ _].
  destruct (obj_of h (rev loaded)); now injection ES as <- _ _.
Qed.
Print Assumptions C105_functions_do_not_run.

(** the hypotheses can be met: two calls with one key and one with another, and a change of an object of the test in between *)
Example C105_example :
  let acts : list (action (list nat) unit) :=
    [Call (lit "f") (fun m => (demo_put 0 [1] m, inl 0)); Change (demo_put 9 [5]); Call (lit "g") (fun m => (demo_put 1 [2] m, inl 1)); Call (lit "f") (fun m => (demo_put 2 [3] m, inl 2))] in
  exists m1 calls seen files,
    heap_run (list nat) unit true [] (fun _ => []) [] acts = (m1, calls, seen) /\ Forall (fun s => exists v, snd s = Returned v) seen /\
    (forall a b ma ca sa, acts = a ++ b -> heap_run (list nat) unit true [] (fun _ => []) [] a = (ma, ca, sa) -> forall h l, In (h, l) ca -> m1 l = ma l) /\
    heap_store (list nat) Some m1 calls = Some files /\
    (let m0' := fun x => nth x [[2]; [3]] [] in let loaded := [(lit "g", 0); (lit "f", 1)] in
     Permutation files (map (fun e => (fst e, m0' (snd e))) loaded) /\
     snd (heap_run (list nat) unit false loaded m0' [] acts) = [(lit "f", Returned [3]); (lit "g", Returned [2]); (lit "f", Returned [3])]).
Proof.
  do 4 eexists. split; [reflexivity|]. split; [repeat constructor; eexists; reflexivity|]. split; [|split; [vm_compute; reflexivity|split; [reflexivity|vm_compute; reflexivity]]].
  intros a b ma ca sa E R h l I.
  destruct a as [|? [|? [|? [|? [|? a]]]]]; cbn [app] in E; try discriminate E;
    try (injection E; clear E; intros; subst); vm_compute in R; injection R; clear R; intros; subst; cbn [In] in I;
    repeat match goal with H : _ \/ _ |- _ => destruct H | H : False |- _ => destruct H | H : (_, _) = (_, _) |- _ => injection H; clear H; intros; subst end; reflexivity.
Qed.
