From Verif Require Import PyStrFacts EnvModel.

Lemma set_same e n v : env_set e n v n = v.
Proof. unfold env_set. now rewrite str_eqb_refl. Qed.
Lemma set_other e n v m : m <> n -> env_set e n v m = e m.
Proof. intros H. unfold env_set. apply str_eqb_neq in H. now rewrite H. Qed.

Lemma tget_tput n v d m : tget m (tput n v d) = if str_eqb m n then Some v else tget m d.
Proof.
  induction d as [|[k w] d IH]; cbn [tput tget]; [reflexivity|].
  destruct (str_eqb n k) eqn:E; cbn [tget].
  - apply str_eqb_eq in E. subst k. destruct (str_eqb m n); reflexivity.
  - rewrite IH. destruct (str_eqb m k) eqn:E2; [|reflexivity]. apply str_eqb_eq in E2. subst k.
    destruct (str_eqb m n) eqn:E3; [|reflexivity]. apply str_eqb_eq in E3. subst n.
    rewrite str_eqb_refl in E. discriminate.
Qed.

Lemma tput_fresh n v d : ~ In n (map fst d) -> tput n v d = d ++ [(n, v)].
Proof.
  induction d as [|[k w] d IH]; cbn; intros H; [reflexivity|].
  destruct (str_eqb n k) eqn:E; [apply str_eqb_eq in E; subst; tauto|]. now rewrite IH by tauto.
Qed.

Lemma tget_In n v d : NoDup (map fst d) -> (tget n d = Some v <-> In (n, v) d).
Proof.
  induction d as [|[k w] d IH]; cbn; intros ND; [split; [discriminate|tauto]|].
  inversion ND as [|? ? NI ND']; subst. destruct (str_eqb n k) eqn:E.
  - apply str_eqb_eq in E. subst k. split; [intros [= ->]; now left|].
    intros [[= ->]|H]; [reflexivity|]. destruct NI. apply in_map_iff. now exists (n, v).
  - apply str_eqb_neq in E. rewrite (IH ND'). split; [now right|]. intros [[= -> ->]|H]; [congruence|assumption].
Qed.

Lemma tget_None n d : tget n d = None <-> ~ In n (map fst d).
Proof.
  induction d as [|[k w] d IH]; cbn; [tauto|]. destruct (str_eqb n k) eqn:E.
  - apply str_eqb_eq in E. subst k. split; [discriminate|tauto].
  - apply str_eqb_neq in E. rewrite IH. intuition congruence.
Qed.

Lemma maybe_unset e n m : (match e n with Some _ => env_set e n None | None => e end) m = env_set e n None m.
Proof.
  destruct (e n) eqn:E; [reflexivity|]. unfold env_set. destruct (str_eqb m n) eqn:F; [|reflexivity].
  apply str_eqb_eq in F. now subst.
Qed.

(** ** MockEnv *)

Lemma mock_enter_spec env : forall e old, NoDup (map fst old ++ map fst env) ->
  let (e', old') := mock_enter env e old in
  old' = old ++ map (fun x => (fst x, e (fst x))) env /\
  (forall n v, In (n, v) env -> e' n = v) /\
  (forall n, ~ In n (map fst env) -> e' n = e n).
Proof.
  induction env as [|[n v] env IH]; intros e old ND; cbn [mock_enter].
  - cbn. rewrite app_nil_r. repeat split; intros; tauto.
  - cbn [map fst] in ND. pose proof (NoDup_remove_2 _ _ _ ND) as NI. rewrite in_app_iff in NI.
    rewrite tput_fresh by tauto.
    set (e1 := match v with None => _ | Some x => _ end).
    assert (E1 : forall m, e1 m = env_set e n v m).
    { intros m. unfold e1. destruct v; [reflexivity|]. apply maybe_unset. }
    specialize (IH e1 (old ++ [(n, e n)])).
    destruct (mock_enter env e1 (old ++ [(n, e n)])) as [e' old'].
    destruct IH as (A & B & C).
    { rewrite map_app, <- app_assoc. exact ND. }
    repeat split.
    + rewrite A, <- app_assoc. cbn. f_equal. f_equal. apply map_ext_in. intros [m w] H. cbn. f_equal.
      rewrite E1. apply set_other. intros ->. apply NI. right. apply in_map_iff. now exists (n, w).
    + intros m w [[= <- <-]|H]; [|now apply B]. rewrite C by tauto. rewrite E1. apply set_same.
    + cbn. intros m H. rewrite C by tauto. rewrite E1. apply set_other. intros ->. tauto.
Qed.

Lemma mock_leave_spec old : forall e, NoDup (map fst old) ->
  (forall n v, In (n, v) old -> mock_leave old e n = v) /\
  (forall n, ~ In n (map fst old) -> mock_leave old e n = e n).
Proof.
  induction old as [|[n v] old IH]; intros e ND; cbn [mock_leave map fst]; [split; [intros n v []|reflexivity]|].
  inversion ND as [|? ? NI ND']; subst.
  set (e1 := match v with None => _ | Some x => _ end).
  assert (E1 : forall m, e1 m = env_set e n v m).
  { intros m. unfold e1. destruct v; [reflexivity|]. apply maybe_unset. }
  destruct (IH e1 ND') as [A B]. split.
  - intros m w [[= <- <-]|H]; [|now apply A]. rewrite B by assumption. rewrite E1. apply set_same.
  - cbn. intros m H. rewrite B by tauto. rewrite E1. apply set_other. intros ->. tauto.
Qed.

Lemma mock_block_spec env body e : NoDup (map fst env) ->
  exists inside, mock_block env body e = mock_block env (fun _ => body inside) e /\
  (forall n v, In (n, v) env -> inside n = v) /\
  (forall n, ~ In n (map fst env) -> inside n = e n) /\
  (forall n, In n (map fst env) -> mock_block env body e n = e n) /\
  (forall n, ~ In n (map fst env) -> mock_block env body e n = body inside n).
Proof.
  intros ND. unfold mock_block, mock_start.
  pose proof (mock_enter_spec env e [] ND) as S. destruct (mock_enter env e []) as [e1 old].
  destruct S as (A & B & C). exists e1. cbn [mock_stop]. cbn [app] in A.
  assert (K : map fst old = map fst env) by (rewrite A, map_map; apply map_ext; reflexivity).
  destruct (mock_leave_spec old (body e1)) as [L1 L2]; [now rewrite K|].
  repeat split; trivial.
  - intros n H. apply L1. rewrite A. apply in_map_iff in H. destruct H as ([m v] & <- & H).
    apply in_map_iff. now exists (m, v).
  - intros n H. apply L2. now rewrite K.
Qed.

(** ** SnapshotEnv *)

Lemma snap_leave_spec old : forall e, NoDup (map fst old) ->
  (forall n, In (n, None) old -> e n <> None) ->
  let (e', ok) := snap_leave old e in
  ok = true /\ (forall n v, In (n, v) old -> e' n = v) /\ (forall n, ~ In n (map fst old) -> e' n = e n).
Proof.
  induction old as [|[n v] old IH]; intros e ND H; cbn [snap_leave]; [repeat split; cbn; intros; tauto|].
  cbn [map fst] in ND. inversion ND as [|? ? NI ND']; subst.
  assert (E1 : forall v', (forall m, In (m, None) old -> env_set e n v' m <> None)).
  { intros v' m Hm. rewrite set_other; [apply H; now right|]. intros ->. apply NI. apply in_map_iff. now exists (n, None). }
  assert (G : let (e', ok) := snap_leave old (env_set e n v) in
     ok = true /\ (forall m w, In (m, w) ((n, v) :: old) -> e' m = w) /\ (forall m, ~ In m (map fst ((n, v) :: old)) -> e' m = e m)).
  { specialize (IH (env_set e n v) ND' (E1 v)). destruct (snap_leave old (env_set e n v)) as [e' ok].
    destruct IH as (A & B & C). repeat split; trivial.
    - intros m w [[= <- <-]|Hm]; [|now apply B]. rewrite C by assumption. apply set_same.
    - cbn. intros m Hm. rewrite C by tauto. apply set_other. intros ->. tauto. }
  destruct v as [x|]; [exact G|].
  unfold env_del. destruct (e n) eqn:E; [exact G|]. exfalso. apply (H n); [now left|assumption].
Qed.

(** the value a name has inside the block *)
Definition inner (snapshots : table) (e : environ) (n : str) : option str :=
  match tget n snapshots with Some v => v | None => e n end.

Lemma snap_enter_spec names snapshots capturing : forall e old cap,
  NoDup (map fst old ++ names) -> NoDup (map fst cap ++ names) ->
  (forall n, In n names -> tget n snapshots = None -> capturing = true) ->
  (forall n, In n names -> tget n snapshots = Some None -> e n <> None) ->
  let s := snap_enter names snapshots capturing e old cap in
  s_ok s = true /\
  s_old s = old ++ map (fun n => (n, e n)) names /\
  s_capture s = cap ++ map (fun n => (n, inner snapshots e n)) names /\
  (forall n, In n names -> s_env s n = inner snapshots e n) /\
  (forall n, ~ In n names -> s_env s n = e n).
Proof.
  induction names as [|n names IH]; intros e old cap ND1 ND2 H1 H2; cbn [snap_enter].
  - cbn. rewrite !app_nil_r. repeat split; intros n; tauto.
  - pose proof (NoDup_remove_2 _ _ _ ND1) as NI1. rewrite in_app_iff in NI1.
    pose proof (NoDup_remove_2 _ _ _ ND2) as NI2. rewrite in_app_iff in NI2.
    rewrite (tput_fresh n (e n) old) by tauto.
    assert (G : forall v e1, inner snapshots e n = v -> (forall m, m <> n -> e1 m = e m) -> e1 n = v ->
      let s := snap_enter names snapshots capturing e1 (old ++ [(n, e n)]) (cap ++ [(n, v)]) in
      s_ok s = true /\
      s_old s = old ++ map (fun n => (n, e n)) (n :: names) /\
      s_capture s = cap ++ map (fun n => (n, inner snapshots e n)) (n :: names) /\
      (forall m, In m (n :: names) -> s_env s m = inner snapshots e m) /\
      (forall m, ~ In m (n :: names) -> s_env s m = e m)).
    { intros v e1 Ev E1 E2.
      assert (ne : forall m, In m names -> m <> n) by (intros m Hm ->; tauto).
      assert (IN : forall m, In m names -> inner snapshots e1 m = inner snapshots e m).
      { intros m Hm. unfold inner. destruct (tget m snapshots); [reflexivity|]. apply E1. auto. }
      destruct (IH e1 (old ++ [(n, e n)]) (cap ++ [(n, v)])) as (A & B & C & D & F).
      - rewrite map_app, <- app_assoc. exact ND1.
      - rewrite map_app, <- app_assoc. exact ND2.
      - intros m Hm. apply H1. now right.
      - intros m Hm X. rewrite E1 by auto. apply H2; [now right|assumption].
      - cbn zeta. repeat split; trivial.
        + rewrite B, <- app_assoc. cbn. f_equal. f_equal. apply map_ext_in. intros m Hm. f_equal. apply E1. auto.
        + rewrite C, <- app_assoc. cbn. rewrite Ev. f_equal. f_equal. apply map_ext_in. intros m Hm. f_equal. auto.
        + intros m [<-|Hm]; [|rewrite D by assumption; auto]. rewrite F by tauto. now rewrite E2.
        + intros m Hm. cbn in Hm. rewrite F by tauto. apply E1. intros ->. tauto. }
    destruct (tget n snapshots) as [[v|]|] eqn:T.
    + rewrite tput_fresh by tauto. apply G; [unfold inner; now rewrite T|intros m Hm; now apply set_other|apply set_same].
    + unfold env_del. destruct (e n) eqn:E; [|exfalso; apply (H2 n); [now left|assumption|assumption]].
      rewrite tput_fresh by tauto. apply G; [unfold inner; now rewrite T|intros m Hm; now apply set_other|apply set_same].
    + pose proof (H1 n (or_introl eq_refl) T) as CT. subst capturing. rewrite tput_fresh by tauto.
      apply G; [unfold inner; now rewrite T|reflexivity|reflexivity].
Qed.

Lemma snap_block_spec names file refresh complete body e :
  NoDup names ->
  (forall n, In n names -> tget n (snap_load file refresh) = None -> complete || refresh = true) ->
  (forall n, In n names -> tget n (snap_load file refresh) = Some None -> e n <> None) ->
  let inside := s_env (snap_start names file refresh complete e) in
  (forall n, In n names -> e n = None -> body inside n <> None) ->
  (forall n, In n names -> inside n = inner (snap_load file refresh) e n) /\
  (forall n, ~ In n names -> inside n = e n) /\
  exists e', snap_block names file refresh complete body e =
    (e', true, Some (map (fun n => (n, inner (snap_load file refresh) e n)) names)) /\
  (forall n, In n names -> e' n = e n) /\
  (forall n, ~ In n names -> e' n = body inside n).
Proof.
  intros ND H1 H2 inside H3. unfold snap_block.
  destruct (snap_enter_spec names (snap_load file refresh) (complete || refresh) e [] []) as (A & B & C & D & F); trivial.
  fold (snap_start names file refresh complete e) in A, B, C, D, F. cbn [app] in B, C.
  split; [exact D|]. split; [exact F|]. rewrite A.
  assert (K : map fst (s_old (snap_start names file refresh complete e)) = names).
  { rewrite B, map_map. apply map_id. }
  pose proof (snap_leave_spec (s_old (snap_start names file refresh complete e)) (body inside)) as L.
  fold inside. destruct (snap_leave _ _) as [e' ok]. destruct L as (-> & L1 & L2).
  - now rewrite K.
  - intros n Hn. rewrite B in Hn. apply in_map_iff in Hn. destruct Hn as (m & E & Hm). injection E as -> E. auto.
  - exists e'. rewrite C. split; [reflexivity|]. split.
    + intros n Hn. apply L1. rewrite B. apply in_map_iff. now exists n.
    + intros n Hn. apply L2. now rewrite K.
Qed.

(** ** MockMissingEnv *)

Definition or_else (v w : option str) : option str := match v with Some x => Some x | None => w end.

Lemma missing_enter_spec env : forall e old, NoDup (map fst old ++ map fst env) ->
  (forall n, In (n, None) env -> e n <> None) ->
  exists e', missing_enter env e old = (e', old ++ map (fun x => (fst x, e (fst x))) env, true) /\
  (forall n v, In (n, v) env -> e' n = or_else (e n) v) /\
  (forall n, ~ In n (map fst env) -> e' n = e n).
Proof.
  induction env as [|[n v] env IH]; intros e old ND H; cbn [missing_enter].
  - exists e. cbn. rewrite app_nil_r. repeat split; intros; tauto.
  - cbn [map fst] in ND. pose proof (NoDup_remove_2 _ _ _ ND) as NI. rewrite in_app_iff in NI.
    rewrite tput_fresh by tauto.
    assert (ne : forall m w, In (m, w) env -> m <> n).
    { intros m w Hm ->. apply NI. right. apply in_map_iff. now exists (n, w). }
    assert (G : forall e1, (forall m, m <> n -> e1 m = e m) -> e1 n = or_else (e n) v ->
      exists e', missing_enter env e1 (old ++ [(n, e n)]) = (e', old ++ map (fun x => (fst x, e (fst x))) ((n, v) :: env), true) /\
      (forall m w, In (m, w) ((n, v) :: env) -> e' m = or_else (e m) w) /\
      (forall m, ~ In m (map fst ((n, v) :: env)) -> e' m = e m)).
    { intros e1 E1 E2. destruct (IH e1 (old ++ [(n, e n)])) as (e' & A & B & C).
      - rewrite map_app, <- app_assoc. exact ND.
      - intros m Hm. rewrite E1 by (now apply (ne m None)). apply H. now right.
      - exists e'. split; [|split].
        + rewrite A, <- app_assoc. cbn. do 4 f_equal. apply map_ext_in. intros [m w] Hm. cbn. f_equal. apply E1. now apply (ne m w).
        + intros m w [[= <- <-]|Hm]; [rewrite C by tauto; assumption|]. rewrite (B m w Hm), E1; [reflexivity|now apply (ne m w)].
        + cbn. intros m Hm. rewrite C by tauto. apply E1. intros ->. tauto. }
    destruct (e n) eqn:E.
    + apply G; [reflexivity|exact E].
    + destruct v as [x|]; [|exfalso; apply (H n); [now left|assumption]].
      apply G; [intros m Hm; now apply set_other|apply set_same].
Qed.

Lemma missing_block_spec env body e : NoDup (map fst env) ->
  (forall n, In (n, None) env -> e n <> None) ->
  exists inside,
  (forall n v, In (n, v) env -> inside n = or_else (e n) v) /\
  (forall n, ~ In n (map fst env) -> inside n = e n) /\
  ((forall n, In n (map fst env) -> e n = None -> body inside n <> None) ->
   exists e', missing_block env body e = (e', true) /\
   (forall n, In n (map fst env) -> e' n = e n) /\
   (forall n, ~ In n (map fst env) -> e' n = body inside n)).
Proof.
  intros ND H. unfold missing_block. destruct (missing_enter_spec env e [] ND H) as (e1 & -> & B & C).
  exists e1. split; [exact B|]. split; [exact C|]. intros HB. cbn [app].
  set (old := map (fun x => (fst x, e (fst x))) env).
  assert (K : map fst old = map fst env) by (unfold old; rewrite map_map; apply map_ext; reflexivity).
  pose proof (snap_leave_spec old (body e1)) as L. destruct (snap_leave old (body e1)) as [e' ok].
  destruct L as (-> & L1 & L2); [now rewrite K| |].
  - intros n Hn. unfold old in Hn. apply in_map_iff in Hn. destruct Hn as ([m v] & E & Hm). cbn in E. injection E as -> E.
    apply HB; [|assumption]. apply in_map_iff. now exists (n, v).
  - exists e'. split; [reflexivity|]. split.
    + intros n Hn. apply L1. unfold old. apply in_map_iff in Hn. destruct Hn as ([m v] & <- & Hm).
      apply in_map_iff. now exists (m, v).
    + intros n Hn. apply L2. now rewrite K.
Qed.
