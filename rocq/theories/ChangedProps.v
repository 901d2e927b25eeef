(** C61: what a process gets after one of its own tests changed the object. *)
From Verif Require Import PyStrFacts FsFacts CacheSpec CacheProofs CacheResults CacheIsolation.
From Coq Require Import Lia.

Section Changed.
Context {V : Type}.
Variable dump : V -> str.
Variable load : str -> option V.
Variable out_dir : str.
Notation bin := (bin_path out_dir).
Notation get := (get_result load out_dir).

Definition is_dict (c : cache V) : Prop := exists d, c = CDict d.
(** [c'] is what became of [c]: the entry of [K] is the same or gone; gone only if the cache is no dict *)
Definition follows (K : key) (c c' : cache V) : Prop :=
  good c' /\ (forall u, c_find K c' = Some u -> c_find K c = Some u) /\ (is_dict c -> is_dict c' /\ c_find K c' = c_find K c).
Lemma follows_refl K c : good c -> follows K c c.
Proof. intros G. split; [exact G|]. split; [auto|]. auto. Qed.
Lemma follows_trans K a b c : follows K a b -> follows K b c -> follows K a c.
Proof. intros (A1 & A2 & A3) (B1 & B2 & B3). split; [exact B1|]. split; [auto|]. intros D. destruct (A3 D) as [D1 E1]. destruct (B3 D1) as [D2 E2]. split; [exact D2|congruence]. Qed.
Lemma set_follows K k v c : good c -> K <> Some k -> follows K c (c_set (Some k) v c).
Proof.
  intros G N. destruct (good_set c k v G) as (G' & _ & F). split; [exact G'|]. split; [intros u; now apply F|]. intros [d ->]. cbn [c_set]. split; [now exists (od_set (Some k) v d)|].
  cbn [c_find]. rewrite find_set. destruct (key_eqb (Some k) K) eqn:Q; [apply key_eqb_eq in Q; congruence|reflexivity].
Qed.
Lemma c_get_follows K k c v c' : good c -> c_get k c = Some (v, c') -> c_find k c = Some v -> follows K c c'.
Proof.
  intros G E F. destruct (good_get c k v G F) as (c2 & E2 & G2 & S2). rewrite E in E2. injection E2 as <-. split; [exact G2|]. split; [intros u; now rewrite S2|].
  intros [d ->]. split; [|apply S2]. cbn [c_get] in E. cbn [c_find] in F. rewrite F in E. cbn [option_map] in E. injection E as <-. now exists d.
Qed.
Lemma get_follows K m c f : good c -> (K = Some (bin m) -> c_find K c <> None) ->
  match get m c f with Found _ c' => follows K c c' | Missing c' => follows K c c' | Hang => False end.
Proof.
  intros G P. unfold get_result. rewrite (good_in c (Some (bin m)) G). destruct (c_find (Some (bin m)) c) as [v|] eqn:F.
  - destruct (good_get c _ v G F) as (c' & E & _). rewrite E. exact (c_get_follows K _ c v c' G E F).
  - assert (N : K <> Some (bin m)) by (intros ->; now apply P). destruct (lookup (bin m) f) as [s|]; [|now apply follows_refl]. destruct (load s) as [x|]; [|now apply follows_refl].
    pose proof (set_follows K (bin m) (Some x) c G N) as S. destruct (good_set c (bin m) (Some x) G) as (G' & F' & _).
    destruct (good_get _ _ _ G' F') as (c' & E & _). rewrite E. eapply follows_trans; [exact S|]. exact (c_get_follows K _ _ _ _ G' E F').
Qed.
Lemma find_map k v (d : odict V) K : od_find K (map (fun e : key * pyval V => if key_eqb (fst e) k then (fst e, Some v) else e) d) =
  if key_eqb k K then match od_find K d with Some _ => Some (Some v) | None => None end else od_find K d.
Proof.
  induction d as [|[x u] d IH]; [now destruct (key_eqb k K)|]. cbn [map fst]. destruct (key_eqb x k) eqn:E1.
  - apply key_eqb_eq in E1. subst x. cbn [od_find]. destruct (key_eqb k K); [reflexivity|exact IH].
  - cbn [od_find]. destruct (key_eqb x K) eqn:E2; [|exact IH]. apply key_eqb_eq in E2. subst x. rewrite key_eqb_sym, E1. reflexivity.
Qed.
Lemma map_keys k v (d : odict V) : map fst (map (fun e : key * pyval V => if key_eqb (fst e) k then (fst e, Some v) else e) d) = map fst d.
Proof. rewrite map_map. apply map_ext. intros [x u]. cbn [fst]. now destruct (key_eqb x k). Qed.
Lemma mutate_good k (v : V) (c : cache V) : good c -> good (mutate k v c).
Proof. destruct c as [d|s d|]; cbn [good mutate]; [auto| |auto]. now rewrite map_keys. Qed.
Lemma mutate_find k (v : V) (c : cache V) K : c_find K (mutate k v c) = if key_eqb k K then match c_find K c with Some _ => Some (Some v) | None => None end else c_find K c.
Proof. destruct c as [d|s d|]; cbn [c_find mutate]; [apply find_map|apply find_map|now destruct (key_eqb k K)]. Qed.
Lemma mutate_follows K k (v : V) (c : cache V) : good c -> K <> k -> follows K c (mutate k v c).
Proof.
  intros G N. assert (E : c_find K (mutate k v c) = c_find K c).
  { rewrite mutate_find. destruct (key_eqb k K) eqn:Q; [apply key_eqb_eq in Q; congruence|reflexivity]. }
  split; [now apply mutate_good|]. split; [intros u; now rewrite E|]. intros [d ->]. split; [eexists; reflexivity|exact E].
Qed.

(** what leaves the object of [n] in process [p] alone *)
Definition leaves (p : nat) (n : str) (e : pevent V) : Prop :=
  match e with ERestart q _ => q <> p | ESave q m _ => q = p -> m <> n | EMutate q m _ => q = p -> m <> n | EGet _ _ => True end.

Lemma changed_run (out_ok : dir_name out_dir) es : forall w f p n v', good (w p) -> c_find (Some (bin n)) (w p) = Some (Some v') -> rel_name n -> names_in es rel_name -> Forall (leaves p n) es ->
  (is_dict (w p) \/ forall es1 es2, es = es1 ++ es2 -> c_in (Some (bin n)) (fst (prun dump load out_dir es1 w f) p) = Some true) ->
  let '(w', f') := prun dump load out_dir es w f in exists c, get n (w' p) f' = Found (Some v') c.
Proof.
  induction es as [|e es IH]; intros w f p n v' G F RN NI LV PR; cbn [prun].
  - unfold get_result. rewrite (good_in _ _ G), F. destruct (good_get _ _ _ G F) as (c & -> & _). eauto.
  - inversion LV as [|? ? L1 LV']; subst.
    assert (ST : exists w1 f1 x, pstep dump load out_dir e w f = (x, w1, f1) /\ follows (Some (bin n)) (w p) (w1 p)).
    { destruct e as [q m v|q m|q c|q m v]; cbn [pstep leaves] in *.
      - destruct (save_result dump out_dir m v (w q) f) as [c f1] eqn:S. do 3 eexists. split; [reflexivity|]. unfold upd. destruct (Nat.eqb_spec p q) as [<-|NE]; [|now apply follows_refl].
        unfold save_result in S. assert (c = c_set (Some (bin m)) v (w p)) as -> by congruence. apply set_follows; [exact G|]. intros X. assert (RM : rel_name m) by (apply (NI (ESave p m v)); now left).
        apply (L1 eq_refl). symmetry. apply (bin_inj out_dir out_ok); [exact RN|exact RM|congruence].
      - pose proof (get_follows (Some (bin n)) m (w q) f) as GF. do 3 eexists. split; [reflexivity|]. destruct (Nat.eqb_spec p q) as [<-|NE].
        + specialize (GF G). assert (P : Some (bin n) = Some (bin m) -> c_find (Some (bin n)) (w p) <> None) by congruence. specialize (GF P).
          destruct (get m (w p) f); [rewrite upd_same; exact GF|rewrite upd_same; exact GF|destruct GF].
        + destruct (get m (w q) f); [rewrite upd_other by exact NE; now apply follows_refl|rewrite upd_other by exact NE; now apply follows_refl|now apply follows_refl].
      - do 3 eexists. split; [reflexivity|]. rewrite upd_other by congruence. now apply follows_refl.
      - do 3 eexists. split; [reflexivity|]. unfold upd. destruct (Nat.eqb_spec p q) as [<-|NE]; [|now apply follows_refl].
        apply mutate_follows; [exact G|]. intros X. assert (RM : rel_name m) by (apply (NI (EMutate p m v)); now left).
        apply (L1 eq_refl). symmetry. apply (bin_inj out_dir out_ok); [exact RN|exact RM|congruence]. }
    destruct ST as (w1 & f1 & x & ES & (G1 & S1 & D1)). rewrite ES.
    assert (F1 : c_find (Some (bin n)) (w1 p) = Some (Some v')).
    { destruct PR as [D|PR]; [now rewrite (proj2 (D1 D))|]. specialize (PR [e] es eq_refl). cbn [prun] in PR. rewrite ES in PR. cbn [fst] in PR. rewrite (good_in _ _ G1) in PR.
      destruct (c_find (Some (bin n)) (w1 p)) as [u|] eqn:Q; [|discriminate]. specialize (S1 u eq_refl). congruence. }
    apply IH; auto.
    + intros e' He'. apply NI. now right.
    + destruct PR as [D|PR]; [left; now apply D1|]. right. intros es1 es2 ->. specialize (PR (e :: es1) es2 eq_refl). cbn [prun] in PR. rewrite ES in PR. exact PR.
Qed.
End Changed.

(** From any state: a test of process [p] changes the object of case [n], which is in the cache. Until the process is started anew, or one of its tests stores
    [n] or changes the object again, and as long as the entry stays in the cache (with a dict: always), [p] gets the changed value, whatever was saved. *)
Theorem C61_changed_kept {V : Type} (dump : V -> str) (load : str -> option V) (out_dir : str) (es : list (pevent V)) (w : procs V) (f : fs) (p : nat) (n : str) (v' : V) :
  dir_name out_dir -> rel_name n -> names_in es rel_name -> working (w p) -> c_in (Some (bin_path out_dir n)) (w p) = Some true ->
  Forall (fun e => match e with ERestart q _ => q <> p | ESave q m _ => q = p -> m <> n | EMutate q m _ => q = p -> m <> n | EGet _ _ => True end) es ->
  (exists d, w p = CDict d) \/
    (forall es1 es2, es = es1 ++ es2 -> c_in (Some (bin_path out_dir n)) (fst (prun dump load out_dir (EMutate p n v' :: es1) w f) p) = Some true) ->
  let '(w', f') := prun dump load out_dir (EMutate p n v' :: es) w f in
  exists c, get_result load out_dir n (w' p) f' = Found (Some v') c.
Proof.
  intros OD RN NI W C LV PR. assert (G : good (w p)) by exact W. rewrite (good_in _ _ G) in C. cbn [prun pstep].
  apply changed_run; auto; rewrite ?upd_same.
  - now apply mutate_good.
  - rewrite mutate_find, key_eqb_refl. destruct (c_find (Some (bin_path out_dir n)) (w p)); [reflexivity|discriminate].
  - destruct PR as [[d E]|PR]; [left; rewrite E; eexists; reflexivity|right; exact PR].
Qed.
Print Assumptions C61_changed_kept.

(** an LruCache of size 2; meanwhile another process stores the same case, and [p] a second one *)
Definition after_change : list (pevent str) := [ESave 1 (lit "b") (Some (lit "more")); ESave 2 (lit "a") (Some (lit "newer")); EGet 1 (lit "a")].
Definition before_change : procs str := fun _ => CLru 2 [(Some (bin_path (lit "out") (lit "a")), Some (lit "data"))].
Example C61_changed_ex :
  dir_name (lit "out") /\ rel_name (lit "a") /\ names_in after_change rel_name /\ working (before_change 1) /\
  c_in (Some (bin_path (lit "out") (lit "a"))) (before_change 1) = Some true /\
  Forall (fun e => match e with ERestart q _ => q <> 1 | ESave q m _ => q = 1 -> m <> lit "a" | EMutate q m _ => q = 1 -> m <> lit "a" | EGet _ _ => True end) after_change /\
  (forall es1 es2, after_change = es1 ++ es2 ->
     c_in (Some (bin_path (lit "out") (lit "a"))) (fst (prun (fun x => x) Some (lit "out") (EMutate 1 (lit "a") (lit "changed") :: es1) before_change []) 1) = Some true) /\
  let '(w, f) := prun (fun x => x) Some (lit "out") (EMutate 1 (lit "a") (lit "changed") :: after_change) before_change [] in
  (exists c, get_result Some (lit "out") (lit "a") (w 1) f = Found (Some (lit "changed")) c) /\ lookup (bin_path (lit "out") (lit "a")) f = Some (lit "newer").
Proof.
  split; [split; [discriminate|reflexivity]|]. split; [reflexivity|]. split.
  { intros e [<-|[<-|[<-|[]]]]; reflexivity. }
  split; [split; [repeat constructor|repeat constructor; intros []]|]. split; [vm_compute; reflexivity|]. split.
  { unfold after_change. apply Forall_cons; [intros _; discriminate|]. apply Forall_cons; [discriminate|]. apply Forall_cons; [exact I|apply Forall_nil]. }
  split; [|vm_compute; split; [eexists; reflexivity|reflexivity]].
  unfold after_change. intros [|e1 [|e2 [|e3 [|e4 es1]]]] es2 E; cbn [app] in E; try discriminate E;
    try (assert (e1 = ESave 1 (lit "b") (Some (lit "more"))) as -> by congruence);
    try (assert (e2 = ESave 2 (lit "a") (Some (lit "newer"))) as -> by congruence);
    try (assert (e3 = EGet 1 (lit "a")) as -> by congruence); vm_compute; reflexivity.
Qed.

Lemma dsim_absent {V : Type} (P Q : key -> Prop) K (d d' : odict V) : (forall k, Q k -> k = K) -> od_in K d = false -> dsim P d d' -> dsim Q d d'.
Proof.
  intros QK. unfold od_in. intros A H. induction H as [|[x u] [x' u'] d d' [E S] H IH]; [constructor|]. cbn [od_find] in A. destruct (key_eqb x K) eqn:Q1; [discriminate|].
  constructor; [|now apply IH]. split; [exact E|]. cbn [fst]. intros Qx. apply QK in Qx. subst x. rewrite key_eqb_refl in Q1. discriminate.
Qed.
Lemma csim_absent {V : Type} (P Q : key -> Prop) K (c c' : cache V) : (forall k, Q k -> k = K) -> c_in K c = Some false -> csim P c c' -> csim Q c c'.
Proof.
  intros QK A. destruct c as [d|s d|], c' as [d'|s' d'|]; cbn [csim c_in] in *; try contradiction; auto.
  - apply (dsim_absent P Q K); [exact QK|congruence].
  - intros [-> H]. split; [reflexivity|]. revert H. apply (dsim_absent P Q K); [exact QK|congruence].
Qed.

(** Whatever tests changed before: once the case is not in the cache of [p] (the entry left an LruCache, or the process was started anew),
    [p] gets the saved value again, until one of its tests changes the object again. *)
Theorem C61_evicted {V : Type} (dump : V -> str) (load : str -> option V) (out_dir : str) (a b : list (pevent V)) (w0 : procs V) (f0 : fs) (p : nat) (n : str) (v : V) :
  (forall v, load (dump v) = Some v) -> dir_name out_dir ->
  (forall p, empty_cache (w0 p)) -> (forall n, rel_name n -> lookup (bin_path out_dir n) f0 = None) ->
  (forall q c, In (ERestart q c) (a ++ b) -> empty_cache c) -> names_in (a ++ b) rel_name -> rel_name n ->
  coherent (a ++ b) -> last_saved (a ++ b) n (Some v) ->
  c_in (Some (bin_path out_dir n)) (fst (prun dump load out_dir a w0 f0) p) = Some false -> (forall v', ~ In (EMutate p n v') b) ->
  let '(w, f) := prun dump load out_dir (a ++ b) w0 f0 in
  exists c, get_result load out_dir n (w p) f = Found (Some v) c.
Proof.
  intros RT DIR W0 F0 RS NI Rn CO LS AB NM.
  pose proof (get_last dump load out_dir RT DIR (filter unchanging (a ++ b)) w0 f0 p n W0 F0) as G. destruct G as (G & _ & _).
  { apply Forall_forall. intros e Ie. apply filter_In in Ie as [Ie U]. destruct e; try exact I; [exact (RS _ _ Ie)|discriminate]. }
  { now apply coherent_filter. }
  { intros e I. apply filter_In in I as [I _]. now apply NI. }
  { exact Rn. }
  specialize (G v (last_saved_filter (a ++ b) n (Some v) LS)).
  set (S := fun (q : nat) (k : key) => q = p /\ k = Some (bin_path out_dir n)).
  assert (SIM : let '(w1, f1) := prun dump load out_dir (a ++ b) w0 f0 in
    let '(w2, f2) := prun dump load out_dir (filter unchanging (a ++ b)) w0 f0 in wsim S w1 w2 /\ f1 = f2).
  { rewrite filter_app, !prun_app. pose proof (run_sim dump load out_dir (fun _ _ => False) a (fun _ _ _ _ Z => Z) w0 w0 f0 (fun q => csim_refl _ _)) as A.
    destruct (prun dump load out_dir a w0 f0) as [w1 f1]. destruct (prun dump load out_dir (filter unchanging a) w0 f0) as [w2 f2]. destruct A as [A <-]. cbn [fst] in AB.
    apply run_sim.
    - intros q m v' I [-> E]. injection E as E. assert (Rm : rel_name m) by (apply (NI (EMutate p m v')); apply in_or_app; now right).
      apply (bin_inj out_dir DIR) in E; [|exact Rm|exact Rn]. subst m. now apply (NM v').
    - intros q. specialize (A q). destruct (Nat.eq_dec q p) as [EQ|NE].
      + rewrite EQ in *. apply (csim_absent (fun _ => False) (S p) (Some (bin_path out_dir n))); [intros k [_ Z]; exact Z|exact AB|exact A].
      + unfold csim in *. destruct (w1 q) as [d|k d|], (w2 q) as [d'|k' d'|]; try contradiction; auto.
        * apply (dsim_weaken (fun _ => False)); [|exact A]. intros k [Z _]. contradiction.
        * destruct A as [-> A]. split; [reflexivity|]. apply (dsim_weaken (fun _ => False)); [|exact A]. intros j [Z _]. contradiction. }
  destruct (prun dump load out_dir (a ++ b) w0 f0) as [w1 f1]. destruct (prun dump load out_dir (filter unchanging (a ++ b)) w0 f0) as [w2 f2].
  cbn [fst snd] in G.   destruct SIM as [SIM <-]. destruct G as [c' G]. pose proof (get_sim load out_dir (S p) n (w1 p) (w2 p) f1 (SIM p)) as X. rewrite G in X.
  destruct (get_result load out_dir n (w1 p) f1) as [x c|c|]; try contradiction. destruct X as [X _]. rewrite X by (now split). now exists c.
Qed.
Print Assumptions C61_evicted.

(** an LruCache of size 1: the case [b] drives the changed [a] out *)
Definition until_evicted : list (pevent str) := [ESave 1 (lit "a") (Some (lit "data")); EMutate 1 (lit "a") (lit "changed"); ESave 1 (lit "b") (Some (lit "more"))].
Example C61_evicted_ex :
  let es := until_evicted ++ [EGet 1 (lit "a")] in
  names_in es rel_name /\ coherent es /\ last_saved es (lit "a") (Some (lit "data")) /\
  c_in (Some (bin_path (lit "out") (lit "a"))) (fst (prun (fun x => x) Some (lit "out") until_evicted (fun _ => CLru 1 []) []) 1) = Some false /\
  let '(w, f) := prun (fun x => x) Some (lit "out") es (fun _ => CLru 1 []) [] in exists c, get_result Some (lit "out") (lit "a") (w 1) f = Found (Some (lit "data")) c.
Proof.
  split; [intros e [<-|[<-|[<-|[<-|[]]]]]; reflexivity|]. split.
  { apply stored_first_coherent. vm_compute. repeat split; intuition congruence. }
  split; [|split; [vm_compute; reflexivity|vm_compute; eexists; reflexivity]].
  exists [], 1, [EMutate 1 (lit "a") (lit "changed"); ESave 1 (lit "b") (Some (lit "more")); EGet 1 (lit "a")]. split; [reflexivity|].
  intros q v' [E|[E|[E|[]]]]; discriminate E.
Qed.

(** From any state, with whatever changes before: a test of [p] stores [n]. In the same circumstances as in [C61_changed_kept], [p] gets what was stored. *)
Theorem C61_stored_kept {V : Type} (dump : V -> str) (load : str -> option V) (out_dir : str) (es : list (pevent V)) (w : procs V) (f : fs) (p : nat) (n : str) (v : V) :
  dir_name out_dir -> rel_name n -> names_in es rel_name -> working (w p) ->
  Forall (fun e => match e with ERestart q _ => q <> p | ESave q m _ => q = p -> m <> n | EMutate q m _ => q = p -> m <> n | EGet _ _ => True end) es ->
  (exists d, w p = CDict d) \/
    (forall es1 es2, es = es1 ++ es2 -> c_in (Some (bin_path out_dir n)) (fst (prun dump load out_dir (ESave p n (Some v) :: es1) w f) p) = Some true) ->
  let '(w', f') := prun dump load out_dir (ESave p n (Some v) :: es) w f in
  exists c, get_result load out_dir n (w' p) f' = Found (Some v) c.
Proof.
  intros OD RN NI W LV PR. assert (G : good (w p)) by exact W. destruct (good_set (w p) (bin_path out_dir n) (Some v) G) as (G' & F' & _).
  cbn [prun pstep]. unfold save_result. apply changed_run; auto; rewrite ?upd_same; auto.
  destruct PR as [[d E]|PR]; [left; rewrite E; eexists; reflexivity|right; exact PR].
Qed.
Print Assumptions C61_stored_kept.

(** a changed object is replaced by the value stored again *)
Example C61_stored_ex :
  let w : procs str := fun _ => CDict [(Some (bin_path (lit "out") (lit "a")), Some (lit "changed"))] in
  names_in after_change rel_name /\ working (w 1) /\ (exists d, w 1 = CDict d) /\
  Forall (fun e => match e with ERestart q _ => q <> 1 | ESave q m _ => q = 1 -> m <> lit "a" | EMutate q m _ => q = 1 -> m <> lit "a" | EGet _ _ => True end) after_change /\
  let '(w', f) := prun (fun x => x) Some (lit "out") (ESave 1 (lit "a") (Some (lit "again")) :: after_change) w [] in
  (exists c, get_result Some (lit "out") (lit "a") (w' 1) f = Found (Some (lit "again")) c) /\ lookup (bin_path (lit "out") (lit "a")) f = Some (lit "newer").
Proof.
  cbv zeta. split; [intros e [<-|[<-|[<-|[]]]]; reflexivity|]. split; [exact I|]. split; [eexists; reflexivity|]. split; [apply C61_changed_ex|].
  vm_compute. split; [eexists; reflexivity|reflexivity].
Qed.
