(** C33: exactly who gets the value of a test that returned None. *)
From Verif Require Import PyStrFacts FsFacts CacheSpec CacheProofs CacheResults.
From Coq Require Import Lia.

Section Kept.
  Context {V : Type}.
  Implicit Types (d : odict V) (K : key -> Prop).
  Variable nk : key.
  (** the entry is there, and everything after it is [K] *)
  Definition kept (K : key -> Prop) d : Prop :=
    NoDup (map fst d) /\ exists pre post, d = pre ++ (nk, None) :: post /\ Forall (fun e => K (fst e)) post.
  Definition full (K : key -> Prop) (s : nat) : Prop := exists l, NoDup l /\ s <= length l /\ Forall K l.
  Lemma kept_weaken (K K' : key -> Prop) d : (forall k, K k -> K' k) -> kept K d -> kept K' d.
  Proof. intros H (N & pre & post & E & F). split; [exact N|]. exists pre, post. split; [exact E|]. revert F. apply Forall_impl. intros e. apply H. Qed.
  Lemma full_weaken (K K' : key -> Prop) s : (forall k, K k -> K' k) -> full K s -> full K' s.
  Proof. intros H (l & N & L & F). exists l. split; [exact N|]. split; [exact L|]. revert F. apply Forall_impl, H. Qed.
  Lemma kept_find K d : kept K d -> od_find nk d = Some None.
  Proof.
    intros (N & pre & post & -> & _). rewrite find_app. destruct (od_find nk pre) as [v|] eqn:E; [|cbn [od_find]; now rewrite key_eqb_refl].
    exfalso. rewrite map_app in N. cbn [map fst] in N. apply NoDup_remove_2 in N. apply N, in_or_app. left. apply find_In. unfold od_in. now rewrite E.
  Qed.
  Lemma del_app k (a b : odict V) : od_del k (a ++ b) = od_del k a ++ od_del k b.
  Proof. apply filter_app. Qed.
  Lemma kept_del_put K k v d : k <> nk -> K k -> kept K d -> kept K (od_del k d ++ [(k, v)]).
  Proof.
    intros NK HK (N & pre & post & -> & F). split.
    - rewrite map_app, keys_del. cbn [map fst]. apply NoDup_snoc_iff. split; [now apply NoDup_filter|]. intros I. apply filter_In in I as [_ I]. now rewrite key_eqb_refl in I.
    - exists (od_del k pre), (od_del k post ++ [(k, v)]). split.
      + rewrite del_app. unfold od_del at 2. cbn [filter fst]. destruct (key_eqb nk k) eqn:E; [apply key_eqb_eq in E; congruence|]. cbn [negb]. now rewrite <- app_assoc.
      + apply Forall_app. split; [|constructor; [exact HK|constructor]]. apply Forall_forall. intros e I. apply filter_In in I as [I _]. rewrite Forall_forall in F. now apply F.
  Qed.
  Lemma del_set k v d : od_del k (od_set k v d) = od_del k d.
  Proof.
    induction d as [|[x w] d IH]; cbn [od_set od_del filter fst]; [now rewrite key_eqb_refl|].
    destruct (key_eqb x k) eqn:E; unfold od_del; cbn [filter fst]; rewrite E; cbn [negb]; [reflexivity|]. f_equal. exact IH.
  Qed.
  Lemma kept_move K k d : (k <> nk -> K k) -> kept K d -> kept K (od_move_to_end k d).
  Proof.
    intros HK H. unfold od_move_to_end. destruct (od_find k d) as [v|] eqn:E; [|exact H].
    destruct (key_eqb k nk) eqn:Q; [apply key_eqb_eq in Q; subst k|apply key_eqb_neq in Q; apply kept_del_put; auto].
    rewrite (kept_find K d H) in E. injection E as <-. destruct H as (N & _). split; [|exists (od_del nk d), []; split; [reflexivity|constructor]].
    rewrite map_app, keys_del. cbn [map fst]. apply NoDup_snoc_iff. split; [now apply NoDup_filter|]. intros I. apply filter_In in I as [_ I]. now rewrite key_eqb_refl in I.
  Qed.
  Lemma kept_get K k d : (k <> nk -> K k) -> kept K d -> kept K (snd (lru_get k d)).
  Proof. intros HK H. unfold lru_get. destruct (od_in k d); [|exact H]. cbn [snd]. now apply kept_move. Qed.
  Lemma kept_set K s k v d : Some k <> nk -> K (Some k) -> kept K d -> kept K (lru_set s (Some k) v d) \/ full K s.
  Proof.
    intros NK HK H. unfold lru_set.
    assert (E : od_move_to_end (Some k) (od_set (Some k) v d) = od_del (Some k) d ++ [(Some k, v)]) by (unfold od_move_to_end; rewrite find_set, key_eqb_refl; now rewrite del_set).
    pose proof (kept_del_put K (Some k) v d NK HK H) as (N & pre & post & E2 & F). rewrite E2 in N. pose proof (eq_trans E E2) as E3. rewrite E3. cbv zeta. destruct (Nat.ltb s _) eqn:L; [|left; split; [exact N|exists pre, post; auto]].
    apply Nat.ltb_lt in L. destruct pre as [|x pre]; cbn [app tl] in *.
    - right. cbn [map fst] in N. inversion N as [|? ? _ N2]; subst. exists (map fst post). split; [exact N2|]. cbn [length] in L. split; [rewrite map_length; exact (proj1 (Nat.lt_succ_r s _) L)|]. apply Forall_map. exact F.
    - left. cbn [map fst] in N. inversion N as [|? ? _ N2]; subst. split; [exact N2|]. exists pre, post. auto.
  Qed.
End Kept.

Section None.
  Context {V : Type}.
  Variable dump : V -> str.
  Variable load : str -> option V.
  Variable out_dir : str.
  Hypothesis round_trip : forall v, load (dump v) = Some v.
  Hypothesis out_ok : dir_name out_dir.
  Notation bin := (bin_path out_dir).
  Notation get := (get_result load out_dir).
  Notation step := (pstep dump load out_dir).
  Notation run := (prun dump load out_dir).

  (** process [q] stores or reads a value of the test [m] in [b] *)
  Definition uses (b : list (pevent V)) (q : nat) (m : str) : Prop := In (EGet q m) b \/ exists v, In (ESave q m v) b.
  Definition other_key (n : str) (b : list (pevent V)) (q : nat) (k : key) : Prop := exists m, k = Some (bin m) /\ m <> n /\ rel_name m /\ uses b q m.
  Definition holds (n : str) (b : list (pevent V)) (q : nat) (c : cache V) : Prop :=
    match c with
    | CDict d => od_find (Some (bin n)) d = Some None
    | CLru s d => kept (Some (bin n)) (other_key n b q) d \/ full (other_key n b q) s
    | CNone => False
    end.
  Lemma uses_snoc b e q m : uses b q m -> uses (b ++ [e]) q m.
  Proof. intros [H|[v H]]; [left|right; exists v]; apply in_or_app; now left. Qed.
  Lemma other_snoc n b e q k : other_key n b q k -> other_key n (b ++ [e]) q k.
  Proof. intros (m & A & B & R & C). exists m. split; [exact A|]. split; [exact B|]. split; [exact R|now apply uses_snoc]. Qed.
  Lemma holds_snoc n b e q c : holds n b q c -> holds n (b ++ [e]) q c.
  Proof.
    destruct c as [d|s d|]; cbn [holds]; [auto| |auto]. intros [H|H]; [left|right]; [revert H; apply kept_weaken|revert H; apply full_weaken]; intros k; apply other_snoc.
  Qed.

  Variables (a : list (pevent V)) (q : nat) (n : str) (w0 : procs V) (f0 : fs).
  Hypothesis W0 : forall p, empty_cache (w0 p).
  Hypothesis F0 : forall m, rel_name m -> lookup (bin m) f0 = None.
  Hypothesis Rn : rel_name n.

  Lemma bin_other m : rel_name m -> m <> n -> Some (bin m) <> Some (bin n).
  Proof. intros R N E. injection E as E. apply N. now apply (bin_inj out_dir out_ok). Qed.

  Lemma none_run b : let es := a ++ ESave q n None :: b in
    Forall proper_event es -> coherent es -> names_in es rel_name -> (forall p v, ~ In (ESave p n v) b) ->
    (forall p u, c_find (Some (bin n)) (fst (run es w0 f0) p) = Some u -> p = q /\ forall c, ~ In (ERestart q c) b) /\
    ((forall c, ~ In (ERestart q c) b) -> holds n b q (fst (run es w0 f0) q)).
  Proof.
    cbn zeta. induction b as [|e b IH] using rev_ind; intros P C N NS.
    - assert (PA : Forall proper_event a) by (apply Forall_app in P; tauto).
      assert (NA : names_in a rel_name) by (intros x I; apply N; apply in_or_app; now left).
      pose proof (inv_run dump load out_dir round_trip out_ok a w0 f0 W0 F0 PA (coherent_app _ _ C) NA) as [IG IC _ _].
      rewrite prun_snoc. destruct (run a w0 f0) as [w1 f1]. cbn [pstep save_result fst snd] in *.
      destruct (good_set (w1 q) (bin n) None (IG q)) as (G1 & F1 & _). split.
      + intros p u E. destruct (Nat.eq_dec p q) as [->|NP]; [split; [reflexivity|intros c []]|]. rewrite upd_other in E by exact NP. exfalso.
        destruct (IC p n u Rn E) as [_ T]. exact (C a q n None [] eq_refl p NP T).
      + intros _. rewrite upd_same. specialize (IG q). destruct (w1 q) as [d|s d|]; cbn [c_set holds c_find good] in *; [exact F1| |contradiction].
        left. split; [apply G1|]. unfold lru_set in F1 |- *.
        assert (E : od_move_to_end (Some (bin n)) (od_set (Some (bin n)) None d) = od_del (Some (bin n)) d ++ [(Some (bin n), None)]) by (unfold od_move_to_end; rewrite find_set, key_eqb_refl; now rewrite del_set).
        rewrite E in *. destruct (Nat.ltb s _) eqn:L; [|exists (od_del (Some (bin n)) d), []; split; [reflexivity|constructor]].
        destruct (od_del (Some (bin n)) d) as [|x r]; cbn [app tl] in *; [discriminate|]. exists r, []. split; [reflexivity|constructor].
    - rewrite app_comm_cons, app_assoc in P, C, N |- *.
      set (es := a ++ ESave q n None :: b) in *.
      assert (PE : proper_event e) by (apply Forall_app in P as [_ P]; now inversion P).
      assert (P1 : Forall proper_event es) by (apply Forall_app in P; tauto).
      pose proof (coherent_app _ _ C) as C1.
      assert (N1 : names_in es rel_name) by (intros x I; apply N; apply in_or_app; now left).
      assert (Ie : In e (es ++ [e])) by (apply in_or_app; right; now left). pose proof (N e Ie) as Re. clear Ie.
      assert (NS1 : forall p v, ~ In (ESave p n v) b) by (intros p v I; apply (NS p v), in_or_app; now left).
      assert (NSe : forall p v, e <> ESave p n v) by (intros p v ->; apply (NS p v), in_or_app; right; now left).
      specialize (IH P1 C1 N1 NS1).
      pose proof (inv_run dump load out_dir round_trip out_ok es w0 f0 W0 F0 P1 C1 N1) as [IG _ IF _].
      assert (NF : lookup (bin n) (snd (run es w0 f0)) = None).
      { destruct (lookup (bin n) (snd (run es w0 f0))) as [s|] eqn:E; [|reflexivity]. exfalso. destruct (IF n s Rn E) as (v & _ & L).
        assert (L2 : last_saved es n (None : pyval V)) by (exists a, q, b; split; [reflexivity|exact NS1]). pose proof (last_saved_fun _ _ _ _ L L2). discriminate. }
      rewrite prun_snoc. destruct (run es w0 f0) as [w1 f1]. cbn [fst snd] in *. destruct IH as [IA IB].
      assert (HB : (forall c, ~ In (ERestart q c) (b ++ [e])) -> holds n b q (w1 q)) by (intros H; apply IB; intros c I; apply (H c), in_or_app; now left).
      assert (IA2 : (forall c, e <> ERestart q c) -> forall p u, c_find (Some (bin n)) (w1 p) = Some u -> p = q /\ forall c, ~ In (ERestart q c) (b ++ [e])).
      { intros NR p u E. destruct (IA p u E) as [-> H]. split; [reflexivity|]. intros c I. apply in_app_or in I as [I|[I|[]]]; [now apply (H c)|now apply (NR c)]. }
      destruct e as [p m v|p m|p c|p m v]; cbn [pstep fst snd] in *; [| | |contradiction].
      + assert (NM : m <> n) by (intros ->; now apply (NSe p v)). unfold save_result. cbn [fst snd].
        destruct (good_set (w1 p) (bin m) v (IG p)) as (_ & _ & K1). split.
        * intros p' u E. apply (IA2 ltac:(discriminate) p' u). destruct (Nat.eq_dec p' p) as [->|NP]; [rewrite upd_same in E|now rewrite upd_other in E by exact NP].
          apply K1; [|exact E]. intros X. symmetry in X. revert X. now apply bin_other.
        * intros H. specialize (HB H). destruct (Nat.eq_dec q p) as [->|NP]; [|rewrite upd_other by exact NP; now apply holds_snoc]. rewrite upd_same.
          destruct (w1 p) as [d|s d|]; cbn [c_set holds] in *; [|destruct HB as [HB|HB]|contradiction].
          -- rewrite find_set. destruct (key_eqb (Some (bin m)) (Some (bin n))) eqn:Q; [apply key_eqb_eq in Q; now apply bin_other in Q|exact HB].
          -- apply kept_set; [now apply bin_other| |revert HB; apply kept_weaken; intros k; apply other_snoc]. exists m. split; [reflexivity|]. split; [exact NM|]. split; [exact Re|]. right. exists v. apply in_or_app. right. now left.
          -- right. revert HB. apply full_weaken. intros k. apply other_snoc.
      + assert (FD : forall s, lookup (bin m) f1 = Some s -> exists v, s = dump v) by (intros s E; destruct (IF m s Re E) as (v & -> & _); eauto).
        pose proof (get_cases dump load out_dir round_trip m (w1 p) f1 (IG p) Re FD) as GC. split.
        * intros p' u E. apply (IA2 ltac:(discriminate) p' u).
          destruct (c_find (Some (bin m)) (w1 p)) as [x|] eqn:EF.
          -- destruct GC as (c' & GE & _ & K). rewrite GE in E. destruct (Nat.eq_dec p' p) as [->|NP]; [rewrite upd_same, K in E; exact E|now rewrite upd_other in E by exact NP].
          -- destruct (lookup (bin m) f1) as [s|] eqn:L.
             ++ assert (NM : m <> n) by (intros ->; congruence). destruct GC as (x & c' & _ & GE & _ & _ & K). rewrite GE in E.
                destruct (Nat.eq_dec p' p) as [->|NP]; [rewrite upd_same in E|now rewrite upd_other in E by exact NP]. apply K; [|exact E]. intros X. symmetry in X. revert X. now apply bin_other.
             ++ rewrite GC in E. destruct (Nat.eq_dec p' p) as [->|NP]; [now rewrite upd_same in E|now rewrite upd_other in E by exact NP].
        * intros H. specialize (HB H).
          assert (X : exists c', match get m (w1 p) f1 with Found _ c => upd w1 p c | Missing c => upd w1 p c | Hang => w1 end = upd w1 p c' /\ (q = p -> holds n (b ++ [EGet p m]) q c')).
          { assert (HO : q = p -> Some (bin m) <> Some (bin n) -> other_key n (b ++ [EGet p m]) q (Some (bin m))).
            { intros -> NB. exists m. split; [reflexivity|]. split; [congruence|]. split; [exact Re|]. left. apply in_or_app. right. now left. }
            unfold get_result. destruct (w1 p) as [d|s d|] eqn:EW; cbn [c_in].
            - exists (CDict (match od_find (Some (bin m)) d with Some _ => d | None => match lookup (bin m) f1 with Some t => match load t with Some v => od_set (Some (bin m)) (Some v) d | None => d end | None => d end end)).
              unfold od_in. destruct (od_find (Some (bin m)) d) as [x|] eqn:EF.
              + cbn [c_get]. rewrite EF. cbn [option_map]. split; [reflexivity|]. intros <-. rewrite EW in HB. exact HB.
              + destruct (lookup (bin m) f1) as [t|] eqn:L; [|split; [reflexivity|intros <-; rewrite EW in HB; exact HB]]. destruct (load t) as [v|]; [|split; [reflexivity|intros <-; rewrite EW in HB; exact HB]].
                cbn [c_set c_get]. rewrite find_set, key_eqb_refl. cbn [option_map]. split; [reflexivity|]. intros <-. rewrite EW in HB. cbn [holds] in *. rewrite find_set.
                destruct (key_eqb (Some (bin m)) (Some (bin n))) eqn:Q; [|exact HB]. apply key_eqb_eq in Q. congruence.
            - assert (HB2 : q = p -> kept (Some (bin n)) (other_key n (b ++ [EGet p m]) q) d \/ full (other_key n (b ++ [EGet p m]) q) s).
              { intros ->. rewrite EW in HB. cbn [holds] in HB. destruct HB as [HB|HB]; [left; revert HB; apply kept_weaken|right; revert HB; apply full_weaken]; intros k; apply other_snoc. }
              destruct (od_in (Some (bin m)) d) eqn:OI.
              + cbn [c_get]. destruct (lru_get (Some (bin m)) d) as [v d1] eqn:LG. exists (CLru s d1). split; [reflexivity|]. intros QP. specialize (HB2 QP). cbn [holds]. destruct HB2 as [HB2|HB2]; [left|now right].
                replace d1 with (snd (lru_get (Some (bin m)) d)) by now rewrite LG. apply kept_get; [now apply HO|exact HB2].
              + destruct (lookup (bin m) f1) as [t|] eqn:L; [|exists (CLru s d); split; [reflexivity|exact HB2]]. destruct (load t) as [v|]; [|exists (CLru s d); split; [reflexivity|exact HB2]].
                assert (NM : Some (bin m) <> Some (bin n)) by congruence. cbn [c_set c_get]. destruct (lru_get (Some (bin m)) (lru_set s (Some (bin m)) (Some v) d)) as [x d1] eqn:LG. exists (CLru s d1). split; [reflexivity|].
                intros QP. specialize (HB2 QP). cbn [holds]. destruct HB2 as [HB2|HB2]; [|now right]. destruct (kept_set (Some (bin n)) _ s (bin m) (Some v) d NM (HO QP NM) HB2) as [HK|HK]; [left|now right].
                replace d1 with (snd (lru_get (Some (bin m)) (lru_set s (Some (bin m)) (Some v) d))) by now rewrite LG. apply kept_get; [now apply HO|exact HK].
            - exfalso. specialize (IG p). now rewrite EW in IG. }
          destruct X as (c' & -> & HC). destruct (Nat.eq_dec q p) as [E|NP]; [subst p; rewrite upd_same; now apply HC|rewrite upd_other by exact NP; now apply holds_snoc].
      + destruct (empty_good c PE) as [_ E0]. split.
        * intros p' u E. destruct (Nat.eq_dec p' p) as [->|NP]; [rewrite upd_same, E0 in E; discriminate|]. rewrite upd_other in E by exact NP.
          apply (IA2 ltac:(intros c2 X; injection X as X _; apply NP; symmetry; destruct (IA p' u E) as [-> _]; now symmetry)) in E. exact E.
        * intros H. specialize (HB H). destruct (Nat.eq_dec q p) as [->|NP]; [exfalso; apply (H c), in_or_app; right; now left|]. rewrite upd_other by exact NP. now apply holds_snoc.
  Qed.
End None.

(** A test returned None and nobody stored another value for it since. Another process, or the same one after a restart, finds nothing; the process
    that ran it gets None as long as its cache keeps the entry: always with a dict, and with a LruCache of size [s] if it used fewer than [s] other values since. *)
Theorem C33_none_exact {V : Type} (dump : V -> str) (load : str -> option V) (out_dir : str) (a b : list (pevent V)) (q : nat) (n : str) (w0 : procs V) (f0 : fs) :
  (forall v, load (dump v) = Some v) -> dir_name out_dir -> (forall p, empty_cache (w0 p)) -> (forall m, rel_name m -> lookup (bin_path out_dir m) f0 = None) ->
  rel_name n ->
  let es := a ++ ESave q n None :: b in
  Forall proper_event es -> names_in es rel_name -> coherent es -> (forall p v, ~ In (ESave p n v) b) ->
  let '(w, f) := prun dump load out_dir es w0 f0 in
  (forall p, p <> q -> exists c, get_result load out_dir n (w p) f = Missing c) /\
  ((exists c, In (ERestart q c) b) -> exists c, get_result load out_dir n (w q) f = Missing c) /\
  ((forall c, ~ In (ERestart q c) b) ->
     (forall d, w q = CDict d -> exists c, get_result load out_dir n (w q) f = Found None c) /\
     (forall s d, w q = CLru s d -> (forall l, NoDup l -> (forall m, In m l -> m <> n /\ (In (EGet q m) b \/ exists v, In (ESave q m v) b)) -> length l < s) ->
        exists c, get_result load out_dir n (w q) f = Found None c)).
Proof.
  cbn zeta. intros RT OD W0 F0 Rn P N C NS.
  destruct (none_run dump load out_dir RT OD a q n w0 f0 W0 F0 Rn b P C N NS) as [IA IB].
  pose proof (inv_run dump load out_dir RT OD _ w0 f0 W0 F0 P C N) as [IG _ IF _].
  destruct (prun dump load out_dir (a ++ ESave q n None :: b) w0 f0) as [w f]. cbn [fst snd] in *.
  assert (NF : lookup (bin_path out_dir n) f = None).
  { destruct (lookup (bin_path out_dir n) f) as [s|] eqn:E; [|reflexivity]. exfalso. destruct (IF n s Rn E) as (v & _ & L).
    assert (L2 : last_saved (a ++ ESave q n None :: b) n (None : pyval V)) by (exists a, q, b; split; [reflexivity|exact NS]). pose proof (last_saved_fun _ _ _ _ L L2). discriminate. }
  assert (GC : forall p, match c_find (Some (bin_path out_dir n)) (w p) with Some v => exists c', get_result load out_dir n (w p) f = Found v c' | None => get_result load out_dir n (w p) f = Missing (w p) end).
  { intros p. assert (FD : forall s, lookup (bin_path out_dir n) f = Some s -> exists v, s = dump v) by (intros s E; congruence).
    pose proof (get_cases dump load out_dir RT n (w p) f (IG p) Rn FD) as G. destruct (c_find (Some (bin_path out_dir n)) (w p)); [destruct G as (c' & G & _); eauto|]. now rewrite NF in G. }
  split; [|split].
  - intros p NP. specialize (GC p). destruct (c_find _ (w p)) as [u|] eqn:E; [destruct (IA p u E); contradiction|eauto].
  - intros [c I]. specialize (GC q). destruct (c_find _ (w q)) as [u|] eqn:E; [destruct (IA q u E) as [_ H]; elim (H c I)|eauto].
  - intros NR. specialize (IB NR). specialize (GC q). split.
    + intros d E. rewrite E in IB, GC |- *. cbn [holds c_find] in IB, GC. rewrite IB in GC. exact GC.
    + intros s d E CNT. rewrite E in IB, GC |- *. cbn [holds c_find] in IB, GC. destruct IB as [IB|(l & ND & LE & FA)]; [rewrite (kept_find _ _ _ IB) in GC; exact GC|]. exfalso.
      assert (X : exists ms, l = map (fun m => Some (bin_path out_dir m)) ms /\ forall m, In m ms -> m <> n /\ (In (EGet q m) b \/ exists v, In (ESave q m v) b)).
      { clear - FA. induction l as [|k l IH]; [exists []; split; [reflexivity|intros m []]|]. apply Forall_cons_iff in FA as [(m & -> & NM & _ & U) FA]. destruct (IH FA) as (ms & -> & H).
        exists (m :: ms). split; [reflexivity|]. intros x [<-|I]; [split; [exact NM|exact U]|now apply H]. }
      destruct X as (ms & -> & H). rewrite map_length in LE. apply NoDup_map_inv in ND. pose proof (CNT ms ND H). lia.
Qed.
Print Assumptions C33_none_exact.

(** the process that ran the test gets None, until its cache of two entries has seen two others *)
Example C33_none_example :
  let events := [ESave 1 (lit "n") None; ESave 1 (lit "x") (Some (lit "1")); EGet 1 (lit "n"); ESave 1 (lit "y") (Some (lit "2"))] in
  coherent events /\ Forall proper_event events /\ names_in events rel_name /\
  (let '(w, f) := prun (fun x => x) Some (lit "out") events (fun _ => CLru 2 []) [] in
   (exists c, get_result Some (lit "out") (lit "n") (w 1) f = Found None c) /\ (exists c, get_result Some (lit "out") (lit "n") (w 2) f = Missing c)) /\
  (let '(w, f) := prun (fun x => x) Some (lit "out") (events ++ [EGet 1 (lit "x")]) (fun _ => CLru 2 []) [] in
   exists c, get_result Some (lit "out") (lit "n") (w 1) f = Missing c).
Proof.
  cbn zeta. split; [apply stored_first_coherent; repeat split; cbn; intuition discriminate|]. split; [repeat constructor|].
  split; [intros e I; cbn [In] in I; repeat (destruct I as [<-|I]; [reflexivity|]); contradiction|].
  split; [split; eexists; vm_compute; reflexivity|eexists; vm_compute; reflexivity].
Qed.
