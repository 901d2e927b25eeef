From Verif Require Import PyStrFacts FsFacts CacheSpec CacheProofs.
From Coq Require Import Lia.

Section Results.
Context {V : Type}.
Variable dump : V -> str.
Variable load : str -> option V.
Variable out_dir : str.
Hypothesis round_trip : forall v, load (dump v) = Some v.
Hypothesis out_ok : dir_name out_dir.

Notation bin := (bin_path out_dir).
Notation get := (get_result load out_dir).
Notation save := (save_result dump out_dir).
Notation step := (pstep dump load out_dir).
Notation run := (prun dump load out_dir).
Implicit Types es : list (pevent V).

Lemma bin_eq n : rel_name n -> bin n = out_dir ++ SLASH :: n ++ lit ".bin".
Proof.
  intros H. unfold bin_path. destruct out_ok as [A B]. rewrite path_join_plain; trivial.
  destruct n as [|c n]; [reflexivity|]. exact H.
Qed.

Lemma bin_inj n m : rel_name n -> rel_name m -> bin n = bin m -> n = m.
Proof.
  intros A B. rewrite !bin_eq by assumption. intros E. apply app_inv_head in E. injection E as E.
  now apply app_inv_tail in E.
Qed.

(** *** last_saved on one more event *)
Definition saves (e : pevent V) (n : str) : Prop := exists q v, e = ESave q n v.

Lemma last_saved_same es p n v u : last_saved (es ++ [ESave p n v]) n u <-> u = v.
Proof.
  split.
  - intros (a & q & b & E & H). destruct b as [|x b] using rev_ind.
    + apply app_inj_tail in E. destruct E as [_ E]. now injection E.
    + clear IHb. change (a ++ ESave q n u :: b ++ [x]) with (a ++ (ESave q n u :: b) ++ [x]) in E.
      rewrite app_assoc in E. apply app_inj_tail in E. destruct E as [_ <-]. exfalso.
      apply (H p v). apply in_app_iff. right. now left.
  - intros ->. exists es, p, []. split; [reflexivity|]. intros q v' [].
Qed.

Lemma last_saved_other es e n u : ~ saves e n -> last_saved (es ++ [e]) n u <-> last_saved es n u.
Proof.
  intros N. split.
  - intros (a & q & b & E & H). destruct b as [|x b] using rev_ind.
    + apply app_inj_tail in E. destruct E as [_ ->]. exfalso. apply N. now exists q, u.
    + clear IHb. change (a ++ ESave q n u :: b ++ [x]) with (a ++ (ESave q n u :: b) ++ [x]) in E.
      rewrite app_assoc in E. apply app_inj_tail in E. destruct E as [-> <-]. exists a, q, b.
      split; [reflexivity|]. intros q' v' X. apply (H q' v'). apply in_app_iff. now left.
  - intros (a & q & b & -> & H). exists a, q, (b ++ [e]). split; [now rewrite <- app_assoc|].
    intros q' v' X. apply in_app_iff in X. destruct X as [X|[X|[]]]; [exact (H q' v' X)|].
    apply N. now exists q', v'.
Qed.

Lemma last_saved_fun es n u v : last_saved es n u -> last_saved es n v -> u = v.
Proof.
  induction es as [|e es IH] using rev_ind.
  - intros (a & q & b & E & _). now destruct a.
  - assert (D : saves e n \/ ~ saves e n).
    { destruct e as [p m w|p m|p c|p m w].
      - destruct (str_dec m n) as [->|N]; [left; now exists p, w|right; intros (q & z & [=]); congruence].
      - right; intros (q & z & [=]).
      - right; intros (q & z & [=]).
      - right; intros (q & z & [=]). }
    destruct D as [(q & z & ->)|N].
    + rewrite !last_saved_same. congruence.
    + rewrite !last_saved_other by assumption. exact IH.
Qed.

Lemma touched_snoc es e p n : (forall c, e <> ERestart p c) -> touched es p n -> touched (es ++ [e]) p n.
Proof.
  intros N (a & x & b & -> & X & H). exists a, x, (b ++ [e]). split; [now rewrite <- app_assoc|].
  split; [assumption|]. intros c Y. apply in_app_iff in Y. destruct Y as [Y|[Y|[]]]; [exact (H c Y)|exact (N c Y)].
Qed.

Lemma touched_now es e p n : (e = EGet p n \/ exists v, e = ESave p n v) -> touched (es ++ [e]) p n.
Proof. intros X. exists es, e, []. repeat split; trivial. intros c []. Qed.

(** *** caches *)
Definition c_find (k : key) (c : cache V) : option (pyval V) :=
  match c with CDict d => od_find k d | CLru _ d => od_find k d | CNone => None end.

Definition good (c : cache V) : Prop :=
  match c with CDict _ => True | CLru n d => 1 <= n /\ NoDup (map fst d) | CNone => False end.

Lemma empty_good c : empty_cache c -> good c /\ forall k, c_find k c = None.
Proof. intros [->|(n & L & ->)]; cbn; repeat split; trivial. constructor. Qed.

Lemma good_in c k : good c -> c_in k c = Some (match c_find k c with Some _ => true | None => false end).
Proof. destruct c; cbn; [reflexivity|reflexivity|intros []]. Qed.

Lemma lru_set_last n k v (d : odict V) : 1 <= n -> NoDup (map fst d) ->
  od_find (Some k) (lru_set n (Some k) v d) = Some v /\ NoDup (map fst (lru_set n (Some k) v d)).
Proof.
  intros L ND. unfold lru_set. set (d1 := od_move_to_end (Some k) (od_set (Some k) v d)).
  assert (F : od_find (Some k) d1 = Some v) by (unfold d1; now rewrite find_move, find_set, key_eqb_refl).
  assert (K : map fst d1 = without (Some k) (map fst d) ++ [Some k]) by apply keys_move_set.
  assert (ND1 : NoDup (map fst d1)).
  { rewrite K. apply NoDup_snoc_iff. split; [now apply without_NoDup|]. rewrite without_In. tauto. }
  destruct (Nat.ltb n (length d1)) eqn:E; [|now split].
  apply Nat.ltb_lt in E. split.
  - destruct d1 as [|[x w] d1]; [discriminate|]. cbn [tl]. cbn in F, K, E, ND1.
    destruct (without (Some k) (map fst d)) as [|y l]; cbn in K.
    + injection K as -> K. apply map_eq_nil in K. subst. cbn in E. lia.
    + injection K as -> K. inversion ND1 as [|? ? NI _]; subst.
      destruct (key_eqb y (Some k)) eqn:Q; [|assumption]. apply key_eqb_eq in Q. subst.
      exfalso. apply NI. rewrite K. apply in_app_iff. right. now left.
  - rewrite map_tl. destruct (map fst d1); [constructor|]. inversion ND1; assumption.
Qed.

Lemma good_set c k v : good c -> good (c_set (Some k) v c) /\
  c_find (Some k) (c_set (Some k) v c) = Some v /\
  forall k' u, k' <> Some k -> c_find k' (c_set (Some k) v c) = Some u -> c_find k' c = Some u.
Proof.
  destruct c as [d|n d|]; cbn [good c_set c_find].
  - intros _. split; [exact I|]. split; [now rewrite find_set, key_eqb_refl|].
    intros k' u N. rewrite find_set. destruct (key_eqb (Some k) k') eqn:Q; [apply key_eqb_eq in Q; congruence|trivial].
  - intros [L ND]. destruct (lru_set_last n k v d L ND) as [F ND']. repeat split; trivial.
    intros k' u N E. apply lru_set_find in E; [|assumption]. destruct E as [[X _]|[_ X]]; [contradiction|assumption].
  - intros [].
Qed.

Lemma good_get c k v : good c -> c_find k c = Some v ->
  exists c', c_get k c = Some (v, c') /\ good c' /\ forall k', c_find k' c' = c_find k' c.
Proof.
  destruct c as [d|n d|]; cbn [good c_get c_find].
  - intros _ E. exists (CDict d). rewrite E. repeat split.
  - intros [L ND] E. destruct (lru_get k d) as [u d1] eqn:G. exists (CLru n d1).
    assert (U : u = v). { pose proof (lru_get_value k d) as X. rewrite G, E in X. exact X. }
    assert (D1 : d1 = od_move_to_end k d).
    { unfold lru_get in G. assert (X : od_in k d = true) by (unfold od_in; now rewrite E). rewrite X in G. congruence. }
    subst. split; [reflexivity|]. split.
    + split; [assumption|]. rewrite keys_move. destruct (od_in k d); [|assumption]. apply NoDup_snoc_iff.
      split; [now apply without_NoDup|]. rewrite without_In. tauto.
    + intros k'. apply find_move.
  - intros [].
Qed.

(** *** the invariant *)
Record inv es (w : procs V) (f : fs) : Prop := {
  inv_good : forall p, good (w p);
  inv_cache : forall p n v, rel_name n -> c_find (Some (bin n)) (w p) = Some v ->
    last_saved es n v /\ touched es p n;
  inv_file : forall n s, rel_name n -> lookup (bin n) f = Some s ->
    exists v, s = dump v /\ last_saved es n (Some v);
  inv_saved : forall n v, rel_name n -> last_saved es n (Some v) -> lookup (bin n) f = Some (dump v)
}.

Lemma get_cases n c f : good c -> rel_name n ->
  (forall s, lookup (bin n) f = Some s -> exists v, s = dump v) ->
  match c_find (Some (bin n)) c with
  | Some v => exists c', get n c f = Found v c' /\ good c' /\ forall k, c_find k c' = c_find k c
  | None =>
      match lookup (bin n) f with
      | Some s => exists v c', s = dump v /\ get n c f = Found (Some v) c' /\ good c' /\
          c_find (Some (bin n)) c' = Some (Some v) /\
          forall k u, k <> Some (bin n) -> c_find k c' = Some u -> c_find k c = Some u
      | None => get n c f = Missing c
      end
  end.
Proof.
  intros G R F. unfold get_result. rewrite (good_in c (Some (bin n)) G).
  destruct (c_find (Some (bin n)) c) as [v|] eqn:E.
  - destruct (good_get c (Some (bin n)) v G E) as (c' & X & G' & K). rewrite X. eauto.
  - destruct (lookup (bin n) f) as [s|] eqn:L; [|reflexivity].
    destruct (F s eq_refl) as [v ->]. rewrite round_trip.
    destruct (good_set c (bin n) (Some v) G) as (G1 & F1 & K1).
    destruct (good_get _ _ _ G1 F1) as (c' & X & G' & K). rewrite X. exists v, c'.
    repeat split; trivial.
    + now rewrite K.
    + intros k u N Q. rewrite K in Q. eauto.
Qed.

Lemma upd_same (w : procs V) p c : upd w p c p = c.
Proof. unfold upd. now rewrite Nat.eqb_refl. Qed.
Lemma upd_other (w : procs V) p c q : q <> p -> upd w p c q = w q.
Proof. intros N. unfold upd. apply Nat.eqb_neq in N. now rewrite N. Qed.

Lemma inv_step es w f e : inv es w f -> proper_event e -> names_in [e] rel_name ->
  (forall q n v p, e = ESave q n v -> p <> q -> ~ touched es p n) ->
  inv (es ++ [e]) (snd (fst (step e w f))) (snd (step e w f)).
Proof.
  intros [IG IC IF IS] PE NI CO. pose proof (NI e (or_introl eq_refl)) as R. clear NI.
  destruct e as [p n v|p n|p c|p n v]; cbn [pstep] in *.
  - (* save *)
    unfold save_result. cbn [fst snd].
    destruct (good_set (w p) (bin n) v (IG p)) as (G1 & F1 & K1).
    assert (NS : forall m, m <> n -> ~ saves (ESave p n v) m) by (intros m N (q & z & [=]); congruence).
    constructor.
    + intros q. destruct (Nat.eq_dec q p) as [->|N]; [now rewrite upd_same|now rewrite upd_other].
    + intros q m u Rm E. destruct (Nat.eq_dec q p) as [->|N].
      * rewrite upd_same in E. destruct (str_dec m n) as [->|Nm].
        -- rewrite F1 in E. injection E as <-. split; [now apply last_saved_same|].
           apply touched_now. right. now exists v.
        -- assert (NB : Some (bin m) <> Some (bin n)) by (intros [= X]; apply Nm; now apply bin_inj).
           apply K1 in E; [|assumption]. destruct (IC p m u Rm E) as [A B]. split.
           ++ apply last_saved_other; auto.
           ++ apply touched_snoc; [discriminate|assumption].
      * rewrite upd_other in E by assumption. destruct (IC q m u Rm E) as [A B].
        destruct (str_dec m n) as [->|Nm].
        -- exfalso. exact (CO p n v q eq_refl N B).
        -- split; [apply last_saved_other; auto|apply touched_snoc; [discriminate|assumption]].
    + intros m s Rm E. destruct (str_dec m n) as [->|Nm].
      * destruct v as [x|].
        -- rewrite lookup_write, str_eqb_refl in E. injection E as <-. exists x. split; [reflexivity|]. now apply last_saved_same.
        -- rewrite lookup_remove, str_eqb_refl in E. discriminate.
      * assert (NB : str_eqb (bin n) (bin m) = false) by (apply str_eqb_neq; intros X; apply Nm; symmetry; now apply bin_inj).
        assert (E' : lookup (bin m) f = Some s) by (destruct v; [rewrite lookup_write, NB in E|rewrite lookup_remove, NB in E]; exact E).
        destruct (IF m s Rm E') as (x & -> & A). exists x. split; [reflexivity|]. apply last_saved_other; auto.
    + intros m u Rm E. destruct (str_dec m n) as [->|Nm].
      * apply last_saved_same in E. subst v. now rewrite lookup_write, str_eqb_refl.
      * apply last_saved_other in E; [|auto]. specialize (IS m u Rm E).
        assert (NB : str_eqb (bin n) (bin m) = false) by (apply str_eqb_neq; intros X; apply Nm; symmetry; now apply bin_inj).
        destruct v; [rewrite lookup_write, NB|rewrite lookup_remove, NB]; exact IS.
  - (* get *)
    cbn [fst snd].
    assert (NS : forall m, ~ saves (EGet p n) m) by (intros m (q & z & [=])).
    pose proof (get_cases n (w p) f (IG p) R) as GC.
    assert (FD : forall s, lookup (bin n) f = Some s -> exists v, s = dump v).
    { intros s E. destruct (IF n s R E) as (v & -> & _). eauto. }
    specialize (GC FD).
    assert (X : exists c', match get n (w p) f with Found _ c => upd w p c | Missing c => upd w p c | Hang => w end
                           = upd w p c' /\ good c' /\
      forall m u, rel_name m -> c_find (Some (bin m)) c' = Some u -> last_saved es m u /\ (m = n \/ touched es p m)).
    { destruct (c_find (Some (bin n)) (w p)) as [v|] eqn:E.
      - destruct GC as (c' & -> & G' & K). exists c'. split; [reflexivity|]. split; [assumption|].
        intros m u Rm Q. rewrite K in Q. destruct (IC p m u Rm Q). tauto.
      - destruct (lookup (bin n) f) as [s|] eqn:L.
        + destruct GC as (v & c' & -> & -> & G' & F' & K). exists c'. split; [reflexivity|]. split; [assumption|].
          intros m u Rm Q. destruct (str_dec m n) as [->|Nm].
          * rewrite F' in Q. injection Q as <-. split; [|now left].
            destruct (IF n (dump v) R L) as (v' & D & A). rewrite <- (round_trip v), D, round_trip. exact A.
          * assert (NB : Some (bin m) <> Some (bin n)) by (intros [= Y]; apply Nm; now apply bin_inj).
            destruct (IC p m u Rm (K _ _ NB Q)). tauto.
        + rewrite GC. exists (w p). split; [reflexivity|]. split; [apply IG|].
          intros m u Rm Q. destruct (IC p m u Rm Q). tauto. }
    destruct X as (c' & -> & G' & K). constructor.
    + intros q. destruct (Nat.eq_dec q p) as [->|N]; [now rewrite upd_same|now rewrite upd_other].
    + intros q m u Rm E. rewrite last_saved_other by auto. destruct (Nat.eq_dec q p) as [->|N].
      * rewrite upd_same in E. destruct (K m u Rm E) as [A [->|B]]; (split; [assumption|]).
        -- apply touched_now. now left.
        -- apply touched_snoc; [discriminate|assumption].
      * rewrite upd_other in E by assumption. destruct (IC q m u Rm E) as [A B]. split; [assumption|].
        apply touched_snoc; [discriminate|assumption].
    + intros m s Rm E. destruct (IF m s Rm E) as (v & -> & A). exists v. split; [reflexivity|].
      apply last_saved_other; auto.
    + intros m u Rm E. apply last_saved_other in E; auto.
  - (* restart *)
    cbn [fst snd]. destruct (empty_good c PE) as [G E0].
    assert (NS : forall m, ~ saves (ERestart p c) m) by (intros m (q & z & [=])).
    constructor.
    + intros q. destruct (Nat.eq_dec q p) as [->|N]; [now rewrite upd_same|now rewrite upd_other].
    + intros q m u Rm E. destruct (Nat.eq_dec q p) as [->|N].
      * rewrite upd_same, E0 in E. discriminate.
      * rewrite upd_other in E by assumption. destruct (IC q m u Rm E) as [A B]. split; [apply last_saved_other; auto|].
        apply touched_snoc; [|assumption]. intros c' [= X]. congruence.
    + intros m s Rm E. destruct (IF m s Rm E) as (v & -> & A). exists v. split; [reflexivity|].
      apply last_saved_other; auto.
    + intros m u Rm E. apply last_saved_other in E; auto.
  - destruct PE.
Qed.

Lemma prun_snoc es e w f :
  run (es ++ [e]) w f = (let '(w1, f1) := run es w f in (snd (fst (step e w1 f1)), snd (step e w1 f1))).
Proof.
  revert w f. induction es as [|x es IH]; intros w f; cbn [app prun].
  - destruct (step e w f) as [[r w'] f']. reflexivity.
  - destruct (step x w f) as [[r w'] f']. apply IH.
Qed.

Lemma coherent_app es e : coherent (es ++ [e]) -> coherent es.
Proof.
  intros C a q n v b -> p N. apply (C a q n v (b ++ [e])); [now rewrite <- app_assoc|assumption].
Qed.

Lemma inv_run es : forall w0 f0, (forall p, empty_cache (w0 p)) ->
  (forall n, rel_name n -> lookup (bin n) f0 = None) ->
  Forall proper_event es -> coherent es -> names_in es rel_name ->
  inv es (fst (run es w0 f0)) (snd (run es w0 f0)).
Proof.
  induction es as [|e es IH] using rev_ind; intros w0 f0 W0 F0 P C N.
  - cbn. constructor.
    + intros p. now apply empty_good.
    + intros p n v R E. destruct (empty_good _ (W0 p)) as [_ X]. rewrite X in E. discriminate.
    + intros n s R E. rewrite F0 in E by assumption. discriminate.
    + intros n v R (a & q & b & E & _). now destruct a.
  - apply Forall_app in P. destruct P as [P Pe]. inversion Pe as [|? ? Pe' _]; subst.
    specialize (IH w0 f0 W0 F0 P (coherent_app _ _ C)).
    assert (N1 : names_in es rel_name) by (intros x Hx; apply N; apply in_app_iff; now left).
    specialize (IH N1). rewrite prun_snoc. destruct (run es w0 f0) as [w1 f1]. cbn [fst snd] in *.
    apply inv_step; trivial.
    + intros x [<-|[]]. apply N. apply in_app_iff. right. now left.
    + intros q n v p -> Np. apply (C es q n v []); [reflexivity|assumption].
Qed.

Lemma get_last es w0 f0 p n : (forall p, empty_cache (w0 p)) ->
  (forall n, rel_name n -> lookup (bin n) f0 = None) ->
  Forall proper_event es -> coherent es -> names_in es rel_name -> rel_name n ->
  let w := fst (run es w0 f0) in let f := snd (run es w0 f0) in
  (forall v, last_saved es n (Some v) -> exists c, get n (w p) f = Found (Some v) c) /\
  (forall v c, get n (w p) f = Found v c -> last_saved es n v) /\
  get n (w p) f <> Hang.
Proof.
  intros W0 F0 P C N R w f. destruct (inv_run es w0 f0 W0 F0 P C N) as [IG IC IF IS]. fold w f in IG, IC, IF, IS.
  assert (FD : forall s, lookup (bin n) f = Some s -> exists v, s = dump v).
  { intros s E. destruct (IF n s R E) as (v & -> & _). eauto. }
  pose proof (get_cases n (w p) f (IG p) R FD) as GC.
  destruct (c_find (Some (bin n)) (w p)) as [u|] eqn:E.
  - destruct GC as (c' & -> & _). destruct (IC p n u R E) as [A _]. repeat split.
    + intros v L. rewrite (last_saved_fun _ _ _ _ L A). eauto.
    + intros v c [= <- <-]. assumption.
    + discriminate.
  - destruct (lookup (bin n) f) as [s|] eqn:L.
    + destruct GC as (u & c' & -> & -> & _). destruct (IF n _ R L) as (u' & D & A).
      assert (u' = u). { pose proof (round_trip u) as X. rewrite D, round_trip in X. congruence. } subst u'.
      repeat split.
      * intros v Lv. rewrite (last_saved_fun _ _ _ _ Lv A). eauto.
      * intros v c [= <- <-]. assumption.
      * discriminate.
    + rewrite GC. repeat split.
      * intros v Lv. rewrite (IS n v R Lv) in L. discriminate.
      * discriminate.
      * discriminate.
Qed.

Lemma one_process es p : (forall q n v, In (ESave q n v) es -> q = p) ->
  (forall q n, In (EGet q n) es -> q = p) -> coherent es.
Proof.
  intros S G a q n v b -> r N (a' & e & b' & -> & X & _).
  assert (Q : q = p) by (apply (S q n v); rewrite in_app_iff; right; now left).
  subst q. apply N. destruct X as [->|[u ->]].
  - apply (G r n). rewrite !in_app_iff. left. right. now left.
  - apply (S r n u). rewrite !in_app_iff. left. right. now left.
Qed.

Lemma stored_first_split seen es : stored_first seen es -> forall a q n v b,
  es = a ++ ESave q n v :: b -> ~ In n seen /\ forall p u, ~ In (EGet p n) a /\ ~ In (ESave p n u) a.
Proof.
  revert seen. induction es as [|e es IH]; intros seen H a q n v b E; [now destruct a|].
  destruct a as [|x a]; cbn in E.
  - injection E as -> ->. cbn in H. split; [tauto|]. intros p u. split; intros [].
  - injection E as -> ->. destruct x as [p' n' v'|p' n'|p' c'|p' n' v']; cbn [stored_first] in H.
    + destruct H as [H0 H]. destruct (IH _ H a q n v b eq_refl) as [NI K]. split; [intros X; apply NI; now right|].
      intros p u. destruct (K p u) as [K1 K2]. split; intros [X|X]; try discriminate X; try contradiction.
      injection X as <- <- <-. apply NI. now left.
    + destruct (IH _ H a q n v b eq_refl) as [NI K]. split; [intros X; apply NI; now right|].
      intros p u. destruct (K p u) as [K1 K2]. split; intros [X|X]; try discriminate X; try contradiction.
      injection X as <- <-. apply NI. now left.
    + destruct (IH _ H a q n v b eq_refl) as [NI K]. split; [assumption|].
      intros p u. destruct (K p u) as [K1 K2]. split; intros [X|X]; try discriminate X; contradiction.
    + destruct (IH _ H a q n v b eq_refl) as [NI K]. split; [assumption|].
      intros p u. destruct (K p u) as [K1 K2]. split; intros [X|X]; try discriminate X; contradiction.
Qed.

Lemma stored_first_coherent es : stored_first [] es -> coherent es.
Proof.
  intros H a q n v b E p _ (a' & e & b' & -> & X & _).
  destruct (stored_first_split [] es H _ _ _ _ _ E) as [_ K].
  destruct X as [->|[u ->]].
  - destruct (K p v) as [K1 _]. apply K1. apply in_app_iff. right. now left.
  - destruct (K p u) as [_ K2]. apply K2. apply in_app_iff. right. now left.
Qed.

Lemma coherent_snoc_get es q m : coherent es -> coherent (es ++ [EGet q m]).
Proof.
  intros C a x n v b E p N. destruct b as [|y b] using rev_ind.
  - apply app_inj_tail in E. destruct E as [_ E]. discriminate E.
  - clear IHb. change (a ++ ESave x n v :: b ++ [y]) with (a ++ (ESave x n v :: b) ++ [y]) in E.
    rewrite app_assoc in E. apply app_inj_tail in E. destruct E as [E _]. exact (C a x n v b E p N).
Qed.

End Results.

Lemma save_then_get {V : Type} (dump : V -> str) (load : str -> option V) (out_dir n : str) (v : V)
    (c c2 : cache V) (f : fs) :
  (forall v, load (dump v) = Some v) -> working c -> working c2 ->
  c_in (Some (bin_path out_dir n)) c2 = Some false ->
  let '(c1, f1) := save_result dump out_dir n (Some v) c f in
  (exists c', get_result load out_dir n c1 f1 = Found (Some v) c') /\
  (exists c', get_result load out_dir n c2 f1 = Found (Some v) c').
Proof.
  intros RT G G2 NI. unfold save_result. unfold get_result. split.
  - destruct (good_set c (bin_path out_dir n) (Some v) G) as (G1 & F1 & _).
    rewrite (good_in _ _ G1), F1. destruct (good_get _ _ _ G1 F1) as (c' & X & _). rewrite X. eauto.
  - rewrite NI, lookup_write, str_eqb_refl, RT.
    destruct (good_set c2 (bin_path out_dir n) (Some v) G2) as (G1 & F1 & _).
    destruct (good_get _ _ _ G1 F1) as (c' & X & _). rewrite X. eauto.
Qed.
