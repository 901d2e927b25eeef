(** Changes that tests make to the objects they were given reach nobody but later tests in the same process that depend on the
    same case (C61): the run is compared with the one without the changes. *)
From Verif Require Import PyStrFacts FsFacts CacheSpec CacheProofs CacheResults.
From Coq Require Import Lia.

Section Sim.
Context {V : Type}.

(** caches with the same keys in the same order, and the same values for the keys in [P] *)
Definition esim (P : key -> Prop) (e e' : key * pyval V) : Prop := fst e = fst e' /\ (P (fst e) -> snd e = snd e').
Definition dsim P (d d' : odict V) : Prop := Forall2 (esim P) d d'.
Definition csim P (c c' : cache V) : Prop :=
  match c, c' with
  | CDict d, CDict d' => dsim P d d'
  | CLru n d, CLru n' d' => n = n' /\ dsim P d d'
  | CNone, CNone => True
  | _, _ => False
  end.
Definition vsim (P : key -> Prop) k (v v' : pyval V) : Prop := P k -> v = v'.

Lemma dsim_refl P d : dsim P d d.
Proof. induction d; constructor; [now split|assumption]. Qed.
Lemma dsim_weaken (P Q : key -> Prop) d d' : (forall k, Q k -> P k) -> dsim P d d' -> dsim Q d d'.
Proof. intros H. induction 1 as [|e e' d d' [E S] _ IH]; constructor; [|exact IH]. split; [exact E|]. intros K. now apply S, H. Qed.
Lemma csim_refl P c : csim P c c.
Proof. destruct c; cbn; auto using dsim_refl. Qed.
Lemma find_sim P k d d' : dsim P d d' ->
  match od_find k d, od_find k d' with Some v, Some v' => vsim P k v v' | None, None => True | _, _ => False end.
Proof.
  induction 1 as [|[x v] [x' v'] d d' [E S] _ IH]; cbn in *; [exact I|]. subst x'. destruct (key_eqb x k) eqn:K; [|exact IH].
  apply key_eqb_eq in K. subst x. exact S.
Qed.
Lemma in_sim P k d d' : dsim P d d' -> od_in k d = od_in k d'.
Proof. intros H. apply (find_sim P k) in H. unfold od_in. destruct (od_find k d), (od_find k d'); tauto. Qed.
Lemma del_sim P k d d' : dsim P d d' -> dsim P (od_del k d) (od_del k d').
Proof.
  unfold od_del. induction 1 as [|[x v] [x' v'] d d' [E S] _ IH]; cbn in *; [constructor|]. subst x'. destruct (key_eqb x k); cbn; [exact IH|].
  constructor; [now split|exact IH].
Qed.
Lemma set_sim P k v v' d d' : vsim P k v v' -> dsim P d d' -> dsim P (od_set k v d) (od_set k v' d').
Proof.
  intros Hv. induction 1 as [|[x w] [x' w'] d d' [E S] H IH]; cbn in *; [constructor; [now split|constructor]|]. subst x'.
  destruct (key_eqb x k) eqn:K; constructor; auto; [|now split]. apply key_eqb_eq in K. subst x. now split.
Qed.
Lemma move_sim P k d d' : dsim P d d' -> dsim P (od_move_to_end k d) (od_move_to_end k d').
Proof.
  intros H. pose proof (find_sim P k d d' H) as F. unfold od_move_to_end. destruct (od_find k d) as [v|], (od_find k d') as [v'|]; try contradiction; [|exact H].
  apply Forall2_app; [now apply del_sim|]. constructor; [now split|constructor].
Qed.
Lemma dsim_length P d d' : dsim P d d' -> length d = length d'.
Proof. induction 1; cbn; congruence. Qed.
Lemma lru_set_sim P n k v v' d d' : vsim P (Some k) v v' -> dsim P d d' -> dsim P (lru_set n (Some k) v d) (lru_set n (Some k) v' d').
Proof.
  intros Hv H. unfold lru_set. pose proof (move_sim P (Some k) _ _ (set_sim P _ _ _ _ _ Hv H)) as M. rewrite (dsim_length _ _ _ M).
  destruct (Nat.ltb _ _); [|exact M]. destruct M; [constructor|assumption].
Qed.
Lemma c_set_sim P k v v' c c' : vsim P (Some k) v v' -> csim P c c' -> csim P (c_set (Some k) v c) (c_set (Some k) v' c').
Proof.
  intros Hv H. destruct c, c'; cbn in *; try contradiction; [now apply set_sim| |exact I]. destruct H as [-> H]. split; [reflexivity|now apply lru_set_sim].
Qed.
Lemma c_in_sim P k c c' : csim P c c' -> c_in k c = c_in k c'.
Proof. destruct c, c'; cbn; try contradiction; auto; intros H; f_equal; [|destruct H as [_ H]]; now apply (in_sim P). Qed.
Lemma c_get_sim P k c c' : csim P c c' ->
  match c_get k c, c_get k c' with
  | Some (v, c1), Some (v', c1') => vsim P k v v' /\ csim P c1 c1'
  | None, None => True
  | _, _ => False
  end.
Proof.
  destruct c as [d|n d|], c' as [d'|n' d'|]; cbn [csim c_get]; try contradiction; intros H.
  - pose proof (find_sim P k d d' H) as F. destruct (od_find k d), (od_find k d'); cbn; try contradiction; auto.
  - destruct H as [-> H]. pose proof (find_sim P k d d' H) as F. pose proof (lru_get_value k d) as G. pose proof (lru_get_value k d') as G'.
    unfold lru_get in *. pose proof (in_sim P k d d' H) as I. rewrite <- I in *. destruct (od_in k d); cbn in *.
    + rewrite G, G'. split; [|split; [reflexivity|now apply move_sim]]. destruct (od_find k d), (od_find k d'); try contradiction; [exact F|congruence].
    + split; [congruence|now split].
  - split; [congruence|exact I].
Qed.
Lemma mutate_sim (P : key -> Prop) k v c c' : ~ P k -> csim P c c' -> csim P (mutate k v c) c'.
Proof.
  intros N. assert (D : forall d d', dsim P d d' -> dsim P (map (fun e : key * pyval V => if key_eqb (fst e) k then (fst e, Some v) else e) d) d').
  { induction 1 as [|e e' d d' [E S] _ IH]; [constructor|]. cbn [map]. constructor; [|exact IH]. destruct (key_eqb (fst e) k) eqn:K; [|now split].
    apply key_eqb_eq in K. split; [exact E|]. cbn. intros HP. rewrite K in HP. now contradiction N. }
  destruct c, c'; cbn; try contradiction; auto. intros [-> H]. split; auto.
Qed.

Variable dump : V -> str.
Variable load : str -> option V.
Variable out_dir : str.
Notation bin := (bin_path out_dir).

Lemma get_sim P n c c' f : csim P c c' ->
  match get_result load out_dir n c f, get_result load out_dir n c' f with
  | Found v c1, Found v' c1' => vsim P (Some (bin n)) v v' /\ csim P c1 c1'
  | Missing c1, Missing c1' => csim P c1 c1'
  | Hang, Hang => True
  | _, _ => False
  end.
Proof.
  intros H. unfold get_result. rewrite <- (c_in_sim P _ _ _ H).
  assert (F : forall c c', csim P c c' ->
    match (match c_get (Some (bin n)) c with Some (v, c1) => Found v c1 | None => Missing c end),
          (match c_get (Some (bin n)) c' with Some (v, c1) => Found v c1 | None => Missing c' end) with
    | Found v c1, Found v' c1' => vsim P (Some (bin n)) v v' /\ csim P c1 c1'
    | Missing c1, Missing c1' => csim P c1 c1'
    | Hang, Hang => True
    | _, _ => False
    end).
  { clear c c' H. intros c c' H. pose proof (c_get_sim P (Some (bin n)) c c' H) as G.
    destruct (c_get (Some (bin n)) c) as [[v c1]|], (c_get (Some (bin n)) c') as [[v' c1']|]; try contradiction; [exact G|exact H]. }
  destruct (c_in (Some (bin n)) c) as [[|]|]; [now apply F| |exact I].
  destruct (lookup (bin n) f) as [s|]; [|exact H]. destruct (load s) as [v|]; [|exact H]. apply F. apply c_set_sim; [intros _; reflexivity|exact H].
Qed.

(** worlds: [S q] the keys whose values agree in process [q] *)
Definition wsim (S : nat -> key -> Prop) (w w' : procs V) : Prop := forall q, csim (S q) (w q) (w' q).
Lemma upd_sim S w w' q c c' : wsim S w w' -> csim (S q) c c' -> wsim S (upd w q c) (upd w' q c').
Proof. intros H Hc r. unfold upd. destruct (Nat.eqb_spec r q) as [Er|Hn]; [subst r; exact Hc|apply H]. Qed.

Definition unchanging (e : pevent V) : bool := match e with EMutate _ _ _ => false | _ => true end.
Lemma run_sim (S : nat -> key -> Prop) es : (forall q m v, In (EMutate q m v) es -> ~ S q (Some (bin m))) -> forall w w' f, wsim S w w' ->
  let '(w1, f1) := prun dump load out_dir es w f in let '(w2, f2) := prun dump load out_dir (filter unchanging es) w' f in wsim S w1 w2 /\ f1 = f2.
Proof.
  induction es as [|e es IH]; intros N w w' f H; [now split|].
  assert (N' : forall q m v, In (EMutate q m v) es -> ~ S q (Some (bin m))) by (intros q m v I; apply (N q m v); now right). specialize (IH N').
  destruct e as [q m v|q m|q c|q m v]; cbn [filter unchanging prun pstep].
  - unfold save_result. apply IH. apply upd_sim; [exact H|]. apply c_set_sim; [intros _; reflexivity|apply H].
  - pose proof (get_sim (S q) m (w q) (w' q) f (H q)) as G.
    destruct (get_result load out_dir m (w q) f) as [x c|c|], (get_result load out_dir m (w' q) f) as [x' c'|c'|]; try contradiction; apply IH.
    + apply upd_sim; [exact H|apply G].
    + apply upd_sim; [exact H|exact G].
    + exact H.
  - apply IH. apply upd_sim; [exact H|apply csim_refl].
  - apply IH. intros r. unfold upd. destruct (Nat.eqb_spec r q) as [Er|Hn]; [subst r|apply H]. apply mutate_sim; [|apply H]. apply (N q m v). now left.
Qed.

(** what is left of a run without the changes *)
Lemma filter_split (es : list (pevent V)) : forall a e b, filter unchanging es = a ++ e :: b ->
  exists a' b', es = a' ++ e :: b' /\ a = filter unchanging a' /\ b = filter unchanging b'.
Proof.
  induction es as [|x es IH]; intros a e b H; [destruct a; discriminate|]. cbn [filter] in H. destruct (unchanging x) eqn:U.
  - destruct a as [|y a]; cbn [app] in H; injection H as Hx H.
    + subst. now exists [], es.
    + subst y. destruct (IH _ _ _ H) as (a' & b' & -> & -> & ->). exists (x :: a'), b'. cbn [app filter]. now rewrite U.
  - destruct (IH _ _ _ H) as (a' & b' & -> & -> & ->). exists (x :: a'), b'. cbn [app filter]. now rewrite U.
Qed.
Lemma touched_filter es p n : touched (filter unchanging es) p n -> touched es p n.
Proof.
  intros (a & e & b & E & K & R). apply filter_split in E as (a' & b' & -> & -> & ->). exists a', e, b'. split; [reflexivity|]. split; [exact K|].
  intros c I. apply (R c). apply filter_In. now split.
Qed.
Lemma coherent_filter es : coherent es -> coherent (filter unchanging es).
Proof.
  intros C a q n v b E p Hp T. apply filter_split in E as (a' & b' & -> & -> & ->). apply (C a' q n v b' eq_refl p Hp). now apply touched_filter.
Qed.
Lemma last_saved_filter es n v : last_saved es n v -> last_saved (filter unchanging es) n v.
Proof.
  intros (a & p & b & -> & H). exists (filter unchanging a), p, (filter unchanging b). split; [now rewrite filter_app|].
  intros q v' I. apply filter_In in I as [I _]. now apply (H q v').
Qed.
Lemma prun_app es1 es2 w f : prun dump load out_dir (es1 ++ es2) w f = let '(w1, f1) := prun dump load out_dir es1 w f in prun dump load out_dir es2 w1 f1.
Proof.
  revert w f. induction es1 as [|e es1 IH]; intros w f; [reflexivity|]. cbn [app prun]. destruct (pstep dump load out_dir e w f) as [[r w1] f1]. apply IH.
Qed.
(** the last restart of a process *)
Lemma last_restart (es : list (pevent V)) p : (forall c, ~ In (ERestart p c) es) \/ exists a c b, es = a ++ ERestart p c :: b /\ forall c', ~ In (ERestart p c') b.
Proof.
  induction es as [|e es [IH|(a & c & b & -> & IH)]]; [left; intros c []| |right; exists (e :: a), c, b; now split].
  assert (D : (exists c, e = ERestart p c) \/ forall c, e <> ERestart p c).
  { destruct e as [q m v|q m|q c|q m v]; try (right; discriminate). destruct (Nat.eq_dec q p) as [-> |Hn]; [left; now exists c|]. right. intros c' E. injection E as E _. contradiction. }
  destruct D as [[c ->]|D]; [right; now exists [], c, es|]. left. intros c [E|I]; [now apply (D c)|now apply (IH c)].
Qed.

Hypothesis RT : forall v, load (dump v) = Some v.
Hypothesis DIR : dir_name out_dir.
Lemma isolation es w0 f0 p n v : (forall p, empty_cache (w0 p)) -> (forall n, rel_name n -> lookup (bin n) f0 = None) ->
  (forall q c, In (ERestart q c) es -> empty_cache c) -> names_in es rel_name -> rel_name n ->
  coherent es -> last_saved es n (Some v) ->
  (forall a v' b, es = a ++ EMutate p n v' :: b -> exists c, In (ERestart p c) b) ->
  let '(w, f) := prun dump load out_dir es w0 f0 in exists c, get_result load out_dir n (w p) f = Found (Some v) c.
Proof.
  intros W0 F0 RS NI Rn CO LS MU.
  pose proof (get_last dump load out_dir RT DIR (filter unchanging es) w0 f0 p n W0 F0) as G.
  destruct G as (G & _ & _).
  { apply Forall_forall. intros e Ie. apply filter_In in Ie as [Ie U]. destruct e; try exact I; [exact (RS _ _ Ie)|discriminate]. }
  { now apply coherent_filter. }
  { intros e I. apply filter_In in I as [I _]. now apply NI. }
  { exact Rn. }
  specialize (G v (last_saved_filter es n (Some v) LS)).
  set (S := fun q k => q = p /\ k = Some (bin n)).
  assert (SIM : let '(w1, f1) := prun dump load out_dir es w0 f0 in
    let '(w2, f2) := prun dump load out_dir (filter unchanging es) w0 f0 in wsim S w1 w2 /\ f1 = f2).
  { assert (NS : forall l, (forall x, In x l -> In x es) -> (forall v', ~ In (EMutate p n v') l) -> forall q m v', In (EMutate q m v') l -> ~ S q (Some (bin m))).
    { intros l L NM q m v' I [-> E]. injection E as E. apply (bin_inj out_dir DIR) in E; [|apply (NI _ (L _ I))|exact Rn]. subst m. now apply (NM v'). }
    destruct (last_restart es p) as [NR|(a & c & b & -> & NR)].
    - apply run_sim; [|intros q; apply csim_refl]. apply NS; [auto|]. intros v' I. apply in_split in I as (a & b & E). destruct (MU a v' b E) as [c I]. apply (NR c).
      rewrite E. apply in_or_app. right. now right.
    - rewrite filter_app. cbn [filter unchanging]. rewrite !prun_app.
      pose proof (run_sim (fun _ _ => False) a (fun _ _ _ _ Z => Z) w0 w0 f0 (fun q => csim_refl _ _)) as A.
      destruct (prun dump load out_dir a w0 f0) as [w1 f1]. destruct (prun dump load out_dir (filter unchanging a) w0 f0) as [w2 f2]. destruct A as [A <-].
      cbn [prun pstep]. apply run_sim.
      + apply NS; [intros x I; apply in_or_app; right; now right|]. intros v' I. apply in_split in I as (b1 & b2 & E).
        destruct (MU (a ++ ERestart p c :: b1) v' b2) as [c' I]; [rewrite E, <- app_assoc; reflexivity|]. apply (NR c'). rewrite E. apply in_or_app. right. now right.
      + intros q. unfold upd. destruct (Nat.eqb_spec q p) as [Eq|Hn]; [apply csim_refl|].
        specialize (A q). unfold csim in *. destruct (w1 q) as [d|k d|], (w2 q) as [d'|k' d'|]; try contradiction; auto.
        * apply (dsim_weaken (fun _ => False)); [|exact A]. intros k [Z _]. contradiction.
        * destruct A as [-> A]. split; [reflexivity|]. apply (dsim_weaken (fun _ => False)); [|exact A]. intros j [Z _]. contradiction. }
  destruct (prun dump load out_dir es w0 f0) as [w1 f1]. destruct (prun dump load out_dir (filter unchanging es) w0 f0) as [w2 f2]. cbn [fst snd] in *.
  destruct SIM as [SIM <-]. destruct G as [c' G]. pose proof (get_sim (S p) n (w1 p) (w2 p) f1 (SIM p)) as X. rewrite G in X.
  destruct (get_result load out_dir n (w1 p) f1) as [x c|c|]; try contradiction. destruct X as [X _]. rewrite X by (now split). now exists c.
Qed.
End Sim.
