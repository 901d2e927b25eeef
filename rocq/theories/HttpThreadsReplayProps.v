(** C122: the threads of a recorded test in its replay. *)
From Verif Require Import PyStrFacts HttpModel HttpSessionModel HttpThreadsModel HttpThreadsSpec HttpThreadsProofs HttpThreadsProps HttpProofs HttpHash HttpProps HttpOrderProofs HttpOrderProps
  HttpListModel HttpListProofs HttpListProps TokenizerProps.
From Coq Require Import Permutation Lia.

(** ** Lists *)
Lemma of_thread_app {E} t (a b : list (nat * E)) : of_thread t (a ++ b) = of_thread t a ++ of_thread t b.
Proof. unfold of_thread. now rewrite filter_app, map_app. Qed.
Lemma of_thread_cons {E} t t' (e : E) l : of_thread t ((t', e) :: l) = if Nat.eqb t' t then e :: of_thread t l else of_thread t l.
Proof. unfold of_thread. cbn [filter fst]. now destruct (Nat.eqb t' t). Qed.
Lemma of_thread_nil {E} t : of_thread t (@nil (nat * E)) = [].
Proof. reflexivity. Qed.
Lemma of_thread_map {E F} (f : E -> F) t l : of_thread t (map (fun e => (fst e, f (snd e))) l) = map f (of_thread t l).
Proof. induction l as [|[t' e] l IH]; [reflexivity|]. cbn [map fst snd]. rewrite !of_thread_cons. destruct (Nat.eqb t' t); cbn [map]; now rewrite IH. Qed.
Lemma of_thread_in {E} t (e : E) l : In e (of_thread t l) <-> In (t, e) l.
Proof.
  unfold of_thread. rewrite in_map_iff. split.
  - intros ((t' & e') & <- & I). apply filter_In in I as [I N]. apply Nat.eqb_eq in N. cbn in N. now subst.
  - intros I. exists (t, e). split; [reflexivity|]. apply filter_In. split; [exact I|apply Nat.eqb_refl].
Qed.
Lemma of_thread_first {E} t (e : E) : forall l r, of_thread t l = e :: r -> exists l1 l2, l = l1 ++ (t, e) :: l2 /\ of_thread t l1 = [] /\ of_thread t l2 = r.
Proof.
  induction l as [|[t' e'] l IH]; intros r; [discriminate|]. rewrite of_thread_cons. destruct (Nat.eqb_spec t' t) as [->|N].
  - intros [= -> <-]. exists [], l. auto.
  - intros H. destruct (IH _ H) as (l1 & l2 & -> & A & B). exists ((t', e') :: l1), l2. split; [reflexivity|]. split; [|exact B].
    rewrite of_thread_cons. destruct (Nat.eqb_spec t' t); [contradiction|exact A].
Qed.
(** lists with the same part of each thread are permutations of each other *)
Lemma threads_perm {E} : forall (l l' : list (nat * E)), (forall t, of_thread t l = of_thread t l') -> Permutation l l'.
Proof.
  induction l as [|[t e] l IH]; intros l' H.
  - destruct l' as [|[t e] l']; [constructor|]. specialize (H t). rewrite of_thread_cons, Nat.eqb_refl in H. discriminate.
  - pose proof (H t) as HT. rewrite of_thread_cons, Nat.eqb_refl in HT. symmetry in HT. destruct (of_thread_first _ _ _ _ HT) as (l1 & l2 & -> & N1 & E2).
    apply Permutation_cons_app. apply IH. intros t'. rewrite of_thread_app. specialize (H t'). rewrite of_thread_app, !of_thread_cons in H.
    destruct (Nat.eqb_spec t t') as [EQ|NE]; [rewrite <- EQ in *|exact H]. rewrite N1 in *. cbn [app] in *. injection H as H. exact H.
Qed.
Lemma filter_thread {E} (p : E -> bool) t l : (forall t' e, In (t', e) l -> p e = true -> t' = t) -> filter p (map snd l) = filter p (of_thread t l).
Proof.
  induction l as [|[t' e] l IH]; intros H; [reflexivity|]. rewrite of_thread_cons. cbn [map snd filter].
  rewrite IH by (intros t2 e2 I; apply H; now right). specialize (H t' e (or_introl eq_refl)).
  destruct (p e) eqn:P; destruct (Nat.eqb_spec t' t) as [->|N]; cbn [filter]; rewrite ?P; try reflexivity. now elim N; apply H.
Qed.
Lemma nth_filter {E} (p : E -> bool) : forall l m e, nth_error l m = Some e -> p e = true -> nth_error (filter p l) (length (filter p (firstn m l))) = Some e.
Proof.
  induction l as [|x l IH]; intros [|m] e; cbn [nth_error firstn filter]; try discriminate.
  - intros [= ->] P. rewrite P. reflexivity.
  - intros N P. destruct (p x); cbn [length nth_error]; now apply IH.
Qed.

Section Alone.
Variables R X Q : Type.
Variable follow : list (Q * R) -> option Q.
Variable code : list (result R X) -> option (nat * Q).
Notation al := (alone R X Q follow code).
(** what matters to the thread *)
Definition gist (e : seen R X Q) : option (Q * outcome R X) := match e with Hop q _ o _ => Some (q, o) | Late => None end.

Lemma alone_snoc_inv l e chain rs : al (l ++ [e]) chain rs ->
  match e with
  | Late => exists rs0 s q, al l [] rs0 /\ code rs0 = Some (s, q) /\ chain = [] /\ rs = rs0 ++ [TimedOut]
  | Hop q real o used => exists chain0 rs0, al l chain0 rs0 /\ wants R X Q follow code chain0 rs0 q /\ (chain, rs) = after R X Q follow chain0 rs0 q o
  end.
Proof.
  intros H. inversion H as [E|l' rs' s q AL C E|l' chain' rs' q real o used AL WA E]; [now apply app_cons_not_nil in E| |].
  - apply app_inj_tail in E as [-> <-]. eauto 10.
  - apply app_inj_tail in E as [-> <-]. exists chain', rs'. split; [exact AL|]. split; [exact WA|]. now rewrite <- surjective_pairing.
Qed.
Lemma alone_split a b chain rs : al (a ++ b) chain rs -> exists chain1 rs1 more, al a chain1 rs1 /\ rs = rs1 ++ more.
Proof.
  revert chain rs. induction b as [|e b IH] using rev_ind; intros chain rs H.
  - rewrite app_nil_r in H. exists chain, rs, []. split; [exact H|now rewrite app_nil_r].
  - rewrite app_assoc in H. apply alone_snoc_inv in H. destruct e as [q real o used|].
    + destruct H as (chain0 & rs0 & AL & _ & AF). destruct (IH _ _ AL) as (c1 & r1 & more & A1 & ->). exists c1, r1.
      unfold after in AF. destruct o as [r| |x]; [destruct (follow (chain0 ++ [(q, r)]))| |]; injection AF as -> ->; eexists; (split; [exact A1|]); rewrite <- ?app_assoc; reflexivity.
    + destruct H as (rs0 & s & q & AL & _ & -> & ->). destruct (IH _ _ AL) as (c1 & r1 & more & A1 & ->). exists c1, r1, (more ++ [TimedOut]). split; [exact A1|now rewrite app_assoc].
Qed.
Lemma alone_det : forall l l' chain rs chain' rs', map gist l = map gist l' -> al l chain rs -> al l' chain' rs' -> chain = chain' /\ rs = rs'.
Proof.
  induction l as [|e l IH] using rev_ind; intros l' chain rs chain' rs' E H H'.
  - destruct l'; [|discriminate]. inversion H; [|now destruct l|now destruct l]. inversion H'; [auto|now destruct l|now destruct l].
  - destruct l' as [|e' l' _] using rev_ind; [now destruct l|]. rewrite !map_app in E. apply app_inj_tail in E as [E EE].
    apply alone_snoc_inv in H, H'. destruct e as [q real o u|], e' as [q' real' o' u'|]; cbn [gist] in EE; try discriminate EE.
    + injection EE as <- <-. destruct H as (c1 & r1 & A1 & _ & F1), H' as (c2 & r2 & A2 & _ & F2). destruct (IH _ _ _ _ _ E A1 A2) as [<- <-]. rewrite <- F1 in F2. now injection F2 as -> ->.
    + destruct H as (r1 & s1 & q1 & A1 & _ & -> & ->), H' as (r2 & s2 & q2 & A2 & _ & -> & ->). destruct (IH _ _ _ _ _ E A1 A2) as [_ <-]. auto.
Qed.
Lemma wants_fun chain rs q q' : wants R X Q follow code chain rs q -> wants R X Q follow code chain rs q' -> q = q'.
Proof. unfold wants. destruct chain; [intros (s & E) (s' & E')|intros E E']; congruence. Qed.
End Alone.

(** the answered requests, with their threads *)
Definition rows {R X Q} (l : list (nat * seen R X Q)) : list (nat * (Q * (R + X) * outcome R X * bool)) :=
  flat_map (fun e => match snd e with Hop q real o used => [(fst e, (q, real, o, used))] | Late => [] end) l.
Definition row_hop {R X Q} (h : Q * (R + X) * outcome R X * bool) : seen R X Q := let '(q, real, o, used) := h in Hop q real o used.
Lemma rows_answered {R X Q} (l : list (nat * seen R X Q)) : answered l = map snd (rows l).
Proof. induction l as [|[t [q real o u|]] l IH]; [reflexivity| |exact IH]. cbn [answered rows flat_map snd map app]. unfold answered, rows in IH. now rewrite IH. Qed.
Lemma rows_no_late {R X Q} (l : list (nat * seen R X Q)) : (forall t, ~ In (t, Late) l) -> l = map (fun e => (fst e, row_hop (snd e))) (rows l).
Proof.
  induction l as [|[t [q real o u|]] l IH]; intros N; [reflexivity| |].
  - cbn [rows flat_map snd fst map app row_hop]. f_equal. apply IH. intros t' I. apply (N t'). now right.
  - elim (N t). now left.
Qed.
Lemma gist_row {R X Q} (h : Q * (R + X) * outcome R X * bool) : gist R X Q (row_hop h) = Some (a_query h, a_outcome h).
Proof. now destruct h as [[[q real] o] u]. Qed.
Definition pair_of {R X Q} (h : Q * (R + X) * outcome R X * bool) : Q * outcome R X := (a_query h, a_outcome h).

Lemma answers_filter {R X Q} (hash : Q -> str) (h : str) (l : list (Q * (R + X) * outcome R X * bool)) :
  answers h (map (fun c => hash (a_query c)) l) (map a_outcome l) = map a_outcome (filter (fun c => str_eqb (hash (a_query c)) h) l).
Proof. unfold answers. induction l as [|c l IH]; [reflexivity|]. cbn [map combine filter fst]. destruct (str_eqb _ h); cbn [map snd]; now rewrite IH. Qed.

(** A test whose threads make requests, recorded in one interleaving and replayed in another one, if no two threads make requests
    with the same key, the responses survive their file and nobody has to wait for the lock too long: without the network, every thread gets
    the results it got in the capture, in the same order; and when all have ended the same list of requests is printed. *)
Theorem C122_replay (cc : CharClass) (sha : obj -> str) (ign : ignore) (R X A A' : Type) (to_disk : R -> option R) url_of follow code
    capture files refresh (w0 wc : world R X A request) lc hide stored listing (w0' wr : world R X A' request) lr
    (no_collision : forall a b, let qs := map a_query (answered lc ++ answered lr) in asked cc ign qs (length qs) a -> asked cc ign qs (length qs) b -> (sha a = sha b <-> same a b)) :
  let key := key_of cc sha ign None in
  at_start w0 -> steps cc sha R X A request url_of key follow capture (load cc sha R ign None files refresh) code w0 lc wc ->
  (forall t, outside t wc /\ code t (th_results (w_threads wc t)) = None) ->
  (forall t, ~ In (t, Late) lc) -> (forall h, In h (answered lc) -> exists r, a_outcome h = Returned r /\ to_disk r = Some r) ->
  (forall t t' q q' real real' o o' used used', In (t, Hop q real o used) lc -> In (t', Hop q' real' o' used') lc -> k_hash (key q) = k_hash (key q') -> t = t') ->
  stop R to_disk hide (w_requests wc) [] = Some stored -> Permutation stored listing ->
  at_start w0' -> steps cc sha R X A' request url_of key follow false (load cc sha R ign None listing false) code w0' lr wr -> (forall t, ~ In (t, Late) lr) ->
  (forall h, In h (answered lr) -> a_used h = false) /\
  (forall t, outside t wr -> exists more, th_results (w_threads wc t) = th_results (w_threads wr t) ++ more) /\
  (forall t, outside t wr -> code t (th_results (w_threads wr t)) = None -> th_results (w_threads wr t) = th_results (w_threads wc t)) /\
  ((forall t, outside t wr /\ code t (th_results (w_threads wr t)) = None) -> snapshot_lines (w_requests wr) = snapshot_lines (w_requests wc)).
Proof.
  intros key ST SC FIN NL HR DIS STOP PERM ST' SR NL'.
  destruct (C122_one_at_a_time _ _ _ _ _ _ _ _ _ _ _ _ _ _ _ ST SC) as (TR & AL & _).
  destruct (C122_one_at_a_time _ _ _ _ _ _ _ _ _ _ _ _ _ _ _ ST' SR) as (TR' & AL' & _).
  set (cs := map (fun h : request * (R + X) * outcome R X * bool => (a_query h, a_real h)) (answered lc)).
  set (cs' := map (fun h : request * (R + X) * outcome R X * bool => (a_query h, a_real h)) (answered lr)).
  assert (K : forall l : list (request * (R + X) * outcome R X * bool), map (fun h => (key (a_query h), a_real h)) l = keyed cc sha ign None (map (fun h => (a_query h, a_real h)) l)).
  { intros l. unfold keyed. now rewrite map_map. }
  rewrite K in TR, TR'. fold cs in TR. fold cs' in TR'.
  assert (QS : map fst (cs ++ cs') = map a_query (answered lc ++ answered lr)) by (unfold cs, cs'; rewrite !map_app, !map_map; reflexivity).
  assert (LQ : length (cs ++ cs') = length (map a_query (answered lc ++ answered lr))) by (rewrite <- QS, map_length; reflexivity).
  assert (HRO : Forall (fun o => exists r, o = Returned r) (map a_outcome (answered lc))).
  { apply Forall_forall. intros o I. apply in_map_iff in I as (h & <- & I). destruct (HR h I) as (r & E & _). eauto. }
  cbv zeta in no_collision. rewrite <- QS in no_collision.
  assert (NC : forall a b, asked cc ign (map fst (cs ++ cs')) (length (cs ++ cs')) a -> asked cc ign (map fst (cs ++ cs')) (length (cs ++ cs')) b -> (sha a = sha b <-> same a b)).
  { rewrite LQ. rewrite QS, map_length in *. exact no_collision. }
  pose proof (C117_order cc sha ign R X to_disk capture files refresh cs _ _ _ hide stored listing cs' NC TR HRO STOP PERM) as ORD. rewrite TR' in ORD.
  destruct ORD as (_ & USED & ANS).
  assert (HH : forall l : list (request * (R + X) * outcome R X * bool), map (fun c : request * (R + X) => k_hash (key_of cc sha ign None (fst c))) (map (fun h => (a_query h, a_real h)) l) =
                map (fun h => k_hash (key (a_query h))) l) by (intros l; rewrite map_map; reflexivity).
  (* the rows *)
  set (C := rows lc). set (P := rows lr).
  assert (EC : answered lc = map snd C) by apply rows_answered. assert (EP : answered lr = map snd P) by apply rows_answered.
  assert (LC : forall t, of_thread t lc = map row_hop (of_thread t C)) by (intros t; rewrite (rows_no_late lc NL) at 1; apply of_thread_map).
  assert (LR : forall t, of_thread t lr = map row_hop (of_thread t P)) by (intros t; rewrite (rows_no_late lr NL') at 1; apply of_thread_map).
  assert (INC : forall t h, In (t, h) C -> exists q real o used, h = (q, real, o, used) /\ In (t, Hop q real o used) lc).
  { intros t h I. destruct h as [[[q real] o] u]. exists q, real, o, u. split; [reflexivity|]. apply of_thread_in. rewrite LC. apply in_map_iff. exists (q, real, o, u).
    split; [reflexivity|now apply of_thread_in]. }
  assert (ALC : forall t, alone R X request follow (code t) (map row_hop (of_thread t C)) [] (th_results (w_threads wc t))).
  { intros t. destruct (AL t) as (chain & rs & H & O). destruct (O (proj1 (FIN t))) as [-> ->]. now rewrite <- LC. }
  (* the core: thread by thread, the replay repeats the capture *)
  assert (CORE : forall n t, exists more, map pair_of (of_thread t C) = map pair_of (of_thread t (firstn n P)) ++ more).
  { induction n as [|n IH]; intros t; [eexists; reflexivity|].
    destruct (nth_error P n) as [[t0 h]|] eqn:EN.
    2:{ rewrite firstn_all2 by (apply nth_error_None in EN; lia). specialize (IH t). rewrite firstn_all2 in IH by (now apply nth_error_None). exact IH. }
    assert (SPL : firstn (S n) P = firstn n P ++ [(t0, h)]).
    { clear - EN. revert n EN. induction P as [|x P IHP]; intros [|n] EN; try discriminate; cbn in *; [now injection EN as ->|]. f_equal. now apply IHP. }
    rewrite SPL, of_thread_app, of_thread_cons. destruct (Nat.eqb_spec t0 t) as [->|NT].
    2:{ rewrite of_thread_nil, app_nil_r. apply IH. }
    rewrite of_thread_nil. destruct (IH t) as (more & EM).
    set (now_ := of_thread t (firstn n P)) in *.
    (* what the thread wants *)
    assert (WA : exists chain rs, alone R X request follow (code t) (map row_hop now_) chain rs /\ wants R X request follow (code t) chain rs (a_query h)).
    { destruct (AL' t) as (chain & rs & H & _). rewrite LR in H. rewrite <- (firstn_skipn (S n) P), of_thread_app, SPL, of_thread_app, of_thread_cons, Nat.eqb_refl in H.
      rewrite of_thread_nil in H. fold now_ in H. rewrite !map_app in H. apply alone_split in H as (c1 & r1 & _ & H & _).
      cbn [map] in H. apply alone_snoc_inv in H. destruct h as [[[q real] o] u]. cbn [row_hop a_query] in *. destruct H as (c0 & r0 & H & W & _). eauto. }
    destruct WA as (chain & rs & WAL & WA).
    set (m := length now_) in *.
    assert (LM : length (map pair_of now_) = m) by apply map_length.
    assert (FM : map pair_of (firstn m (of_thread t C)) = map pair_of now_).
    { rewrite <- firstn_map, EM, firstn_app, LM, Nat.sub_diag. cbn [firstn]. rewrite app_nil_r, <- LM. apply firstn_all. }
    assert (GI : map (gist R X request) (map row_hop (firstn m (of_thread t C))) = map (gist R X request) (map row_hop now_)).
    { rewrite !map_map. rewrite (map_ext _ (fun h => Some (pair_of h))) by (intros; apply gist_row). rewrite (map_ext (fun x => gist R X request (row_hop x)) (fun h => Some (pair_of h))) by (intros; apply gist_row).
      rewrite <- !(map_map pair_of Some). now rewrite FM. }
    (* the capture goes on in the same way *)
    destruct (nth_error (of_thread t C) m) as [hc|] eqn:NC'.
    2:{ exfalso. assert (firstn m (of_thread t C) = of_thread t C) as FA by (apply firstn_all2; now apply nth_error_None). rewrite FA in GI.
        destruct (alone_det _ _ _ _ _ _ _ _ _ _ _ GI (ALC t) WAL) as [<- <-]. destruct WA as (s & E). rewrite (proj2 (FIN t)) in E. discriminate. }
    destruct (nth_error_split _ _ NC') as (c1 & c2 & ECT & LC1). assert (F1 : firstn m (of_thread t C) = c1) by (rewrite ECT, <- LC1, firstn_app, Nat.sub_diag, firstn_all; apply app_nil_r).
    rewrite F1 in *.
    assert (QE : a_query hc = a_query h).
    { pose proof (ALC t) as H. rewrite ECT, map_app in H. cbn [map] in H. change (row_hop hc :: map row_hop c2) with ([row_hop hc] ++ map row_hop c2) in H. rewrite app_assoc in H.
      apply alone_split in H as (x1 & x2 & _ & H & _). apply alone_snoc_inv in H. destruct hc as [[[q real] o] u]. cbn [row_hop a_query] in *. destruct H as (c0 & r0 & H & W & _).
      destruct (alone_det _ _ _ _ _ _ _ _ _ _ _ GI H WAL) as [-> ->]. eapply wants_fun; eassumption. }
    (* and gives the same answer *)
    set (hs := fun c : request * (R + X) * outcome R X * bool => str_eqb (k_hash (key (a_query c))) (k_hash (key (a_query h)))).
    assert (INCT : forall x, In x (of_thread t C) -> In (t, x) C) by (intros x; apply of_thread_in).
    assert (IHC : In (t, hc) C) by (apply INCT; rewrite ECT; apply in_or_app; right; now left).
    assert (ONE : forall t' x, In (t', x) C -> hs x = true -> t' = t).
    { intros t' x I E. destruct (INC _ _ I) as (q1 & re1 & o1 & u1 & -> & I1). destruct (INC _ _ IHC) as (q2 & re2 & o2 & u2 & EH & I2). subst hc. cbn [a_query] in *.
      eapply DIS; [exact I1|exact I2|]. unfold hs in E. cbn [a_query] in E. destruct (str_eqb_spec (k_hash (key q1)) (k_hash (key (a_query h)))) as [E'|]; [|discriminate]. now rewrite E', <- QE. }
    assert (ONE' : forall t' x, In (t', x) (firstn n P) -> hs x = true -> t' = t).
    { intros t' x I E. destruct (IH t') as (more' & EM'). assert (IP : In (pair_of x) (map pair_of (of_thread t' C))).
      { rewrite EM'. apply in_or_app. left. apply in_map. now apply of_thread_in. }
      apply in_map_iff in IP as (y & EY & IY). apply of_thread_in in IY. apply (ONE t' y IY). unfold hs in *. unfold pair_of in EY. injection EY as EQ _. now rewrite EQ. }
    assert (NTH : nth_error cs' n = Some (a_query h, a_real h)).
    { unfold cs'. rewrite EP, map_map. rewrite nth_error_map, EN. reflexivity. }
    pose proof (ANS n _ NTH) as AN. cbv zeta in AN. cbn [fst] in AN.
    assert (CNT : length (filter (fun c' : request * (R + X) => str_eqb (k_hash (key_of cc sha ign None (fst c'))) (k_hash (key_of cc sha ign None (a_query h)))) (firstn n cs')) = length (filter hs c1)).
    { assert (CL : length (filter hs c1) = length (filter hs now_)).
      { assert (G : forall l l' : list (request * (R + X) * outcome R X * bool), map pair_of l = map pair_of l' -> length (filter hs l) = length (filter hs l')).
        { induction l as [|x l IHl]; intros [|y l'] E; try discriminate; [reflexivity|]. cbn [map] in E. injection E as E1 E2 E3. cbn [filter]. assert (hs x = hs y) as -> by (unfold hs; now rewrite E1).
          destruct (hs y); cbn [length]; now rewrite (IHl _ E3). }
        now apply G. }
      rewrite CL. unfold now_. rewrite <- (filter_thread hs t (firstn n P)) by exact ONE'. unfold cs'. rewrite EP, map_map. rewrite firstn_map, <- firstn_map.
      rewrite firstn_map. clear. generalize (firstn n P). intros l. induction l as [|x l IHl]; [reflexivity|]. cbn [map filter fst]. unfold hs at 1. unfold key.
      destruct (str_eqb _ _); cbn [length]; now rewrite IHl. }
    rewrite CNT in AN. unfold cs in AN. rewrite HH in AN. change (k_hash (key_of cc sha ign None (a_query h))) with (k_hash (key (a_query h))) in AN.
    rewrite (answers_filter (fun q => k_hash (key q))) in AN. rewrite EC in AN. change (fun c : request * (R + X) * outcome R X * bool => str_eqb (k_hash (key (a_query c))) (k_hash (key (a_query h)))) with hs in AN.
    rewrite (filter_thread hs t C ONE) in AN. rewrite nth_error_map in AN.
    assert (HSC : hs hc = true) by (unfold hs; rewrite QE; apply str_eqb_refl).
    pose proof (nth_filter hs (of_thread t C) m hc NC' HSC) as NF. rewrite F1 in NF. rewrite NF in AN. cbn [option_map] in AN.
    destruct AN as (r & r' & EO & TD & EN'). rewrite EP, map_map, nth_error_map, EN in EN'. cbn [option_map snd] in EN'. injection EN' as EN'.
    destruct (HR hc) as (r2 & EO2 & TD2); [rewrite EC; change hc with (snd (t, hc)); now apply in_map|]. rewrite EO in EO2. injection EO2 as <-. rewrite TD in TD2. injection TD2 as ->.
    exists (map pair_of c2). rewrite ECT, map_app. cbn [map]. rewrite FM, map_app. cbn [map]. assert (pair_of hc = pair_of h) as -> by (unfold pair_of; now rewrite QE, EO, EN'). now rewrite <- app_assoc. }
  assert (ALLP : forall t, exists more, map pair_of (of_thread t C) = map pair_of (of_thread t P) ++ more).
  { intros t. destruct (CORE (length P) t) as (more & E). rewrite firstn_all in E. eauto. }
  assert (GP : forall t, outside t wr -> exists m, alone R X request follow (code t) (map row_hop (firstn m (of_thread t C))) [] (th_results (w_threads wr t)) /\ m = length (of_thread t P)).
  { intros t OUT. destruct (ALLP t) as (more & E). destruct (AL' t) as (chain & rs & H & O). destruct (O OUT) as [-> ->]. rewrite LR in H.
    exists (length (of_thread t P)). split; [|reflexivity]. set (m := length (of_thread t P)) in *.
    assert (FM : map pair_of (firstn m (of_thread t C)) = map pair_of (of_thread t P)).
    { rewrite <- firstn_map, E, firstn_app, map_length. unfold m. rewrite Nat.sub_diag. cbn [firstn]. rewrite app_nil_r, <- (map_length pair_of). apply firstn_all. }
    pose proof (ALC t) as HC. rewrite <- (firstn_skipn m (of_thread t C)), map_app in HC. apply alone_split in HC as (c1 & r1 & _ & HC & _).
    assert (GI : map (gist R X request) (map row_hop (firstn m (of_thread t C))) = map (gist R X request) (map row_hop (of_thread t P))).
    { rewrite !map_map. rewrite (map_ext _ (fun h => Some (pair_of h))) by (intros; apply gist_row). rewrite (map_ext (fun x => gist R X request (row_hop x)) (fun h => Some (pair_of h))) by (intros; apply gist_row).
      rewrite <- !(map_map pair_of Some). now rewrite FM. }
    destruct (alone_det _ _ _ _ _ _ _ _ _ _ _ GI HC H) as [-> ->]. exact HC. }
  assert (FULL : forall t, outside t wr -> code t (th_results (w_threads wr t)) = None -> length (of_thread t P) = length (of_thread t C)).
  { intros t OUT NONE. destruct (GP t OUT) as (m & HA & EM). destruct (ALLP t) as (more & E). apply (f_equal (@length _)) in E. rewrite app_length, !map_length in E.
    destruct (nth_error (of_thread t C) m) as [hc|] eqn:EN; [|apply nth_error_None in EN; lia]. exfalso.
    destruct (nth_error_split _ _ EN) as (c1 & c2 & ECT & LC1). assert (F1 : firstn m (of_thread t C) = c1) by (rewrite ECT, <- LC1, firstn_app, Nat.sub_diag, firstn_all; apply app_nil_r).
    rewrite F1 in HA. pose proof (ALC t) as H. rewrite ECT, map_app in H. cbn [map] in H. change (row_hop hc :: map row_hop c2) with ([row_hop hc] ++ map row_hop c2) in H. rewrite app_assoc in H.
    apply alone_split in H as (x1 & x2 & _ & H & _). apply alone_snoc_inv in H. destruct hc as [[[q real] o] u]. cbn [row_hop] in *. destruct H as (c0 & r0 & H & W & _).
    destruct (alone_det _ _ _ _ _ _ _ _ _ _ _ eq_refl H HA) as [-> ->]. destruct W as (s & W). congruence. }
  split; [|split; [|split]].
  - intros h I. apply (in_map a_used) in I. now apply (proj1 (Forall_forall _ _) USED).
  - intros t OUT. destruct (GP t OUT) as (m & HA & _). pose proof (ALC t) as H. rewrite <- (firstn_skipn m (of_thread t C)), map_app in H. apply alone_split in H as (x1 & x2 & more & H & E).
    destruct (alone_det _ _ _ _ _ _ _ _ _ _ _ eq_refl H HA) as [-> ->]. eauto.
  - intros t OUT NONE. destruct (GP t OUT) as (m & HA & EM). rewrite EM, (FULL t OUT NONE), firstn_all in HA. destruct (alone_det _ _ _ _ _ _ _ _ _ _ _ eq_refl (ALC t) HA) as [_ E]. now symmetry.
  - intros ALL.
    assert (EQT : forall t, map pair_of (of_thread t C) = map pair_of (of_thread t P)).
    { intros t. destruct (ALLP t) as (more & E). pose proof (FULL t (proj1 (ALL t)) (proj2 (ALL t))) as L. pose proof (f_equal (@length _) E) as L2. rewrite app_length, !map_length in L2.
      destruct more; [now rewrite app_nil_r in E|cbn [length] in L2; lia]. }
    assert (PM : Permutation (map (fun e => (fst e, pair_of (snd e))) P) (map (fun e => (fst e, pair_of (snd e))) C)).
    { apply threads_perm. intros t. rewrite !of_thread_map. symmetry. apply EQT. }
    assert (PQ : Permutation (map a_query (answered lc)) (map a_query (answered lr))).
    { symmetry in PM. apply (Permutation_map (fun e => fst (snd e))) in PM. rewrite !map_map in PM. cbn [fst snd pair_of] in PM. rewrite EC, EP, !map_map. exact PM. }
    assert (QC : map fst cs = map a_query (answered lc)) by (unfold cs; rewrite map_map; reflexivity).
    assert (QC' : map fst cs' = map a_query (answered lr)) by (unfold cs'; rewrite map_map; reflexivity).
    rewrite <- QC, <- QC' in PQ. destruct (Permutation_map_inv _ _ PQ) as (again & EA & PA).
    assert (FA : Forall2 (fun c c' : request * (R + X) => k_hash (key_of cc sha ign None (fst c)) = k_hash (key_of cc sha ign None (fst c'))) cs again).
    { clear - EA. revert again EA. induction cs as [|c l IH]; intros [|c' l'] E; try discriminate; constructor; cbn [map] in E; injection E as E1 E2; [now rewrite E1|now apply IH]. }
    assert (NC1 : forall a b, asked cc ign (map fst (cs ++ cs')) (length cs) a -> asked cc ign (map fst (cs ++ cs')) (length cs) b -> (sha a = sha b <-> same a b)).
    { assert (MON : forall a, asked cc ign (map fst (cs ++ cs')) (length cs) a -> asked cc ign (map fst (cs ++ cs')) (length (cs ++ cs')) a).
      { intros a (q & [k|] & I & O); exists q; [exists (Some k)|exists None]; (split; [exact I|]); [|exact O]. destruct O as [L O]. split; [rewrite app_length; lia|exact O]. }
      intros a b HA HB. apply NC; now apply MON. }
    pose proof (C101_same_list cc sha ign R X to_disk capture files refresh cs _ _ _ hide stored listing cs' again NC1 TR HRO STOP PERM PA FA) as SL. rewrite TR' in SL. now destruct SL as (_ & _ & SL & _).
Qed.
Print Assumptions C122_replay.

(** ** Examples *)
Section Schedule.
Variable follow : list (request * nat) -> option request.
Variable capture : bool.
Variable snapshots : list (snap nat).
Variable code : nat -> list (result nat unit) -> option (nat * request).
Notation key := (key_of ascii_class demo_sha IgnoreAll None).
Notation wd := (world nat unit unit request).
Notation st := (step ascii_class demo_sha nat unit unit request r_url key follow capture snapshots code).
(** thread [t] does one step; [real]: what the network would do now; nothing happens if it has to wait *)
Definition move (t : nat) (real : nat + unit) (late : bool) (w : wd) : option (seen nat unit request) * wd :=
  let th := w_threads w t in
  match th_place th with
  | Outside =>
      match code t (th_results th) with
      | Some (s, q) =>
          match acquire t (w_lock w) with
          | Some l => (None, with_lock (Some l) (with_thread t {| th_place := Entered false q; th_session := s; th_hops := []; th_results := th_results th |} w))
          | None => if late then (Some Late, with_thread t {| th_place := Outside; th_session := th_session th; th_hops := []; th_results := th_results th ++ [TimedOut] |} w)
                    else (None, w)
          end
      | None => (None, w)
      end
  | Entered b q => (None, with_session (th_session th) (set_own OfBlock (w_sessions w (th_session th))) (with_thread t (at_place (Taken b q) th) w))
  | Taken b q => (None, with_thread t (at_place (Chosen b q (get_adapter (w_sessions w (th_session th)) (r_url q))) th) w)
  | Chosen b q (Some _) =>
      let o := match real with inl r => Returned r | inr x => Raised x end in
      (Some (Hop q real o true), with_thread t (at_place (Answered b q o) th) w)
  | Chosen b q None =>
      match find (matches nat (mark_order ascii_class demo_sha nat (w_requests w) (key q))) (rev snapshots) with
      | Some s =>
          (Some (Hop q real (Returned (snd s)) false),
           with_requests (if existsb (fun i => str_eqb (k_hash (fst s)) (k_hash (fst i))) (w_requests w) then w_requests w else w_requests w ++ [s])
             (with_thread t (at_place (Answered b q (Returned (snd s))) th) w))
      | None =>
          if capture then (None, with_thread t (at_place (Asking b q (mark_order ascii_class demo_sha nat (w_requests w) (key q))) th) w)
          else (Some (Hop q real Missing false), with_thread t (at_place (Answered b q Missing) th) w)
      end
  | Asking b q k =>
      match real with
      | inl r => (Some (Hop q (inl r) (Returned r) true), with_requests (w_requests w ++ [(k, r)]) (with_thread t (at_place (Answered b q (Returned r)) th) w))
      | inr x => (Some (Hop q (inr x) (Raised x) true), with_thread t (at_place (Answered b q (Raised x)) th) w)
      end
  | Answered b q (Returned r) =>
      (None, with_thread t {| th_place := if b then Leaving true (Returned r) else Deciding (Returned r); th_session := th_session th;
                              th_hops := th_hops th ++ [(q, r)]; th_results := th_results th |} w)
  | Answered b q o => (None, with_thread t (at_place (Leaving b o) th) w)
  | Deciding o =>
      match follow (th_hops th) with
      | Some q => match acquire t (w_lock w) with Some l => (None, with_lock (Some l) (with_thread t (at_place (Entered true q) th) w)) | None => (None, w) end
      | None => (None, with_thread t (at_place (Leaving false o) th) w)
      end
  | Leaving b o => (None, with_session (th_session th) (set_own OfSession (w_sessions w (th_session th))) (with_thread t (at_place (Restored b o) th) w))
  | Restored true o => (None, with_lock (release (w_lock w)) (with_thread t (at_place (match o with Returned _ => Deciding o | _ => Leaving false o end) th) w))
  | Restored false o =>
      (None, with_lock (release (w_lock w))
        (with_thread t {| th_place := Outside; th_session := th_session th; th_hops := [];
                          th_results := th_results th ++ [Done (map (fun h => Returned (snd h)) (th_hops th) ++ match o with Returned _ => [] | _ => [o] end)] |} w))
  end.
Lemma move_step t real late w : st t w (fst (move t real late w)) (snd (move t real late w)) \/ move t real late w = (None, w).
Proof.
  unfold move. set (th := w_threads w t). destruct (th_place th) as [|b q|b q|b q a|b q k|b q o|o|b o|b o] eqn:EP; cbn [fst snd].
  - destruct (code t (th_results th)) as [[s q]|] eqn:C; [|now right]. destruct (acquire t (w_lock w)) as [l|] eqn:AC; cbn [fst snd].
    + left. eapply Enter; eauto.
    + destruct late; [|now right]. left. cbn [fst snd]. eapply GiveUp; eauto.
  - left. eapply Take; eauto.
  - left. eapply Choose; eauto.
  - destruct a as [a|].
    + left. cbn [fst snd]. eapply Direct; eauto.
    + destruct (find _ (rev snapshots)) as [s|] eqn:F; [left; cbn [fst snd]; eapply Found; eauto|]. destruct capture eqn:CA; left; cbn [fst snd]; [eapply Ask; eauto|eapply NotFound; eauto].
  - destruct real as [r|x]; left; cbn [fst snd]; [eapply Answer; eauto|eapply Break; eauto].
  - destruct o as [r| |x]; left; cbn [fst snd]; [eapply Respond; eauto|eapply Fail; eauto; discriminate|eapply Fail; eauto; discriminate].
  - destruct (follow (th_hops th)) as [q|] eqn:F; [|left; cbn [fst snd]; eapply Final; eauto]. destruct (acquire t (w_lock w)) as [l|] eqn:AC; [|now right]. left. cbn [fst snd]. eapply Redirect; eauto.
  - left. eapply Restore; eauto.
  - destruct b; left; cbn [fst snd]; [eapply BackInner; eauto|eapply Back; eauto].
Qed.
Definition moves (sched : list (nat * (nat + unit) * bool)) (w : wd) : list (nat * seen nat unit request) * wd :=
  fold_left (fun lw x => let '(t, real, late) := x in let m := move t real late (snd lw) in
    (fst lw ++ match fst m with Some e => [(t, e)] | None => [] end, snd m)) sched ([], w).
Lemma moves_steps sched w : steps ascii_class demo_sha nat unit unit request r_url key follow capture snapshots code w (fst (moves sched w)) (snd (moves sched w)).
Proof.
  unfold moves. induction sched as [|[[t real] late] sched IH] using rev_ind; [constructor|]. rewrite fold_left_app. cbn [fold_left].
  destruct (fold_left _ sched ([], w)) as [l w1]. cbn [fst snd] in *. destruct (move_step t real late w1) as [M|M].
  - eapply Go; eassumption.
  - rewrite M. cbn [fst snd]. now rewrite app_nil_r.
Qed.
End Schedule.
Definition two_sessions : world nat unit unit request :=
  {| w_lock := None; w_sessions := fun _ => {| s_own := None; s_class := OfSession; s_mounted := fun _ => tt |}; w_requests := [];
     w_threads := fun _ => {| th_place := Outside; th_session := 0; th_hops := []; th_results := [] |} |}.
Lemma two_sessions_start : at_start two_sessions.
Proof. repeat split. Qed.
(** thread 0 asks for a and again for a, thread 1 for b, which is a redirect to c; they share session 0 *)
Definition ab_code (t : nat) (rs : list (result nat unit)) : option (nat * request) :=
  match t, rs with
  | 0, [] | 0, [_] => Some (0, HttpProps.get "a")
  | 1, [] => Some (0, HttpProps.get "b")
  | _, _ => None
  end.
Definition to_c (chain : list (request * nat)) : option request := match chain with [(_, 302)] => Some (HttpProps.get "c") | _ => None end.
(** the threads take turns, or thread 1 is first *)
Fixpoint turns (n : nat) (a b : nat + unit) : list (nat * (nat + unit) * bool) := match n with 0 => [] | S n => (0, a, false) :: (1, b, false) :: turns n a b end.
Definition ab_capture : list (nat * (nat + unit) * bool) := turns 15 (inl 1) (inl 302) ++ turns 40 (inl 2) (inl 3).
Definition ab_replay : list (nat * (nat + unit) * bool) := repeat (1, inr tt, false) 9 ++ turns 50 (inr tt) (inr tt).
Definition ab_captured := moves to_c true [] ab_code ab_capture two_sessions.
Definition ab_stored : list (entry nat) := match stop nat Some false (w_requests (snd ab_captured)) [] with Some l => l | None => [] end.
Definition ab_replayed := moves to_c false (load ascii_class demo_sha nat IgnoreAll None (rev ab_stored) false) ab_code ab_replay two_sessions.
Definition ab_bodies (l : list (nat * seen nat unit request)) : list (nat * option str) :=
  map (fun e => (fst e, match snd e with Hop q _ _ _ => r_body q | Late => None end)) l.
Lemma ab_done w t : (forall t, 1 < t -> w_threads w t = w_threads two_sessions t) -> (t <= 1 -> outside t w /\ ab_code t (th_results (w_threads w t)) = None) ->
  outside t w /\ ab_code t (th_results (w_threads w t)) = None.
Proof.
  intros H L. destruct t as [|[|t]]; [apply L; lia|apply L; lia|]. unfold outside. rewrite H by lia. split; reflexivity.
Qed.
Definition apart (l : list (nat * seen nat unit request)) : bool :=
  let ks := flat_map (fun e => match snd e with Hop q _ _ _ => [(fst e, k_hash (key_of ascii_class demo_sha IgnoreAll None q))] | Late => [] end) l in
  forallb (fun a => forallb (fun b => negb (str_eqb (snd a) (snd b)) || Nat.eqb (fst a) (fst b)) ks) ks.
Lemma apart_ok l : apart l = true -> forall t t' q q' real real' o o' used used', In (t, Hop q real o used) l -> In (t', Hop q' real' o' used') l ->
  k_hash (key_of ascii_class demo_sha IgnoreAll None q) = k_hash (key_of ascii_class demo_sha IgnoreAll None q') -> t = t'.
Proof.
  unfold apart. intros F t t' q q' real real' o o' u u' I I' E. cbv zeta in F. rewrite forallb_forall in F.
  specialize (F (t, k_hash (key_of ascii_class demo_sha IgnoreAll None q))). rewrite forallb_forall in F.
  assert (IN : In (t', k_hash (key_of ascii_class demo_sha IgnoreAll None q')) (flat_map (fun e : nat * seen nat unit request => match snd e with Hop q _ _ _ => [(fst e, k_hash (key_of ascii_class demo_sha IgnoreAll None q))] | Late => [] end) l)) by (apply in_flat_map; exists (t', Hop q' real' o' u'); split; [exact I'|now left]).
  assert (IN0 : In (t, k_hash (key_of ascii_class demo_sha IgnoreAll None q)) (flat_map (fun e : nat * seen nat unit request => match snd e with Hop q _ _ _ => [(fst e, k_hash (key_of ascii_class demo_sha IgnoreAll None q))] | Late => [] end) l)) by (apply in_flat_map; exists (t, Hop q real o u); split; [exact I|now left]).
  specialize (F IN0 (t', k_hash (key_of ascii_class demo_sha IgnoreAll None q'))). cbn [fst snd] in F. rewrite E, str_eqb_refl in F. cbn [negb orb] in F. apply Nat.eqb_eq, F. exact IN.
Qed.
Lemma no_late (l : list (nat * seen nat unit request)) : forallb (fun e => match snd e with Late => false | _ => true end) l = true -> forall t, ~ In (t, Late) l.
Proof. intros F t I. rewrite forallb_forall in F. now specialize (F _ I). Qed.
(** thread 1 asks for b and is redirected to c, between the two requests of thread 0; in the replay thread 1 is first; both get what they
    got, and the same list is printed *)
Example C122_replay_example :
  at_start two_sessions /\
  steps ascii_class demo_sha nat unit unit request r_url (key_of ascii_class demo_sha IgnoreAll None) to_c true (load ascii_class demo_sha nat IgnoreAll None [] true) ab_code two_sessions (fst ab_captured) (snd ab_captured) /\
  ab_bodies (fst ab_captured) = [(0, Some (lit "a")); (1, Some (lit "b")); (1, Some (lit "c")); (0, Some (lit "a"))] /\
  (forall t, outside t (snd ab_captured) /\ ab_code t (th_results (w_threads (snd ab_captured) t)) = None) /\
  (forall a b, demo_sha a = demo_sha b <-> same a b) /\ (forall t, ~ In (t, Late) (fst ab_captured)) /\ (forall t, ~ In (t, Late) (fst ab_replayed)) /\
  (forall t t' q q' real real' o o' used used', In (t, Hop q real o used) (fst ab_captured) -> In (t', Hop q' real' o' used') (fst ab_captured) ->
     k_hash (key_of ascii_class demo_sha IgnoreAll None q) = k_hash (key_of ascii_class demo_sha IgnoreAll None q') -> t = t') /\
  (forall h, In h (answered (fst ab_captured)) -> exists r, a_outcome h = Returned r /\ Some r = Some r) /\
  stop nat Some false (w_requests (snd ab_captured)) [] = Some ab_stored /\
  steps ascii_class demo_sha nat unit unit request r_url (key_of ascii_class demo_sha IgnoreAll None) to_c false (load ascii_class demo_sha nat IgnoreAll None (rev ab_stored) false) ab_code two_sessions (fst ab_replayed) (snd ab_replayed) /\
  ab_bodies (fst ab_replayed) = [(1, Some (lit "b")); (1, Some (lit "c")); (0, Some (lit "a")); (0, Some (lit "a"))] /\
  (forall t, outside t (snd ab_replayed) /\ ab_code t (th_results (w_threads (snd ab_replayed) t)) = None) /\
  map (fun t => th_results (w_threads (snd ab_replayed) t)) [0; 1] = [[Done [Returned 1]; Done [Returned 2]]; [Done [Returned 302; Returned 3]]] /\
  map (fun t => th_results (w_threads (snd ab_captured) t)) [0; 1] = [[Done [Returned 1]; Done [Returned 2]]; [Done [Returned 302; Returned 3]]] /\
  snapshot_lines (w_requests (snd ab_replayed)) = snapshot_lines (w_requests (snd ab_captured)).
Proof.
  split; [apply two_sessions_start|]. split; [apply moves_steps|]. split; [vm_compute; reflexivity|].
  split; [intros t; apply ab_done; [intros [|[|u]] L; [lia|lia|vm_compute; reflexivity]|intros L; destruct t as [|[|t]]; [| |lia]; split; vm_compute; reflexivity]|].
  split; [intros a b; split; [apply demo_sha_inj|apply demo_sha_same]|]. split; [apply no_late; vm_compute; reflexivity|]. split; [apply no_late; vm_compute; reflexivity|].
  split; [apply apart_ok; vm_compute; reflexivity|].
  split; [assert (map a_outcome (answered (fst ab_captured)) = [Returned 1; Returned 302; Returned 3; Returned 2]) as E by (vm_compute; reflexivity);
          intros h I; apply (in_map a_outcome) in I; rewrite E in I; repeat (destruct I as [I|I]; [eexists; split; [symmetry; exact I|reflexivity]|]); elim I|].
  split; [vm_compute; reflexivity|]. split; [apply moves_steps|]. split; [vm_compute; reflexivity|].
  split; [intros t; apply ab_done; [intros [|[|u]] L; [lia|lia|vm_compute; reflexivity]|intros L; destruct t as [|[|t]]; [| |lia]; split; vm_compute; reflexivity]|].
  split; [vm_compute; reflexivity|]. split; [vm_compute; reflexivity|]. vm_compute. reflexivity.
Qed.

(** a thread that waits too long gets the exception of the lock (requests.py:241-243), and its code goes on *)
Example C122_late_example :
  let l := moves to_c true [] ab_code ([(0, inl 1, true); (1, inl 1, true)] ++ repeat (0, inl 1, false) 60) two_sessions in
  at_start two_sessions /\
  steps ascii_class demo_sha nat unit unit request r_url (key_of ascii_class demo_sha IgnoreAll None) to_c true [] ab_code two_sessions (fst l) (snd l) /\
  ab_bodies (fst l) = [(1, None); (0, Some (lit "a")); (0, Some (lit "a"))] /\ th_results (w_threads (snd l) 1) = [TimedOut] /\ outside 1 (snd l).
Proof. split; [apply two_sessions_start|]. split; [apply moves_steps|]. split; [vm_compute; reflexivity|]. split; [vm_compute; reflexivity|]. vm_compute. reflexivity. Qed.

(** Two threads that make the same request can get each other's answer in the replay: the hypothesis that they do not is needed. *)
Theorem C122_same_request_swapped : exists (code : nat -> list (result nat unit) -> option (nat * request)) sched sched' stored,
  let c := moves (fun _ => None) true (load ascii_class demo_sha nat IgnoreAll None [] true) code sched two_sessions in
  let r := moves (fun _ => None) false (load ascii_class demo_sha nat IgnoreAll None stored false) code sched' two_sessions in
  at_start two_sessions /\
  steps ascii_class demo_sha nat unit unit request r_url (key_of ascii_class demo_sha IgnoreAll None) (fun _ => None) true (load ascii_class demo_sha nat IgnoreAll None [] true) code two_sessions (fst c) (snd c) /\
  stop nat Some false (w_requests (snd c)) [] = Some stored /\
  steps ascii_class demo_sha nat unit unit request r_url (key_of ascii_class demo_sha IgnoreAll None) (fun _ => None) false (load ascii_class demo_sha nat IgnoreAll None stored false) code two_sessions (fst r) (snd r) /\
  (forall t, outside t (snd c) /\ code t (th_results (w_threads (snd c) t)) = None) /\ (forall t, outside t (snd r) /\ code t (th_results (w_threads (snd r) t)) = None) /\
  (forall t, ~ In (t, Late) (fst c)) /\ (forall t, ~ In (t, Late) (fst r)) /\
  th_results (w_threads (snd c) 0) = [Done [Returned 1]] /\ th_results (w_threads (snd r) 0) = [Done [Returned 2]].
Proof.
  set (code := fun (t : nat) (rs : list (result nat unit)) => match t, rs with 0, [] | 1, [] => Some (0, HttpProps.get "a") | _, _ => None end).
  set (sched := repeat (0, @inl nat unit 1, false) 20 ++ repeat (1, inl 2, false) 20). set (sched' := repeat (1, @inr nat unit tt, false) 20 ++ repeat (0, inr tt, false) 20).
  set (c := moves (fun _ => None) true (load ascii_class demo_sha nat IgnoreAll None [] true) code sched two_sessions).
  exists code, sched, sched', (match stop nat Some false (w_requests (snd c)) [] with Some l => l | None => [] end). fold c. cbv zeta.
  set (r := moves (fun _ => None) false _ code sched' two_sessions).
  assert (D : forall w, (forall t, 1 < t -> w_threads w t = w_threads two_sessions t) -> outside 0 w -> outside 1 w -> code 0 (th_results (w_threads w 0)) = None ->
     code 1 (th_results (w_threads w 1)) = None -> forall t, outside t w /\ code t (th_results (w_threads w t)) = None).
  { intros w H O0 O1 C0 C1 [|[|t]]; [auto|auto|]. unfold outside. rewrite H by lia. split; reflexivity. }
  split; [apply two_sessions_start|]. split; [apply moves_steps|]. split; [vm_compute; reflexivity|]. split; [apply moves_steps|].
  split; [apply D; [intros [|[|u]] L; [lia|lia|vm_compute; reflexivity]|vm_compute; reflexivity ..]|].
  split; [apply D; [intros [|[|u]] L; [lia|lia|vm_compute; reflexivity]|vm_compute; reflexivity ..]|].
  split; [apply no_late; vm_compute; reflexivity|]. split; [apply no_late; vm_compute; reflexivity|]. split; vm_compute; reflexivity.
Qed.
Print Assumptions C122_same_request_swapped.
