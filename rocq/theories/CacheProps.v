(** C29, C31, C32, C33, C61: the in-memory cache and the values dependents get. *)
From Verif Require Import PyStrFacts FsFacts CacheSpec CacheProofs CacheResults CacheIsolation.
From Coq Require Import Lia.

(** ** C31 *)

(** From an empty LruCache of size [n], after any operations: at most [n] entries; the keys,
    newest first, are the [n] most recently used distinct keys; what is there is what was last
    stored. *)
Theorem C31_lru {V : Type} (n : nat) (ops : list (op V)) :
  length (lru_run n ops) <= n /\
  rev (map fst (lru_run n ops)) = firstn n (dedup (rev (used n ops))) /\
  (forall k v, od_find k (lru_run n ops) = Some v -> last_set ops k v) /\
  (forall k, fst (lru_get k (lru_run n ops)) =
     match od_find k (lru_run n ops) with Some v => v | None => None end).
Proof.
  destruct (lru_run_recent n ops) as [A B]. split; [exact A|]. split; [exact B|].
  split; [intros k v; apply lru_values|intros k; apply lru_get_value].
Qed.
Print Assumptions C31_lru.

Definition k (s : str) : key := Some s.
Definition lru_demo : list (op nat) :=
  [OSet (k (lit "a")) (Some 1); OSet (k (lit "b")) (Some 2); OGet (k (lit "a")); OSet (k (lit "c")) (Some 3);
   OGet (k (lit "b")); OSet (k (lit "a")) (Some 4)].
Example C31_ex : lru_run 2 lru_demo = [(k (lit "c"), Some 3); (k (lit "a"), Some 4)]
  /\ used 2 lru_demo = [k (lit "a"); k (lit "b"); k (lit "a"); k (lit "c"); k (lit "a")].
Proof. split; vm_compute; reflexivity. Qed.

(** ** C29 *)

(** [round_trip]: pickle.load gives back what pickle.dump wrote. One process [p] runs all tests;
    it may be restarted at any time, with a dict or a LruCache of any size >= 1. *)
Theorem C29_latest_value {V : Type} (dump : V -> str) (load : str -> option V) (out_dir : str)
    (es : list (pevent V)) (w0 : procs V) (f0 : fs) (p : nat) (n : str) :
  (forall v, load (dump v) = Some v) -> dir_name out_dir ->
  (forall p, empty_cache (w0 p)) ->
  (forall n, rel_name n -> lookup (bin_path out_dir n) f0 = None) ->
  Forall proper_event es -> names_in es rel_name -> rel_name n ->
  (forall q m v, In (ESave q m v) es -> q = p) ->
  (forall q m, In (EGet q m) es -> q = p) ->
  let '(w, f) := prun dump load out_dir es w0 f0 in
  (forall v, last_saved es n (Some v) -> exists c, get_result load out_dir n (w p) f = Found (Some v) c) /\
  (forall v c, get_result load out_dir n (w p) f = Found v c -> last_saved es n v).
Proof.
  intros RT OK W0 F0 P N R S G. pose proof (one_process es p S G) as C.
  destruct (get_last dump load out_dir RT OK es w0 f0 p n W0 F0 P C N R) as (A & B & _).
  destruct (prun dump load out_dir es w0 f0) as [w f]. cbn [fst snd] in A, B. split; assumption.
Qed.
Print Assumptions C29_latest_value.

Definition demo_es : list (pevent str) :=
  [ESave 0 (lit "t/a") (Some (lit "one")); ESave 0 (lit "t/b") (Some (lit "two"));
   EGet 0 (lit "t/a"); ERestart 0 (CLru 1 []); EGet 0 (lit "t/b"); ESave 0 (lit "t/a") (Some (lit "three"));
   EGet 0 (lit "t/b")].
Definition demo_w0 : procs str := fun _ => CLru 1 [].
Example C29_ex :
  let '(w, f) := prun (fun x => x) Some (lit "out") demo_es demo_w0 [] in
  Forall proper_event demo_es /\ names_in demo_es rel_name /\
  last_saved demo_es (lit "t/a") (Some (lit "three")) /\
  c_in (Some (lit "out/t/a.bin")) (w 0) = Some false /\
  exists c, get_result Some (lit "out") (lit "t/a") (w 0) f = Found (Some (lit "three")) c.
Proof.
  split; [|split; [|split; [|split]]].
  - unfold demo_es. repeat (apply Forall_cons || apply Forall_nil); try exact I. right. exists 1. auto.
  - intros e He. unfold demo_es in He. cbn [In] in He.
    repeat (destruct He as [<-|He]; [reflexivity || exact I|]). destruct He.
  - exists (firstn 5 demo_es), 0, (skipn 6 demo_es). split; [reflexivity|].
    intros q v' [E|[]]. discriminate E.
  - vm_compute. reflexivity.
  - eexists. vm_compute. reflexivity.
Qed.

(** ** C32 *)

Theorem C32_caches_refuted :
  exists (dump : str -> str) (load : str -> option str) (out_dir n : str) (v : str),
    (forall v, load (dump v) = Some v) /\
    (let '(c, f) := save_result dump out_dir n (Some v) CNone [] in
     get_result load out_dir n c f = Hang) /\
    (let '(c, f) := save_result dump out_dir n (Some v) (CLru 0 []) [] in
     exists c', get_result load out_dir n c f = Found None c').
Proof.
  exists (fun x => x), Some, (lit "out"), (lit "a"), (lit "v"). split; [reflexivity|]. split.
  - vm_compute. reflexivity.
  - eexists. vm_compute. reflexivity.
Qed.
Print Assumptions C32_caches_refuted.

(** what holds: a dict or a LruCache of size >= 1, in whatever state, gives the stored value
    right after it was stored, and so does any other such cache that does not have the key *)
Theorem C32_caches_partial {V : Type} (dump : V -> str) (load : str -> option V) (out_dir n : str) (v : V)
    (c c2 : cache V) (f : fs) :
  (forall v, load (dump v) = Some v) -> working c -> working c2 ->
  c_in (Some (bin_path out_dir n)) c2 = Some false ->
  let '(c1, f1) := save_result dump out_dir n (Some v) c f in
  (exists c', get_result load out_dir n c1 f1 = Found (Some v) c') /\
  (exists c', get_result load out_dir n c2 f1 = Found (Some v) c').
Proof. exact (save_then_get dump load out_dir n v c c2 f). Qed.
Print Assumptions C32_caches_partial.

(** For every cache: the dependents get the value from a working cache, the lookup does not return with NoCache, and gives None with a size of 0. *)
Theorem C32_caches_exact {V : Type} (dump : V -> str) (load : str -> option V) (out_dir n : str) (v : V) (c : cache V) (f : fs) :
  (forall v, load (dump v) = Some v) -> (forall size d, c = CLru size d -> NoDup (map fst d) /\ length d <= size) ->
  let (c1, f1) := save_result dump out_dir n (Some v) c f in
  ((exists c', get_result load out_dir n c1 f1 = Found (Some v) c') <-> c <> CNone /\ forall d, c <> CLru 0 d) /\
  (get_result load out_dir n c1 f1 = Hang <-> c = CNone) /\
  ((exists c', get_result load out_dir n c1 f1 = Found None c') <-> exists d, c = CLru 0 d).
Proof.
  intros L Z. destruct c as [d|size d|].
  - pose proof (C32_caches_partial dump load out_dir n v (CDict d) (CDict []) f L I I eq_refl) as P. destruct (save_result dump out_dir n (Some v) (CDict d) f) as [c1 f1]. destruct P as [[c2 ->] _].
    split; [split; [intros _; split; [discriminate|discriminate]|eauto]|]. split; [split; discriminate|]. split; [intros [x X]; discriminate|intros [x X]; discriminate].
  - destruct (Z size d eq_refl) as [ND LE]. destruct size as [|size].
    + destruct d; [|cbn [length] in LE; lia]. set (p := bin_path out_dir n).
      assert (K : key_eqb (Some p) (Some p) = true) by (cbn [key_eqb]; apply str_eqb_refl).
      assert (S0 : forall x : option V, lru_set 0 (Some p) x [] = []) by (intros x; unfold lru_set, od_move_to_end, od_del; cbn [od_set od_find filter fst]; rewrite K; reflexivity).
      unfold save_result, get_result. fold p. cbn [c_set]. rewrite S0. cbn [c_in od_in od_find]. rewrite lookup_write, str_eqb_refl, L. cbn [c_set]. rewrite S0.
      change (c_get (Some p) (CLru 0 [])) with (Some (@None V, @CLru V 0 [])). cbv beta iota.
      split; [split; [intros [x X]; discriminate|intros [_ X]; destruct (X [] eq_refl)]|]. split; [split; discriminate|]. split; eauto.
    + assert (W : working (CLru (S size) d)) by (split; [lia|exact ND]).
      pose proof (C32_caches_partial dump load out_dir n v (CLru (S size) d) (CDict []) f L W I eq_refl) as P.
      destruct (save_result dump out_dir n (Some v) (CLru (S size) d) f) as [c1 f1]. destruct P as [[c2 ->] _].
      split; [split; [intros _; split; [discriminate|discriminate]|eauto]|]. split; [split; discriminate|]. split; [intros [x X]; discriminate|intros [x X]; discriminate].
  - unfold save_result, get_result. cbn [c_set c_in]. split; [split; [intros [x X]; discriminate|intros [X _]; now destruct X]|]. split; [split; reflexivity|].
    split; [intros [x X]; discriminate|intros [x X]; discriminate].
Qed.
Print Assumptions C32_caches_exact.
(** a full LruCache of size 1, one of size 0 and NoCache *)
Example C32_exact_example :
  let go c := let (c1, f1) := save_result (fun x : str => x) (lit "out") (lit "a") (Some (lit "v")) c [] in get_result Some (lit "out") (lit "a") c1 f1 in
  NoDup (map fst [(Some (lit "x"), Some (lit "old"))]) /\ go (CLru 1 [(Some (lit "x"), Some (lit "old"))]) = Found (Some (lit "v")) (CLru 1 [(Some (lit "out/a.bin"), Some (lit "v"))]) /\
  go (CLru 0 []) = Found None (CLru 0 []) /\ go CNone = Hang.
Proof. split; [repeat constructor; intros []|]. vm_compute. repeat split. Qed.

Example C32_ex : working (CLru 1 [(k (lit "x"), Some (lit "old"))]) /\ working (@CDict str []) /\
  c_in (Some (bin_path (lit "out") (lit "a"))) (@CDict str []) = Some false.
Proof. repeat split; cbn; auto. repeat constructor. intros []. Qed.

(** ** C33 *)

Theorem C33_placement_refuted :
  exists (es : list (pevent str)) (n : str),
    es = [ESave 1 n None] /\
    let '(w, f) := prun (fun x => x) Some (lit "out") es (fun _ => CLru 8 []) [] in
    (exists c, get_result Some (lit "out") n (w 1) f = Found None c) /\
    (exists c, get_result Some (lit "out") n (w 2) f = Missing c).
Proof.
  exists [ESave 1 (lit "a") None], (lit "a"). split; [reflexivity|].
  split; eexists; vm_compute; reflexivity.
Qed.
Print Assumptions C33_placement_refuted.

(** Any number of processes. [coherent]: a value is not read or stored by one process before
    another stores it (the run order of C28 and C35 gives this within a run, and each run starts
    its processes anew). *)
Theorem C33_placement_partial {V : Type} (dump : V -> str) (load : str -> option V) (out_dir : str)
    (es : list (pevent V)) (w0 : procs V) (f0 : fs) (n : str) (v : V) :
  (forall v, load (dump v) = Some v) -> dir_name out_dir ->
  (forall p, empty_cache (w0 p)) ->
  (forall n, rel_name n -> lookup (bin_path out_dir n) f0 = None) ->
  Forall proper_event es -> names_in es rel_name -> rel_name n ->
  coherent es -> last_saved es n (Some v) ->
  let '(w, f) := prun dump load out_dir es w0 f0 in
  forall p, exists c, get_result load out_dir n (w p) f = Found (Some v) c.
Proof.
  intros RT OK W0 F0 P N R C L.
  pose proof (fun p => get_last dump load out_dir RT OK es w0 f0 p n W0 F0 P C N R) as X.
  destruct (prun dump load out_dir es w0 f0) as [w f]. cbn [fst snd] in X.
  intros p. exact (proj1 (X p) v L).
Qed.
Print Assumptions C33_placement_partial.

(** without [coherent] a process may hold an outdated value *)
Example C33_stale :
  let '(w, f) := prun (fun x => x) Some (lit "out")
     [ESave 1 (lit "a") (Some (lit "old")); EGet 2 (lit "a"); ESave 1 (lit "a") (Some (lit "new"))]
     (fun _ => CLru 8 []) [] in
  exists c, get_result Some (lit "out") (lit "a") (w 2) f = Found (Some (lit "old")) c.
Proof. eexists. vm_compute. reflexivity. Qed.

(** being stored once, before anyone reads, is coherent *)
Theorem C33_stored_first_coherent_partial {V : Type} (es : list (pevent V)) : stored_first [] es -> coherent es.
Proof. exact (stored_first_coherent es). Qed.
Print Assumptions C33_stored_first_coherent_partial.

Example C33_ex : @stored_first str [] [ESave 1 (lit "a") (Some (lit "x")); EGet 2 (lit "a");
  ESave 2 (lit "b") (Some (lit "y")); EGet 1 (lit "b"); ERestart 2 (CLru 8 []); EGet 2 (lit "a")].
Proof. repeat split; cbn; intuition discriminate. Qed.

(** ** C61 *)

(** a dependent that changes the object it was given changes what the next dependent gets, if
    that runs in the same process; in another process it gets the stored value *)
Theorem C61_isolation_refuted :
  exists (es : list (pevent str)) (n v v' : str), v <> v' /\ last_saved es n (Some v) /\
    let '(w, f) := prun (fun x => x) Some (lit "out") es (fun _ => CLru 8 []) [] in
    (exists c, get_result Some (lit "out") n (w 1) f = Found (Some v') c) /\
    (exists c, get_result Some (lit "out") n (w 2) f = Found (Some v) c).
Proof.
  exists [ESave 1 (lit "a") (Some (lit "data")); EGet 1 (lit "a"); EMutate 1 (lit "a") (lit "changed")],
    (lit "a"), (lit "data"), (lit "changed").
  split; [discriminate|]. split.
  - exists [], 1, [EGet 1 (lit "a"); EMutate 1 (lit "a") (lit "changed")]. split; [reflexivity|].
    intros q v' [E|[E|[]]]; discriminate E.
  - split; eexists; vm_compute; reflexivity.
Qed.
Print Assumptions C61_isolation_refuted.

(** Tests may change the objects that they were given as they like. A process still gets the value that was saved, unless since
    its last start one of its own tests changed the object of the very same case. *)
Theorem C61_isolation_partial {V : Type} (dump : V -> str) (load : str -> option V) (out_dir : str)
    (es : list (pevent V)) (w0 : procs V) (f0 : fs) (p : nat) (n : str) (v : V) :
  (forall v, load (dump v) = Some v) -> dir_name out_dir ->
  (forall p, empty_cache (w0 p)) ->
  (forall n, rel_name n -> lookup (bin_path out_dir n) f0 = None) ->
  (forall q c, In (ERestart q c) es -> empty_cache c) -> names_in es rel_name -> rel_name n ->
  coherent es -> last_saved es n (Some v) ->
  (forall a v' b, es = a ++ EMutate p n v' :: b -> exists c, In (ERestart p c) b) ->
  let '(w, f) := prun dump load out_dir es w0 f0 in
  exists c, get_result load out_dir n (w p) f = Found (Some v) c.
Proof. intros RT OK. exact (isolation dump load out_dir RT OK es w0 f0 p n v). Qed.
Print Assumptions C61_isolation_partial.

(** Process 1 saves two values; a test of process 1 changes the first, one of process 2 the second, then process 2 is restarted:
    process 2 gets both as they were saved, process 1 the second only. *)
Definition changed_es : list (pevent str) :=
  [ESave 1 (lit "a") (Some (lit "data")); ESave 1 (lit "b") (Some (lit "more")); EGet 1 (lit "a"); EMutate 1 (lit "a") (lit "changed");
   EGet 2 (lit "b"); EMutate 2 (lit "b") (lit "spoilt"); ERestart 2 (CLru 8 []); EGet 2 (lit "a")].
Example C61_ex :
  (forall q c, In (ERestart q c) changed_es -> empty_cache c) /\ names_in changed_es rel_name /\ coherent changed_es /\
  last_saved changed_es (lit "a") (Some (lit "data")) /\ last_saved changed_es (lit "b") (Some (lit "more")) /\
  (forall a v' b, changed_es = a ++ EMutate 2 (lit "a") v' :: b -> exists c, In (ERestart 2 c) b) /\
  (forall a v' b, changed_es = a ++ EMutate 2 (lit "b") v' :: b -> exists c, In (ERestart 2 c) b) /\
  (forall a v' b, changed_es = a ++ EMutate 1 (lit "b") v' :: b -> exists c, In (ERestart 1 c) b) /\
  let '(w, f) := prun (fun x => x) Some (lit "out") changed_es (fun _ => CLru 8 []) [] in
  (exists c, get_result Some (lit "out") (lit "a") (w 2) f = Found (Some (lit "data")) c) /\
  (exists c, get_result Some (lit "out") (lit "b") (w 2) f = Found (Some (lit "more")) c) /\
  (exists c, get_result Some (lit "out") (lit "b") (w 1) f = Found (Some (lit "more")) c) /\
  (exists c, get_result Some (lit "out") (lit "a") (w 1) f = Found (Some (lit "changed")) c).
Proof.
  split.
  { intros q c H. cbn [changed_es In] in H. repeat (destruct H as [H|H]; [try discriminate H|]); [|destruct H]. injection H as <- <-. right. exists 8. split; [lia|reflexivity]. }
  split.
  { intros e H. cbn [changed_es In] in H. repeat (destruct H as [<-|H]; [reflexivity || exact I|]). destruct H. }
  split; [apply stored_first_coherent; repeat split; cbn; intuition discriminate|].
  split.
  { exists [], 1, (tl changed_es). split; [reflexivity|]. intros q v' H. cbn [changed_es tl In] in H. repeat (destruct H as [H|H]; [discriminate H|]). destruct H. }
  split.
  { exists [ESave 1 (lit "a") (Some (lit "data"))], 1, (tl (tl changed_es)). split; [reflexivity|]. intros q v' H. cbn [changed_es tl In] in H. repeat (destruct H as [H|H]; [discriminate H|]). destruct H. }
  split; [|split; [|split]].
  1-3: intros a v' b E; do 8 (destruct a as [|? a]; cbn [app changed_es] in E; [try discriminate E; injection E; intros; subst; eexists; cbn [In]; eauto|injection E as _ E]); destruct a; discriminate E.
  cbn zeta. repeat split; eexists; vm_compute; reflexivity.
Qed.
