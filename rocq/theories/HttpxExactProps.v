(** The exact form of C95 for httpx: the file is always written; which recordings can be read again. *)
From Verif Require Import PyStrFacts JsonFacts BytesFacts HttpFilesModel HttpProofs HttpHash HttpFilesProofs HttpProps HttpFilesProps.

(** *** A JSON object keeps the last value of each key *)
Lemma put_same (k : str) (v : jv) (d : list (str * jv)) : In (k, v) (pair_put k v d).
Proof. induction d as [|[j w] d IH]; cbn [pair_put]; [now left|]. destruct (str_eqb_spec j k) as [->|_]; [now left|right; exact IH]. Qed.
Lemma put_other k v j w d : j <> k -> In (j, w) (pair_put k v d) <-> In (j, w) d.
Proof.
  intros N. induction d as [|[i x] d IH]; cbn [pair_put].
  - split; [intros [E|[]]; injection E as -> _; contradiction|intros []].
  - destruct (str_eqb_spec i k) as [->|_]; cbn [In]; [|now rewrite IH]. split; (intros [E|I]; [injection E as -> _; contradiction|now right]).
Qed.
Lemma put_only k v w d : NoDup (map fst d) -> In (k, w) (pair_put k v d) -> w = v.
Proof.
  induction d as [|[i x] d IH]; intros ND I; cbn [pair_put] in I.
  - destruct I as [E|[]]. now injection E as ->.
  - cbn [map fst] in ND. inversion ND as [|? ? N1 N2]; subst. destruct (str_eqb_spec i k) as [->|NE].
    + destruct I as [E|I]; [now injection E as ->|]. destruct N1. exact (in_map fst _ _ I).
    + destruct I as [E|I]; [injection E as -> _; contradiction|exact (IH N2 I)].
Qed.
Lemma dict_of_snoc l p : dict_of (l ++ [p]) = pair_put (fst p) (snd p) (dict_of l).
Proof. unfold dict_of. now rewrite fold_left_app. Qed.
Lemma dict_of_last l k v : In (k, v) (dict_of l) <-> exists pre post, l = pre ++ (k, v) :: post /\ ~ In k (map fst post).
Proof.
  revert k v. induction l as [|[i x] l IH] using rev_ind; intros k v.
  - split; [intros []|]. intros (pre & post & E & _). destruct pre; discriminate.
  - rewrite dict_of_snoc. cbn [fst snd]. destruct (str_eqb_spec k i) as [->|NE].
    + split.
      * intros I. apply put_only in I; [|apply dict_of_keys_nodup]. subst v. exists l, []. split; [reflexivity|intros []].
      * intros (pre & post & E & N).
        destruct post as [|q post _] using rev_ind.
        -- apply app_inj_tail in E as [_ E]. injection E as ->. apply put_same.
        -- exfalso. apply N. rewrite map_app. apply in_or_app. right. rewrite app_comm_cons, app_assoc in E. apply app_inj_tail in E as [_ <-]. now left.
    + rewrite put_other by exact NE. rewrite IH. split; intros (pre & post & E & N).
      * exists pre, (post ++ [(i, x)]). split; [now rewrite E, <- app_assoc|]. rewrite map_app. intros I. apply in_app_or in I as [I|[I|[]]]; [exact (N I)|]. cbn [fst] in I. congruence.
      * destruct post as [|q post _] using rev_ind; [apply app_inj_tail in E as [_ E]; congruence|].
        rewrite app_comm_cons, app_assoc in E. apply app_inj_tail in E as [E _]. exists pre, post. split; [exact E|]. intros I. apply N. rewrite map_app. apply in_or_app. now left.
Qed.

(** *** What is in the file *)
Definition hx_pair (hide : bool) (s : key * hx_response) : str * jv :=
  match snap_json hx_response hx_json hide s with Some p => p | None => ([], JNone) end.
Lemma hx_pair_some hide s : snap_json hx_response hx_json hide s = Some (hx_pair hide s).
Proof. unfold hx_pair, snap_json. destruct (to_json_object hide (fst s)). reflexivity. Qed.
Lemma hx_pair_name hide s : fst (hx_pair hide s) = k_hash (fst s).
Proof.
  unfold hx_pair, snap_json. destruct (to_json_object hide (fst s)) as [o h] eqn:E.
  assert (H : h = k_hash (fst s)) by (apply (f_equal snd) in E; symmetry; exact E). exact H.
Qed.
Lemma all_pairs hide reqs : all_of (map (snap_json hx_response hx_json hide) reqs) = Some (map (hx_pair hide) reqs).
Proof. induction reqs as [|s reqs IH]; [reflexivity|]. cbn [map all_of]. now rewrite hx_pair_some, IH. Qed.
Lemma hx_pair_read hide s : Forall is_byte (hx_content (snd s)) ->
  entry_read hx_response hx_of (JKStr (fst (hx_pair hide s)), snd (hx_pair hide s)) =
    match utf8_decode (hx_content (snd s)) with Some _ => Some (k_hash (fst s), (to_json_object hide (fst s), hx_plain (snd s))) | None => None end.
Proof.
  intros B. pose proof (hx_disk (snd s) B) as D. destruct (utf8_decode (hx_content (snd s))) as [t|] eqn:U.
  - exact (proj2 (snap_read hx_response hx_json hx_of hide s _ _ (hx_pair_some hide s) D)).
  - unfold response_disk in D. unfold hx_pair, snap_json. destruct (to_json_object hide (fst s)) as [o h]. destruct (hx_json (snd s)) as [v|] eqn:J; [|discriminate J]. unfold entry_read. cbn [fst snd].
    match goal with |- context [field (lit "request") (JDict [(_, ?a); (_, ?b)])] =>
      change (field (lit "request") (JDict [(JKStr (lit "request"), a); (JKStr (lit "response"), b)])) with (Some a);
      change (field (lit "response") (JDict [(JKStr (lit "request"), a); (JKStr (lit "response"), b)])) with (Some b) end. cbn beta iota.
    rewrite D. destruct (request_of _) as [[? ?]|]; reflexivity.
Qed.
Lemma hx_written refloat hide reqs : Forall (fun s => obj_ok (k_obj (fst s)) /\ text (k_hash (fst s)) /\ hx_ok (snd s)) reqs ->
  exists file, write_file hx_response hx_json hide reqs = Some file /\
    read_file refloat hx_response hx_of file = all_of (map (fun p => entry_read hx_response hx_of (JKStr (fst p), snd p)) (dict_of (map (hx_pair hide) reqs))).
Proof.
  intros OK. unfold write_file. rewrite all_pairs. set (l := map (hx_pair hide) reqs).
  assert (OL : Forall (fun p => text (fst p) /\ plain (snd p) /\ value_ok refloat (snd p)) (dict_of l)).
  { apply Forall_forall. intros p I. apply dict_of_In in I. apply in_map_iff in I as (s & <- & I). rewrite Forall_forall in OK.
    apply (snap_json_ok refloat hx_response hx_json hx_of hx_ok (hx_json_ok refloat) hide s); [exact (OK s I)|apply hx_pair_some]. }
  destruct (str_dict_plain_ok refloat (dict_of l) (dict_of_keys_nodup l) OL) as [P V].
  destruct (proj1 (dumps_writable _ (Some 4) 0) (plain_writable _ P)) as [file E]. exists file. split; [exact E|].
  unfold read_file. rewrite (printable_newlines file) by (eapply dumps_printable; eassumption). rewrite (loads_dumps refloat _ _ _ V E).
  rewrite (plain_back _ P). unfold str_dict. rewrite map_map. reflexivity.
Qed.
Lemma all_of_iff {A B} (f : A -> option B) l : (exists r, all_of (map f l) = Some r) <-> forall x, In x l -> f x <> None.
Proof.
  induction l as [|a l IH]; cbn [map all_of].
  - split; [intros _ x []|eauto].
  - destruct (f a) as [b|] eqn:E.
    + destruct IH as [I1 I2]. split.
      * intros [r X]. destruct (all_of (map f l)) as [s|]; [|discriminate]. intros x [<-|J]; [congruence|]. apply I1; eauto.
      * intros H. destruct I2 as [r ->]; [intros x J; apply H; now right|eauto].
    + split; [intros [r X]; discriminate|]. intros H. destruct (H a (or_introl eq_refl) E).
Qed.
Lemma all_of_members {A B} (f : A -> option B) l : forall r, all_of (map f l) = Some r -> forall y, In y r <-> exists x, In x l /\ f x = Some y.
Proof.
  induction l as [|a l IH]; intros r E y; cbn [map all_of] in E.
  - injection E as <-. split; [intros []|intros (x & [] & _)].
  - destruct (f a) as [b|] eqn:F; [|discriminate]. destruct (all_of (map f l)) as [s|]; [|discriminate]. injection E as <-. specialize (IH s eq_refl y). cbn [In]. rewrite IH. split.
    + intros [<-|(x & I & G)]; eauto.
    + intros (x & [<-|I] & G); [left; congruence|right; eauto].
Qed.
(** the recorded requests in the file are the last of each hash *)
Lemma map_last hide reqs n v : (exists pre post, map (hx_pair hide) reqs = pre ++ (n, v) :: post /\ ~ In n (map fst post)) <->
  exists pre k r post, reqs = pre ++ (k, r) :: post /\ (forall k' r', In (k', r') post -> k_hash k' <> k_hash k) /\ (n, v) = hx_pair hide (k, r).
Proof.
  split.
  - intros (pre & post & E & N). apply map_eq_app in E as (pre' & x & -> & <- & E). destruct x as [|[k r] post']; [discriminate|]. cbn [map] in E. assert (E1 : hx_pair hide (k, r) = (n, v)) by congruence. assert (E2 : map (hx_pair hide) post' = post) by congruence. clear E. subst post.
    exists pre', k, r, post'. split; [reflexivity|]. split; [|now symmetry]. intros k' r' I EQ. apply N. rewrite map_map. apply in_map_iff. exists (k', r'). split; [|exact I].
    rewrite hx_pair_name. cbn [fst]. rewrite EQ. pose proof (hx_pair_name hide (k, r)) as H. rewrite E1 in H. now symmetry.
  - intros (pre & k & r & post & -> & L & E). exists (map (hx_pair hide) pre), (map (hx_pair hide) post). split; [rewrite map_app; cbn [map]; now rewrite E|].
    rewrite map_map. intros I. apply in_map_iff in I as ([k' r'] & EQ & I). apply (L k' r' I). rewrite hx_pair_name in EQ. cbn [fst] in EQ. rewrite EQ.
    pose proof (hx_pair_name hide (k, r)) as H. rewrite <- E in H. exact H.
Qed.

(** *** C95. [reqs]: what was recorded until the end of the block; of requests with one hash the file has the last. The file is always written. It
    can be read exactly when the content of each response in it is UTF-8; it then has exactly these responses, without the header content-encoding. *)
Theorem C95_httpx_exact (refloat : str -> str) (hide : bool) (reqs : list (key * hx_response)) :
  Forall (fun s => obj_ok (k_obj (fst s)) /\ text (k_hash (fst s)) /\ hx_ok (snd s)) reqs ->
  let kept k r := exists pre post, reqs = pre ++ (k, r) :: post /\ forall k' r', In (k', r') post -> k_hash k' <> k_hash k in
  exists file, write_file hx_response hx_json hide reqs = Some file /\
    ((exists stored, read_file refloat hx_response hx_of file = Some stored) <-> forall k r, kept k r -> exists t, utf8_decode (hx_content r) = Some t) /\
    forall stored, read_file refloat hx_response hx_of file = Some stored ->
      forall n o h r', In (n, (o, h, r')) stored <->
        exists k r, kept k r /\ n = k_hash k /\ (o, h) = to_json_object hide k /\
          hx_status r' = hx_status r /\ hx_content r' = hx_content r /\ hx_headers r' = filter (fun x => negb (str_eqb (fst x) (lit "content-encoding"))) (hx_headers r).
Proof.
  intros OK kept. destruct (hx_written refloat hide reqs OK) as (file & W & RD). exists file. split; [exact W|]. rewrite RD.
  assert (M : forall n v, In (n, v) (dict_of (map (hx_pair hide) reqs)) <-> exists k r, kept k r /\ (n, v) = hx_pair hide (k, r)).
  { intros n v. rewrite dict_of_last, map_last. split; [intros (pre & k & r & post & A & B & C); exists k, r; split; [exists pre, post; auto|exact C]|].
    intros (k & r & (pre & post & A & B) & C). exists pre, k, r, post. auto. }
  assert (BY : forall k r, kept k r -> Forall is_byte (hx_content r)).
  { intros k r (pre & post & -> & _). rewrite Forall_forall in OK. destruct (OK (k, r)) as (_ & _ & _ & H); [apply in_or_app; right; now left|exact H]. }
  split.
  - rewrite all_of_iff. split.
    + intros H k r K. specialize (H (hx_pair hide (k, r))). rewrite hx_pair_read in H by exact (BY k r K). cbn [snd] in H.
      destruct (utf8_decode (hx_content r)) as [t|]; [eauto|]. exfalso. apply H; [|reflexivity]. destruct (hx_pair hide (k, r)) as [n v] eqn:E. apply M. exists k, r. split; [exact K|now rewrite E].
    + intros H [n v] I. apply M in I as (k & r & K & E). rewrite E, hx_pair_read by exact (BY k r K). cbn [snd]. destruct (H k r K) as [t ->]. discriminate.
  - intros stored E n o h r'. rewrite (all_of_members _ _ _ E). split.
    + intros ([m v] & I & G). apply M in I as (k & r & K & P). rewrite P, hx_pair_read in G by exact (BY k r K). cbn [fst snd] in G.
      destruct (utf8_decode (hx_content r)); [|discriminate]. exists k, r. split; [exact K|]. assert (G1 : n = k_hash k) by congruence. assert (G2 : (o, h) = to_json_object hide k) by congruence. assert (G3 : r' = hx_plain r) by congruence. subst r'. split; [exact G1|]. split; [exact G2|]. repeat split.
    + intros (k & r & K & -> & T & S & C & HD). exists (hx_pair hide (k, r)). split; [destruct (hx_pair hide (k, r)) as [m v] eqn:EP; apply M; exists k, r; split; [exact K|now rewrite EP]|].
      rewrite hx_pair_read by exact (BY k r K). cbn [fst snd].
      assert (U : exists t, utf8_decode (hx_content r) = Some t).
      { destruct (utf8_decode (hx_content r)) as [t|] eqn:U; [eauto|]. exfalso. refine (proj1 (all_of_iff _ _) (ex_intro _ stored E) (hx_pair hide (k, r)) _ _).
        - destruct (hx_pair hide (k, r)) as [m v] eqn:EP. apply M. exists k, r. split; [exact K|now rewrite EP].
        - rewrite hx_pair_read by exact (BY k r K). cbn [snd]. now rewrite U. }
      destruct U as [t ->]. rewrite <- T. do 2 f_equal. unfold hx_plain. rewrite <- S, <- C, <- HD. destruct r'; reflexivity.
Qed.
Print Assumptions C95_httpx_exact.

(** a file with one response that is not UTF-8 cannot be read, not even for the other request; if the request is recorded again under the same hash, it can *)
Example C95_httpx_exact_example :
  let bad := answerx [137; 80]%N in let good := answerx [195; 169]%N in
  let k q := key_of ascii_class (json_to_sha1 demo_sha1) IgnoreAll None q in
  (exists file, write_file hx_response hx_json true [(k (get "a"), good); (k (get "b"), bad)] = Some file /\ read_file (fun t => t) hx_response hx_of file = None) /\
  (exists file stored, write_file hx_response hx_json true [(k (get "a"), bad); (k (get "b"), good); (k (get "a"), good)] = Some file /\
     read_file (fun t => t) hx_response hx_of file = Some stored /\ map (fun e => hx_content (snd (snd e))) stored = [[195; 169]; [195; 169]]%N).
Proof.
  cbn zeta. split; [eexists; split; vm_compute; reflexivity|]. do 2 eexists. split; [vm_compute; reflexivity|]. split; vm_compute; reflexivity.
Qed.
