(** C141: recordings of older versions of booktest are taken over. *)
From Coq Require Import Lia Permutation.
From Verif Require Import HttpTestModel RunCaseSpec TokenizerSpec LegacyModel RunCaseProofs RunCaseProps RecordProps CaseRunProps RepeatProps.
From Verif Require Import PyStrFacts HttpModel HttpProofs HttpHash HttpProps HttpListModel HttpFilesModel HttpFilesProofs HttpFilesProps HttpTalkProps JsonFacts BytesFacts HttpTestProofs HttpTestProps TokenizerProps.

Definition old_requests_run cc sha1 jfloat X ign hide := old_run cc sha1 jfloat rq_response X rq_json rq_of ign hide (lit "request snaphots:") (lit ".requests.json").
Definition old_httpx_run cc sha1 jfloat X ign hide := old_run cc sha1 jfloat hx_response X hx_json hx_of ign hide (lit "httpx snaphots:") (lit ".httpx.json").

(** A run of a test that finds the files [old] in its directory .requests (and perhaps a .requests.json), and a later run that finds
    what the first wrote, and no such directory. *)
Theorem C141_requests (cc : CharClass) (sha1 jfloat : str -> str) (X : Type) ign hide capture refresh old file (T T' : http_test rq_response X) cs os b used
    (sha1_text : forall t, text (sha1 t))
    (earlier_ok : forall files, old_recordings cc sha1 jfloat rq_response rq_of ign refresh old file = Some files ->
       forall name o h r, In (name, (o, h, r)) files -> obj_ok o /\ text h /\ rq_ok r /\ utf8_decode (rq_content r) <> None)
    (responses_ok : forall q r, In (q, inl r) cs -> rq_ok r /\ utf8_decode (rq_content r) <> None)
    (requests_ok : forall q, In q (map fst cs) \/ (exists i, t_next T' (firstn i os) = Some q) -> request_ok q)
    (no_collision : forall qs, (forall q, In q qs -> In q (map fst cs) \/ exists i, t_next T' (firstn i os) = Some q) ->
       forall x y, asked cc ign qs (length cs) x -> asked cc ign qs (length cs) y -> sha1 (request_text x) = sha1 (request_text y) -> request_text x = request_text y)
    (returned : Forall (fun o => exists r, o = Returned r) os)
    (alike : forall h, t_does T' h = t_does T h /\
       match t_next T h, t_next T' h with
       | None, None => True
       | Some q, Some q' => k_hash (key_of cc (json_to_sha1 sha1) ign None q) = k_hash (key_of cc (json_to_sha1 sha1) ign None q')
       | _, _ => False
       end) :
  old_requests_run cc sha1 jfloat X ign hide capture refresh old file T cs os b used ->
  exists saved, last_write (lit ".requests.json") (b_files b) = Some saved /\
  (exists qs, forall cs', map fst cs' = qs -> exists used', requests_run cc sha1 jfloat X ign hide false false (Some saved) T' cs' os b used') /\
  forall cs' os' b' used', requests_run cc sha1 jfloat X ign hide false false (Some saved) T' cs' os' b' used' ->
    b' = b /\ os' = os /\ Forall (fun u => u = false) used' /\
    Forall2 (fun c c' => k_hash (key_of cc (json_to_sha1 sha1) ign None (fst c)) = k_hash (key_of cc (json_to_sha1 sha1) ign None (fst c'))) cs cs'.
Proof.
  intros (files & reqs & text & EF & H). set (ok := fun r => rq_ok r /\ utf8_decode (rq_content r) <> None).
  assert (SH : forall l l', Forall2 (shown rq_response X ok (fun r => r)) l l' -> l' = l).
  { intros l l' F. induction F as [|o o' l l' (r & -> & _ & ->) F IH]; [reflexivity|]. now rewrite IH. }
  destruct (http_again_from cc sha1 sha1_text jfloat rq_response X rq_json rq_of ok (fun r => r)
    (fun r v K => rq_json_ok jfloat r v (proj1 K))) with (ign := ign) (hide := hide) (title := lit "request snaphots:") (fname := lit ".requests.json") (capture := capture) (refresh := refresh)
    (files := files) (T := T) (T' := T') (cs := cs) (os := os) (b := b) (used := used) as (saved & L & (qs & EX) & ALL); try assumption.
  - intros r [_ U]. destruct (utf8_decode (rq_content r)) as [t|] eqn:ET; [|congruence]. exact (rq_disk r t ET).
  - reflexivity.
  - intros q M. apply requests_ok. destruct M as [M|(i & h & F & M)]; [now left|]. apply SH in F. subst h. right. now exists i.
  - intros qs M. apply no_collision. intros q I. destruct (M q I) as [K|(i & h & F & K)]; [now left|]. apply SH in F. subst h. right. now exists i.
  - intros h h' F. apply SH in F. subst h'. apply alike.
  - apply Forall_forall. intros [n [[o h] r]] I. destruct (earlier_ok files EF _ _ _ _ I) as (A & B & C & D). unfold entry_ok, ok. auto.
  - exists reqs, text. exact H.
  - exists saved. split; [exact L|]. split.
    + exists qs. intros cs' EQ. destruct (EX cs' EQ) as (os' & used' & R). exists used'. destruct (ALL _ _ _ _ R) as (_ & _ & F & _). apply SH in F. subst os'. exact R.
    + intros cs' os' b' used' R. destruct (ALL _ _ _ _ R) as (A & B & F & D). apply SH in F. auto.
Qed.
Print Assumptions C141_requests.

Theorem C141_httpx (cc : CharClass) (sha1 jfloat : str -> str) (X : Type) ign hide capture refresh old file (T T' : http_test hx_response X) cs os b used
    (sha1_text : forall t, text (sha1 t))
    (earlier_ok : forall files, old_recordings cc sha1 jfloat hx_response hx_of ign refresh old file = Some files ->
       forall name o h r, In (name, (o, h, r)) files -> obj_ok o /\ text h /\ hx_ok r /\ utf8_decode (hx_content r) <> None)
    (responses_ok : forall q r, In (q, inl r) cs -> hx_ok r /\ utf8_decode (hx_content r) <> None)
    (requests_ok : forall q, In q (map fst cs) \/ (exists i h, Forall2 without_encoding (firstn i os) h /\ t_next T' h = Some q) -> request_ok q)
    (no_collision : forall qs, (forall q, In q qs -> In q (map fst cs) \/ exists i h, Forall2 without_encoding (firstn i os) h /\ t_next T' h = Some q) ->
       forall x y, asked cc ign qs (length cs) x -> asked cc ign qs (length cs) y -> sha1 (request_text x) = sha1 (request_text y) -> request_text x = request_text y)
    (returned : Forall (fun o => exists r, o = Returned r) os)
    (alike : forall h h', Forall2 without_encoding h h' -> t_does T' h' = t_does T h /\
       match t_next T h, t_next T' h' with
       | None, None => True
       | Some q, Some q' => k_hash (key_of cc (json_to_sha1 sha1) ign None q) = k_hash (key_of cc (json_to_sha1 sha1) ign None q')
       | _, _ => False
       end) :
  old_httpx_run cc sha1 jfloat X ign hide capture refresh old file T cs os b used ->
  exists saved, last_write (lit ".httpx.json") (b_files b) = Some saved /\
  (exists qs, forall cs', map fst cs' = qs -> exists os' used', httpx_run cc sha1 jfloat X ign hide false false (Some saved) T' cs' os' b used') /\
  forall cs' os' b' used', httpx_run cc sha1 jfloat X ign hide false false (Some saved) T' cs' os' b' used' ->
    b' = b /\ Forall2 without_encoding os os' /\ Forall (fun u => u = false) used' /\
    Forall2 (fun c c' => k_hash (key_of cc (json_to_sha1 sha1) ign None (fst c)) = k_hash (key_of cc (json_to_sha1 sha1) ign None (fst c'))) cs cs'.
Proof.
  intros (files & reqs & text & EF & H). set (ok := fun r => hx_ok r /\ utf8_decode (hx_content r) <> None).
  assert (SH : forall l l', Forall2 (shown hx_response X ok hx_plain) l l' -> Forall2 without_encoding l l').
  { intros l l' F. induction F as [|o o' l l' (r & -> & _ & ->) F IH]; constructor; [|exact IH]. exists r, (hx_plain r). repeat split. }
  destruct (http_again_from cc sha1 sha1_text jfloat hx_response X hx_json hx_of ok hx_plain
    (fun r v K => hx_json_ok jfloat r v (proj1 K))) with (ign := ign) (hide := hide) (title := lit "httpx snaphots:") (fname := lit ".httpx.json") (capture := capture) (refresh := refresh)
    (files := files) (T := T) (T' := T') (cs := cs) (os := os) (b := b) (used := used) as (saved & L & (qs & EX) & ALL); try assumption.
  - intros r [[_ B] U]. rewrite (hx_disk r B). destruct (utf8_decode (hx_content r)); [reflexivity|congruence].
  - intros r _. unfold hx_json, hx_plain. cbn [hx_headers hx_status hx_content]. now rewrite filter_twice.
  - intros q M. apply requests_ok. destruct M as [M|(i & h & F & M)]; [now left|]. apply SH in F. right. now exists i, h.
  - intros qs M. apply no_collision. intros q I. destruct (M q I) as [K|(i & h & F & K)]; [now left|]. apply SH in F. right. now exists i, h.
  - intros h h' F. apply SH in F. now apply alike.
  - apply Forall_forall. intros [n [[o h] r]] I. destruct (earlier_ok files EF _ _ _ _ I) as (A & B & C & D). unfold entry_ok, ok. auto.
  - exists reqs, text. exact H.
  - exists saved. split; [exact L|]. split; [exists qs; exact EX|]. intros cs' os' b' used' R. destruct (ALL _ _ _ _ R) as (A & B & F & D). apply SH in F. auto.
Qed.
Print Assumptions C141_httpx.

(** ** The order of os.listdir *)
Section Order.
  Variable cc : CharClass.
  Variable sha : obj -> str.
  Variables R X : Type.
  Lemma send_all_found capture s s' : (forall k, find (matches R k) (rev s) = find (matches R k) (rev s')) ->
    forall cs reqs, send_all cc sha R X capture s reqs cs = send_all cc sha R X capture s' reqs cs.
  Proof.
    intros H. induction cs as [|[k real] cs IH]; intros reqs; [reflexivity|]. cbn [send_all].
    assert (E : send cc sha R X capture s reqs k real = send cc sha R X capture s' reqs k real) by (unfold send; now rewrite H).
    rewrite E. destruct (send cc sha R X capture s' reqs k real) as [[reqs1 o] i]. now rewrite IH.
  Qed.
  Lemma find_perm k (l l' : list (snap R)) : Permutation l l' -> NoDup (map (fun s => k_hash (fst s)) l) -> find (matches R k) l = find (matches R k) l'.
  Proof.
    intros P. induction P as [|x l l' P IH|x y l|l l' l2 P1 IH1 P2 IH2]; intros ND.
    - reflexivity.
    - cbn [find]. destruct (matches R k x); [reflexivity|]. apply IH. cbn [map] in ND. now apply NoDup_cons_iff in ND.
    - cbn [find]. destruct (matches R k x) eqn:EX, (matches R k y) eqn:EY; try reflexivity. exfalso. unfold matches in EX, EY.
      apply str_eqb_eq in EX, EY. cbn [map] in ND. apply NoDup_cons_iff in ND. destruct ND as [N _]. apply N. left. congruence.
    - rewrite IH1 by exact ND. apply IH2. apply (Permutation_NoDup (l := map (fun s => k_hash (fst s)) l)); [now apply Permutation_map|exact ND].
  Qed.
End Order.
Lemma find_app_all {A} (p : A -> bool) l l' : find p (l ++ l') = match find p l with Some x => Some x | None => find p l' end.
Proof. induction l as [|x l IH]; [reflexivity|]. cbn [app find]. destruct (p x); [reflexivity|exact IH]. Qed.
Lemma all_of_perm {A} (l l' : list (option A)) : Permutation l l' -> forall a, all_of l = Some a -> exists a', all_of l' = Some a' /\ Permutation a a'.
Proof.
  intros P. induction P as [|x l l' P IH|x y l|l l' l2 P1 IH1 P2 IH2]; intros a H.
  - exists a. split; [exact H|apply Permutation_refl].
  - cbn [all_of] in *. destruct x as [x|]; [|discriminate]. destruct (all_of l) as [b|]; [|discriminate]. injection H as <-.
    destruct (IH b eq_refl) as (b' & -> & Q). exists (x :: b'). split; [reflexivity|now constructor].
  - cbn [all_of] in *. destruct y as [y|]; [|discriminate]. destruct x as [x|]; [|discriminate]. destruct (all_of l) as [b|]; [|discriminate]. injection H as <-.
    exists (x :: y :: b). split; [reflexivity|constructor].
  - destruct (IH1 a H) as (a1 & H1 & Q1). destruct (IH2 a1 H1) as (a2 & H2 & Q2). exists a2. split; [exact H2|now apply (Permutation_trans Q1)].
Qed.

(** If no two files of the directory are for the same request, the order in which they are listed does not matter. *)
Theorem C141_any_order cc sha1 jfloat (R X : Type) response_json response_of ign hide title fname capture refresh old old' file (T : http_test R X) cs os b used :
  Permutation old old' ->
  (forall l, all_of (map (old_file cc sha1 jfloat R response_of ign) old) = Some l -> NoDup (map (fun e : entry R => snd (fst (snd e))) l)) ->
  old_run cc sha1 jfloat R X response_json response_of ign hide title fname capture refresh old file T cs os b used ->
  old_run cc sha1 jfloat R X response_json response_of ign hide title fname capture refresh old' file T cs os b used.
Proof.
  intros P ND (files & reqs & text & EF & E & REST). destruct refresh.
  { exists files, reqs, text. split; [exact EF|]. split; [exact E|exact REST]. }
  unfold old_recordings in EF. destruct (all_of (map _ old)) as [a|] eqn:EA; [|discriminate]. destruct (recordings _ _ _ _ _) as [bf|] eqn:EB; [|discriminate]. injection EF as <-.
  destruct (all_of_perm _ _ (Permutation_map _ P) a EA) as (a' & EA' & Q). exists (a' ++ bf), reqs, text.
  split; [unfold old_recordings; now rewrite EA', EB|]. split; [|exact REST]. rewrite <- E. apply send_all_found. intros k. unfold load.
  rewrite !map_app, !rev_app_distr, !find_app_all. destruct (find _ (rev (map _ bf))) as [s|]; [reflexivity|]. symmetry.
  apply find_perm.
  - apply Permutation_trans with (l' := map (fun e : entry R => match snd e with (o, h, r) => (request_key cc (json_to_sha1 sha1) ign None (Some h) o, r) end) a); [apply Permutation_sym, Permutation_rev|].
    apply Permutation_trans with (l' := map (fun e : entry R => match snd e with (o, h, r) => (request_key cc (json_to_sha1 sha1) ign None (Some h) o, r) end) a'); [now apply Permutation_map|apply Permutation_rev].
  - apply (Permutation_NoDup (l := map (fun e : entry R => snd (fst (snd e))) a)); [|now apply ND].
    apply Permutation_trans with (l' := map (fun s : snap R => k_hash (fst s)) (map (fun e : entry R => match snd e with (o, h, r) => (request_key cc (json_to_sha1 sha1) ign None (Some h) o, r) end) a)); [|apply Permutation_map, Permutation_rev].
    rewrite map_map. erewrite map_ext; [apply Permutation_refl|]. intros [n [[o h] r]]. reflexivity.
Qed.
Print Assumptions C141_any_order.

(** What .requests.json has wins: old recordings of requests that it has too are not looked at. *)
Theorem C141_newer_first cc sha1 jfloat (R X : Type) response_json response_of ign hide title fname capture refresh old file (T : http_test R X) cs os b used :
  (refresh = false -> exists l new, all_of (map (old_file cc sha1 jfloat R response_of ign) old) = Some l /\ recordings jfloat R response_of refresh file = Some new /\
     incl (map (fun e : entry R => snd (fst (snd e))) l) (map (fun e : entry R => snd (fst (snd e))) new)) ->
  (old_run cc sha1 jfloat R X response_json response_of ign hide title fname capture refresh old file T cs os b used <->
   http_run cc sha1 jfloat R X response_json response_of ign hide title fname capture refresh file T cs os b used).
Proof.
  intros H. destruct refresh; [split; intros G; exact G|]. destruct (H eq_refl) as (l & new & EL & EN & INC).
  assert (F : forall cs, send_all cc (json_to_sha1 sha1) R X capture (load cc (json_to_sha1 sha1) R ign None (l ++ new) false) [] cs =
                send_all cc (json_to_sha1 sha1) R X capture (load cc (json_to_sha1 sha1) R ign None new false) [] cs).
  { intros cs0. apply send_all_found. intros k. unfold load. rewrite map_app, rev_app_distr, find_app_all.
    match goal with |- match find ?p ?m with Some x => Some x | None => find ?p ?m' end = _ =>
      destruct (find p m) as [s|] eqn:FN; [symmetry; exact FN|]; destruct (find p m') as [s|] eqn:FL; [|symmetry; exact FN] end. exfalso.
    apply find_some in FL. destruct FL as [I M]. apply in_rev in I. apply in_map_iff in I. destruct I as ([n [[o h] r]] & ES & I). subst s. unfold matches in M. cbn in M. apply str_eqb_eq in M. subst h.
    assert (I2 : In (k_hash k) (map (fun e : entry R => snd (fst (snd e))) new)) by (apply INC, in_map_iff; exists (n, (o, k_hash k, r)); split; [reflexivity|exact I]).
    apply in_map_iff in I2. destruct I2 as ([n2 [[o2 h2] r2]] & E2 & I2). cbn in E2. subst h2.
    pose proof (find_none _ _ FN (request_key cc (json_to_sha1 sha1) ign None (Some (k_hash k)) o2, r2)) as I3.
    unfold matches in I3. cbn in I3. rewrite str_eqb_refl in I3. discriminate I3.
    apply -> in_rev. apply in_map_iff. exists (n2, (o2, k_hash k, r2)). auto. }
  unfold old_run, http_run, old_recordings. rewrite EL, EN. split.
  - intros (files & reqs & text & EF & E & REST). injection EF as <-. exists new, reqs, text. rewrite <- (F (keyed cc (json_to_sha1 sha1) ign None cs)). auto.
  - intros (files & reqs & text & EF & E & REST). injection EF as <-. exists (l ++ new), reqs, text. rewrite (F (keyed cc (json_to_sha1 sha1) ign None cs)). auto.
Qed.
Print Assumptions C141_newer_first.

(** ** Whole runs *)
(** the files in a directory, in any order *)
Definition listing (dir : str) (f : fs) (texts : list str) : Prop :=
  exists names, NoDup names /\ (forall r, In r names <-> lookup (dir ++ SLASH :: r) f <> None) /\ map Some texts = map (fun r => lookup (dir ++ SLASH :: r) f) names.

(** A run with -a and -u in which every test is OK moves the recordings to .requests.json: the directory is gone, and every later run
    that does not record is OK. *)
Theorem C141_then_green :
  forall cc, TokClassOK cc -> forall refloat E o c1 c2 body1 body2 b (D : Type) (show_dur : D -> str) parse_dur sp dur1 dur2 all1 all2 metrics1 metrics2
    selected answers1 answers2 f recs rest g
    sha1 jfloat (X : Type) ign hide capture refresh (T T' : str -> http_test rq_response X) cs os used (old : str -> list str),
  plain_dir E -> ReviewSpec.plain o -> starts_with [DOT] o = true -> let O := E ++ SLASH :: o in
  batch c1 -> accept c1 = true -> update c1 = true -> cont c1 = false -> batch c2 ->
  separate selected -> NoDup selected -> (forall n, In n selected -> steady cc (b n)) ->
  (forall n, In n selected -> ready E O n f) ->
  let dir n := E ++ SLASH :: n in
  let recording n := dir n ++ SLASH :: lit ".requests.json" in
  (forall n, In n selected -> listing (dir n ++ SLASH :: lit ".requests") f (old n)) ->
  (forall t, text (sha1 t)) ->
  (forall n, In n selected -> forall files, old_recordings cc sha1 jfloat rq_response rq_of ign refresh (old n) (lookup (recording n) f) = Some files ->
     forall name o h r, In (name, (o, h, r)) files -> obj_ok o /\ text h /\ rq_ok r /\ utf8_decode (rq_content r) <> None) ->
  (forall n, In n selected -> forall q r, In (q, inl r) (cs n) -> rq_ok r /\ utf8_decode (rq_content r) <> None) ->
  (forall n, In n selected -> forall q, In q (map fst (cs n)) \/ (exists i, t_next (T' n) (firstn i (os n)) = Some q) -> request_ok q) ->
  (forall n, In n selected -> forall qs, (forall q, In q qs -> In q (map fst (cs n)) \/ exists i, t_next (T' n) (firstn i (os n)) = Some q) ->
     forall x y, asked cc ign qs (length (cs n)) x -> asked cc ign qs (length (cs n)) y -> sha1 (request_text x) = sha1 (request_text y) -> request_text x = request_text y) ->
  (forall n, In n selected -> Forall (fun o => exists r, o = Returned r) (os n)) ->
  (forall n, In n selected -> forall h, t_does (T' n) h = t_does (T n) h /\
     match t_next (T n) h, t_next (T' n) h with
     | None, None => True
     | Some q, Some q' => k_hash (key_of cc (json_to_sha1 sha1) ign None q) = k_hash (key_of cc (json_to_sha1 sha1) ign None q')
     | _, _ => False
     end) ->
  (forall n, In n selected -> old_requests_run cc sha1 jfloat X ign hide capture refresh (old n) (lookup (recording n) f) (T n) (cs n) (os n) (b n) (used n)) ->
  (forall n h, In n selected -> (forall r, lookup (dir n ++ SLASH :: r) h = lookup (dir n ++ SLASH :: r) f) -> body1 n h = b n) ->
  (forall n h saved, In n selected -> lookup (recording n) h = Some saved -> listing (dir n ++ SLASH :: lit ".requests") h [] ->
     let offline := fun cs' os' b' used' => requests_run cc sha1 jfloat X ign hide false false (Some saved) (T' n) cs' os' b' used' in
     (exists cs' os' b' used', offline cs' os' b' used') -> exists cs' os' used', offline cs' os' (body2 n h) used') ->
  (forall n r, In n selected -> last_write (lit ".requests" ++ SLASH :: r) (b_files (b n)) = None) ->
  run_async cc refloat E O O c1 body1 show_dur parse_dur sp dur1 all1 metrics1 selected answers1 f = Some (Ret (OK, recs, rest) g) ->
  exists recs2 h,
    run_async cc refloat E O O c2 body2 show_dur parse_dur sp dur2 all2 metrics2 selected answers2 g = Some (Ret (OK, recs2, answers2) h) /\
    (cont c2 = false -> forall n, In n selected -> In (n, OK, dur2 n) recs2) /\
    forall n, In n selected -> lookup (recording n) g = last_write (lit ".requests.json") (b_files (b n)) /\ lookup (recording n) g <> None /\ lookup (recording n) h = lookup (recording n) g /\
      listing (dir n ++ SLASH :: lit ".requests") g [] /\ listing (dir n ++ SLASH :: lit ".requests") h [].
Proof.
  intros cc TOK refloat E o c1 c2 body1 body2 b D show_dur parse_dur sp dur1 dur2 all1 all2 metrics1 metrics2 selected answers1 answers2 f recs rest g
    sha1 jfloat X ign hide capture refresh T T' cs os used old HE Ho Hdot O HB1 HA HU HC1 HB2 SEP ND HST HR dir recording LI ST EO RO QO NC RE AL RUN HB HB' NW H.
  assert (PD : forall n r, dir n ++ SLASH :: r = E ++ SLASH :: n ++ SLASH :: r) by (intros n r; unfold dir; now rewrite <- app_assoc).
  assert (EMPTY : forall n h, In n selected -> (forall r, lookup (E ++ SLASH :: n ++ SLASH :: r) h = last_write r (b_files (b n))) -> listing (dir n ++ SLASH :: lit ".requests") h []).
  { intros n h Hn L. exists []. split; [constructor|]. split; [|reflexivity]. intros r. split; [intros []|]. intros N. exfalso. apply N.
    rewrite <- app_assoc. change ((SLASH :: lit ".requests") ++ SLASH :: r) with (SLASH :: (lit ".requests" ++ SLASH :: r)). rewrite PD, L. now apply NW. }
  assert (AGAIN : forall n, In n selected -> exists saved, last_write (lit ".requests.json") (b_files (b n)) = Some saved /\
    (exists qs, forall cs', map fst cs' = qs -> exists used', requests_run cc sha1 jfloat X ign hide false false (Some saved) (T' n) cs' (os n) (b n) used') /\
    forall cs' os' b' used', requests_run cc sha1 jfloat X ign hide false false (Some saved) (T' n) cs' os' b' used' -> b' = b n).
  { intros n Hn. destruct (C141_requests cc sha1 jfloat X ign hide capture refresh (old n) _ (T n) (T' n) (cs n) (os n) (b n) (used n) ST (EO n Hn) (RO n Hn) (QO n Hn) (NC n Hn) (RE n Hn) (AL n Hn) (RUN n Hn))
      as (saved & LW & EX & ALL). exists saved. split; [exact LW|]. split; [exact EX|]. intros cs' os' b' used' R. now apply (ALL _ _ _ _ R). }
  destruct (C119_recorded_then_green cc TOK refloat E o c1 c2 body1 body2 b D show_dur parse_dur sp dur1 dur2 all1 all2 metrics1 metrics2 selected answers1 answers2 f recs rest g)
    as (recs2 & h & R2 & A & B); try assumption.
  - intros n h Hn L. apply HB; [exact Hn|]. intros r. rewrite !PD. apply L.
  - intros n h Hn L. destruct (AGAIN n Hn) as (saved & LW & (qs & EX) & ALL).
    destruct (HB' n h saved Hn) as (cs' & os' & used' & RUN').
    + unfold recording. rewrite PD, L. exact LW.
    + now apply EMPTY.
    + destruct (EX (map (fun q => (q, inl {| rq_status := 0; rq_headers := []; rq_encoding := None; rq_content := [] |})) qs)) as (used' & RUN'); [rewrite map_map; apply map_id|].
      do 4 eexists. exact RUN'.
    + exact (ALL _ _ _ _ RUN').
  - exists recs2, h. split; [exact R2|]. split; [exact A|]. intros n Hn. destruct (B n Hn) as (_ & _ & _ & K). destruct (K (lit ".requests.json")) as [K1 K2].
    destruct (AGAIN n Hn) as (saved & LW & _). unfold recording. rewrite PD, K1, K2. split; [reflexivity|]. split; [now rewrite LW|]. split; [reflexivity|].
    split; apply EMPTY; try exact Hn; intros r; apply (K r).
Qed.
Print Assumptions C141_then_green.

(** *** Examples: the recordings of [talk_b] as an older version wrote them, one of them without a hash, in either order *)
Definition old_text (hash : bool) (q : request) : str :=
  let k := key_of ascii_class (json_to_sha1 demo_sha1) IgnoreAll None q in
  match dumps (Some 4) 0 (JDict [(JKStr (lit "request"), JDict (request_entries (k_obj k) ++ if hash then [(JKStr (lit "hash"), JStr (k_hash k))] else []));
                                 (JKStr (lit "response"), match rq_json page with Some v => v | None => JNone end)]) with Some t => t | None => [] end.
Definition talk_old : list str := [old_text true (ask (lit "/a")); old_text false (ask (lit "hi"))].
Definition talk_dead : list (request * (rq_response + unit)) := map (fun c => (fst c, inr tt)) talk_cs.
Lemma talk_taken_over old : In old [talk_old; rev talk_old] ->
  old_requests_run ascii_class demo_sha1 (fun t => t) unit IgnoreAll true false false old None talker talk_dead talk_os talk_b [false; false].
Proof.
  intros [<-|[<-|[]]]; do 3 eexists; (split; [vm_compute; reflexivity|]); (split; [vm_compute; reflexivity|]); (split; [apply conversation_2; vm_compute; reflexivity|]); split; vm_compute; reflexivity.
Qed.
Example C141_example : forall files, old_recordings ascii_class demo_sha1 (fun t => t) rq_response rq_of IgnoreAll false talk_old None = Some files ->
  length files = 2 /\ NoDup (map (fun e : entry rq_response => snd (fst (snd e))) files) /\
  forall name o h r, In (name, (o, h, r)) files -> obj_ok o /\ text h /\ rq_ok r /\ utf8_decode (rq_content r) <> None.
Proof.
  intros files H. assert (K : forall a b : list (entry rq_response), Some a = Some b -> a = b) by (intros a b HH; now injection HH).
  vm_compute in H. apply K in H. subst files. split; [reflexivity|]. split.
  - constructor; [|constructor; [intros []|constructor]]. intros [HH|[]]. discriminate.
  - intros name o h r [HH|[HH|[]]]; injection HH as _ <- <- <-; (split; [split; [apply low_text; repeat constructor|]; split; [apply low_text; repeat constructor|]; split; discriminate|]);
      (split; [apply low_text; repeat constructor|]); (split; [split; [split; constructor|discriminate]|discriminate]).
Qed.
(** the whole run: taken over with -a -u, without network, and again *)
Definition old_dir (i : str) : str := lit "books/t/net/.requests/" ++ i.
Definition talk_old_fs : fs := [(old_dir (lit "1"), nth 0 talk_old []); (old_dir (lit "2"), nth 1 talk_old [])].
Example C141_green_example :
  ready demo_E demo_O (lit "t/net") talk_old_fs /\ separate [lit "t/net"] /\ steady ascii_class talk_b /\
  exists recs rest g recs2 h, talk_go (talk_conf true true) (fun _ _ => talk_b) talk_old_fs = Some (Ret (OK, recs, rest) g) /\
    lookup talk_recording g = last_write (lit ".requests.json") (b_files talk_b) /\ lookup talk_recording g <> None /\
    lookup (old_dir (lit "1")) g = None /\ lookup (old_dir (lit "2")) g = None /\
    talk_go (talk_conf false false) (fun _ => talk_offline) g = Some (Ret (OK, recs2, []) h) /\ recs2 = [(lit "t/net", OK, lit "7")].
Proof.
  split; [apply readyb_ok; vm_compute; reflexivity|]. split; [exact talk_separate|]. split; [exact talk_steady|].
  do 5 eexists. split; [vm_compute; reflexivity|]. split; [vm_compute; reflexivity|]. split; [discriminate|]. split; [vm_compute; reflexivity|]. split; [vm_compute; reflexivity|]. split; vm_compute; reflexivity.
Qed.
