(** C111: several recording blocks in one test. *)
From Verif Require Import PyStrFacts EnvProofs BlocksModel.
From Verif Require FuncModel FuncProofs FuncProps HttpModel HttpProofs HttpHash HttpProps.
From Coq Require Import Permutation.

(** ** Environment variables *)

(** all values are texts, none is "not set" *)
Definition solid (d : table) : Prop := forall n, tget n d <> Some None.
Definition all_set (names : str -> Prop) (e : environ) : Prop := forall n, names n -> e n <> None.

Lemma solid_put n v d : solid d -> solid (tput n (Some v) d).
Proof. intros H m. rewrite tget_tput. destruct (str_eqb m n); [discriminate|apply H]. Qed.
Lemma all_set_put (U : str -> Prop) e n v : all_set U e -> all_set U (env_set e n (Some v)).
Proof. intros H m Hm. unfold env_set. destruct (str_eqb m n); [discriminate|now apply H]. Qed.

Lemma solid_entries d : Forall (fun x => snd x <> None) d -> solid d.
Proof.
  intros H n. induction H as [|[m v] d A B IH]; cbn [tget]; [discriminate|]. destruct (str_eqb n m); [|exact IH].
  cbn in A. congruence.
Qed.
Lemma entries_put n v d : v <> None -> Forall (fun x : str * option str => snd x <> None) d -> Forall (fun x => snd x <> None) (tput n v d).
Proof.
  intros Hv H. induction H as [|[m w] d A B IH]; cbn [tput]; [now constructor|]. destruct (str_eqb n m); constructor; auto.
Qed.

Lemma leave_ok old : Forall (fun x : str * option str => snd x <> None) old -> forall e, snd (snap_leave old e) = true.
Proof.
  induction 1 as [|[n [v|]] old A B IH]; intros e; cbn [snap_leave]; [reflexivity|apply IH|now cbn in A].
Qed.

Lemma leave_set (U : str -> Prop) old : Forall (fun x : str * option str => snd x <> None) old -> forall e, all_set U e -> all_set U (fst (snap_leave old e)).
Proof.
  induction 1 as [|[n [v|]] old A B IH]; intros e He; cbn [snap_leave]; [exact He|apply IH; now apply all_set_put|now cbn in A].
Qed.

(** entering a block where everything is set and every recording is a text *)
Lemma enter_ok (U : str -> Prop) snapshots capturing names : solid snapshots -> (forall n, In n names -> U n) -> forall e old cap,
  all_set U e -> Forall (fun x => snd x <> None) old ->
  let s := snap_enter names snapshots capturing e old cap in
  all_set U (s_env s) /\ Forall (fun x => snd x <> None) (s_old s) /\
  (s_ok s = true <-> forall n, In n names -> tget n snapshots = None -> capturing = true).
Proof.
  intros HS. induction names as [|n names IH]; intros HU e old cap He Ho; cbn [snap_enter].
  - cbn. repeat split; auto.
  - assert (Hn : e n <> None) by (apply He, HU; now left).
    assert (HU' : forall m, In m names -> U m) by (intros; apply HU; now right).
    assert (Ho' : Forall (fun x => snd x <> None) (tput n (e n) old)) by (now apply entries_put).
    destruct (tget n snapshots) as [[v|]|] eqn:T.
    + destruct (IH HU' (env_set e n (Some v)) (tput n (e n) old) (tput n (Some v) cap) (all_set_put U e n v He) Ho') as (A & B & C).
      cbn zeta. split; [exact A|]. split; [exact B|]. rewrite C. split; intros H m Hm; [|apply H; now right].
      destruct Hm as [<-|Hm]; [rewrite T; discriminate|now apply H].
    + now destruct (HS n).
    + destruct capturing.
      * destruct (IH HU' e (tput n (e n) old) (tput n (e n) cap) He Ho') as (A & B & C).
        cbn zeta. split; [exact A|]. split; [exact B|]. rewrite C. split; auto.
      * cbn. split; [exact He|]. split; [exact Ho'|]. split; [discriminate|]. intros H. specialize (H n (or_introl eq_refl) T). discriminate.
Qed.

(** what a block records when nothing was recorded before *)
Lemma capture_fresh names : forall e old cap m,
  let s := snap_enter names [] true e old cap in
  s_env s = e /\ tget m (s_capture s) = if str_mem m names then Some (e m) else tget m cap.
Proof.
  induction names as [|n names IH]; intros e old cap m; cbn [snap_enter tget]; [now split|].
  destruct (IH e (tput n (e n) old) (tput n (e n) cap) m) as [A B]. cbn zeta. split; [exact A|]. rewrite B, tget_tput.
  unfold str_mem. cbn [existsb]. fold (str_mem m names). destruct (str_eqb m n) eqn:E; cbn [orb]; [|reflexivity].
  apply str_eqb_eq in E. subst n. now destruct (str_mem m names).
Qed.

Lemma nested_set (U : str -> Prop) file refresh complete body blocks : solid (snap_load file refresh) ->
  (forall names n, In names blocks -> In n names -> U n) -> forall e out, all_set U e ->
  (snd (fst (nested_env blocks file refresh complete body e out)) = true <->
   forall names n, In names blocks -> In n names -> tget n (snap_load file refresh) = None -> complete || refresh = true).
Proof.
  intros HS. induction blocks as [|names rest IH]; intros HU e out He; cbn [nested_env].
  - cbn. split; [intros _ names n []|reflexivity].
  - destruct (enter_ok U (snap_load file refresh) (complete || refresh) names HS (fun n Hn => HU names n (or_introl eq_refl) Hn) e [] [] He (Forall_nil _)) as (A & B & C).
    unfold snap_start. cbv zeta. destruct (s_ok _) eqn:OK.
    + specialize (IH (fun names n Hin => HU names n (or_intror Hin)) _ out A).
      destruct (nested_env rest file refresh complete body _ out) as [[e1 ok1] out1]. cbn [fst snd] in IH.
      pose proof (leave_ok _ B e1) as L. destruct (snap_leave _ e1) as [e2 ok2]. cbn [snd] in L. subst ok2. cbn [fst snd].
      rewrite andb_true_r, IH. split; intros H names' n Hin; [|apply H; now right].
      destruct Hin as [<-|Hin]; [now apply C|now apply H].
    + cbn [fst snd]. split; [discriminate|]. intros H. assert (X : false = true); [|discriminate X]. apply C.
      intros n Hn. now apply (H names n (or_introl eq_refl)).
Qed.

(** ** Functions *)
Lemma last_value_app V X h (a b : list (str * FuncModel.outcome V X)) : forall acc,
  FuncProofs.last_value V X h (a ++ b) acc = FuncProofs.last_value V X h b (FuncProofs.last_value V X h a acc).
Proof. induction a as [|[k o] a IH]; intros acc; [reflexivity|]. cbn [app FuncProofs.last_value]. destruct o; apply IH. Qed.
Lemma last_value_acc V X h (b : list (str * FuncModel.outcome V X)) : forall acc,
  FuncProofs.last_value V X h b acc =
  match FuncProofs.last_value V X h b None with Some v => Some v | None => acc end.
Proof.
  induction b as [|[k o] b IH]; intros acc; [reflexivity|]. cbn [FuncProofs.last_value]. destruct o as [v| |x]; try apply IH.
  destruct (str_eqb k h); [|apply IH]. rewrite (IH (Some v)). now destruct (FuncProofs.last_value V X h b None).
Qed.

Lemma write_call_assoc V h (dir : FuncModel.snaps V) k w :
  FuncModel.assoc V h (write_call V dir (k, w)) = if str_eqb k h then Some w else FuncModel.assoc V h dir.
Proof.
  unfold write_call. cbn [fst]. rewrite FuncProofs.assoc_app, FuncProofs.assoc_filter. cbn [FuncModel.assoc].
  destruct (str_eqb k h); [reflexivity|]. now destruct (FuncModel.assoc V h dir).
Qed.
Lemma write_call_nodup V (dir : FuncModel.snaps V) e : NoDup (map fst dir) -> NoDup (map fst (write_call V dir e)).
Proof.
  intros H. unfold write_call. rewrite map_app. apply FuncProofs.NoDup_snoc; [now apply FuncProofs.NoDup_filter_fst|].
  rewrite in_map_iff. intros (x & E & I). apply filter_In in I as [_ I]. rewrite E, str_eqb_refl in I. discriminate.
Qed.
Lemma write_calls V (saved : FuncModel.snaps V) : NoDup (map fst saved) -> forall dir, NoDup (map fst dir) ->
  NoDup (map fst (fold_left (write_call V) saved dir)) /\
  forall h, FuncModel.assoc V h (fold_left (write_call V) saved dir) =
    match FuncModel.assoc V h saved with Some w => Some w | None => FuncModel.assoc V h dir end.
Proof.
  induction saved as [|[k w] saved IH]; intros NS dir ND; cbn [fold_left]; [now split|].
  inversion_clear NS as [|? ? NI NS']. destruct (IH NS' _ (write_call_nodup V dir (k, w) ND)) as [A B]. split; [exact A|].
  intros h. rewrite B, write_call_assoc. cbn [FuncModel.assoc]. destruct (str_eqb_spec k h) as [->|N]; [|reflexivity].
  destruct (FuncModel.assoc V h saved) as [x|] eqn:E; [|reflexivity]. exfalso. apply NI. apply in_map_iff. exists (h, x).
  split; [reflexivity|]. now apply FuncProofs.assoc_In.
Qed.

Lemma run_length V X capture loaded cs : forall calls calls' os is,
  FuncModel.run_calls V X capture loaded calls cs = (calls', os, is) -> length os = length cs.
Proof.
  induction cs as [|[h real] cs IH]; cbn [FuncModel.run_calls]; intros calls calls' os is; [intros [= _ <- _]; reflexivity|].
  destruct (FuncModel.snapshot V X capture loaded calls h real) as [[c1 o] i].
  destruct (FuncModel.run_calls V X capture loaded c1 cs) as [[c2 os'] is'] eqn:E. intros [= _ <- _]. cbn [length]. f_equal. eauto.
Qed.
Lemma combine_app {A B} (a a' : list A) (b b' : list B) : length a = length b -> combine (a ++ a') (b ++ b') = combine a b ++ combine a' b'.
Proof. revert b. induction a as [|x a IH]; intros [|y b] H; try discriminate; [reflexivity|]. cbn. f_equal. apply IH. now injection H. Qed.

Lemma func_blocks_dir V X to_json capture loaded blocks : forall dir tr oss dir',
  NoDup (map fst dir) ->
  (forall h, FuncModel.assoc V h dir = match FuncProofs.last_value V X h tr None with Some v => to_json v | None => None end) ->
  (forall h v, FuncProofs.last_value V X h tr None = Some v -> to_json v <> None) ->
  func_blocks V X to_json capture loaded blocks dir = Some (oss, dir') ->
  let tr' := tr ++ combine (map fst (concat blocks)) (concat oss) in
  NoDup (map fst dir') /\
  (forall h, FuncModel.assoc V h dir' = match FuncProofs.last_value V X h tr' None with Some v => to_json v | None => None end) /\
  (forall h v, FuncProofs.last_value V X h tr' None = Some v -> to_json v <> None).
Proof.
  induction blocks as [|cs rest IH]; intros dir tr oss dir' ND AS JS; cbn [func_blocks].
  - intros [= <- <-]. cbn. rewrite app_nil_r. auto.
  - destruct (FuncModel.run_calls V X capture loaded [] cs) as [[calls os] is] eqn:ER.
    destruct (FuncModel.store V to_json calls) as [saved|] eqn:ES; [|discriminate].
    destruct (func_blocks V X to_json capture loaded rest _) as [[oss' dir2]|] eqn:EB; [|discriminate]. intros [= <- <-].
    assert (NS : NoDup (map fst saved)).
    { rewrite (FuncProofs.store_fst V to_json calls saved ES). eapply FuncProofs.run_nodup; [|exact ER]. constructor. }
    assert (RL : forall h, FuncModel.assoc V h calls = FuncProofs.last_value V X h (combine (map fst cs) os) None)
      by (intros h; apply (FuncProofs.run_last V X capture loaded cs [] calls os is h); [now left|exact ER]).
    assert (SJ : forall h v, FuncModel.assoc V h calls = Some v -> to_json v <> None).
    { intros h v E. assert (I : In h (map fst saved)).
      { rewrite (FuncProofs.store_fst V to_json calls saved ES). apply FuncProofs.assoc_In in E. apply in_map_iff. now exists (h, v). }
      apply in_map_iff in I. destruct I as ([k w] & EK & I). cbn [fst] in EK. subst k. apply FuncProofs.In_assoc in I; [|assumption].
      rewrite (FuncProofs.store_assoc V to_json calls saved h ES), E in I. congruence. }
    destruct (write_calls V saved NS dir ND) as [W1 W2].
    assert (L : length (map fst cs) = length os) by (rewrite map_length; symmetry; eapply run_length; exact ER).
    cbn [concat]. rewrite map_app, (combine_app _ _ _ _ L), app_assoc. cbv zeta.
    apply (IH (fold_left (write_call V) saved dir) (tr ++ combine (map fst cs) os)); [exact W1| | |exact EB].
    + intros h. rewrite W2, (FuncProofs.store_assoc V to_json calls saved h ES), last_value_app, last_value_acc, AS, <- RL.
      destruct (FuncModel.assoc V h calls) as [v|] eqn:E; [|reflexivity]. specialize (SJ h v E). now destruct (to_json v).
    + intros h v. rewrite last_value_app, last_value_acc, <- RL. destruct (FuncModel.assoc V h calls) as [w|] eqn:E; [|apply JS].
      intros [= <-]. now apply (SJ h).
Qed.

(** ** HTTP *)
Lemma http_blocks_last cc sha R X to_disk ign j capture files refresh hide before last : forall out oss out',
  http_blocks cc sha R X to_disk ign j capture files refresh hide (before ++ [last]) out = Some (oss, out') ->
  exists oss0 reqs os is stored, oss = oss0 ++ [os] /\ length oss0 = length before /\ out' = Some stored /\
    HttpModel.send_all cc sha R X capture (HttpModel.load cc sha R ign j files refresh) [] last = (reqs, os, is) /\
    HttpModel.stop R to_disk hide reqs [] = Some stored.
Proof.
  induction before as [|cs before IH]; intros out oss out'; cbn [app http_blocks].
  - destruct (HttpModel.send_all cc sha R X capture _ [] last) as [[reqs os] is] eqn:E.
    destruct (HttpModel.stop R to_disk hide reqs []) as [stored|] eqn:S; [|discriminate]. intros [= <- <-].
    exists [], reqs, os, is, stored. auto.
  - destruct (HttpModel.send_all cc sha R X capture _ [] cs) as [[reqs os] is].
    destruct (HttpModel.stop R to_disk hide reqs []) as [stored|]; [|discriminate].
    destruct (http_blocks _ _ _ _ _ _ _ _ _ _ _ (before ++ [last]) (Some stored)) as [[oss1 out1]|] eqn:E; [|discriminate].
    intros [= <- <-]. destruct (IH _ _ _ E) as (oss0 & reqs' & os' & is' & st' & -> & L & K). exists (os :: oss0), reqs', os', is', st'.
    split; [reflexivity|]. split; [cbn; now rewrite L|exact K].
Qed.

(** ** C111: "a test may open several recording blocks of the same kind: what they recorded is replayed". *)

(** Refuted: the blocks of a test write the same file, and what the last one writes is all that is kept. Two snapshot_env
    decorators, for A and for B: the recording of B is lost, and the replay raises. Two blocks of requests: the recording of the first
    is lost. *)
Theorem C111_refuted :
  (exists a b e e' f, a <> b /\ e a <> None /\ e b <> None /\
     nested_env [[a]; [b]] None true false (fun x => x) e None = (e', true, Some f) /\
     snd (fst (nested_env [[a]; [b]] (Some f) false false (fun x => x) e None)) = false) /\
  (exists q1 q2 : HttpProps.request, exists stored,
     let keyed := HttpProps.keyed ascii_class HttpHash.demo_sha HttpModel.IgnoreAll None in
     http_blocks ascii_class HttpHash.demo_sha nat unit Some HttpModel.IgnoreAll None true [] true true
       [keyed [(q1, inl 1)]; keyed [(q2, inl 2)]] None =
       Some ([[HttpModel.Returned 1]; [HttpModel.Returned 2]], Some stored) /\
     http_blocks ascii_class HttpHash.demo_sha nat unit Some HttpModel.IgnoreAll None false stored false true
       [keyed [(q1, inl 1)]; keyed [(q2, inl 2)]] None =
       Some ([[HttpModel.Missing]; [HttpModel.Returned 2]], Some stored)).
Proof.
  split.
  - exists (lit "A"), (lit "B"), (fun _ => Some (lit "v")). eexists. eexists. split; [discriminate|]. split; [discriminate|].
    split; [discriminate|]. split; [vm_compute; reflexivity|]. vm_compute. reflexivity.
  - exists (HttpProps.get "a"), (HttpProps.get "b"). eexists. split; [vm_compute; reflexivity|]. vm_compute. reflexivity.
Qed.
Print Assumptions C111_refuted.

(** Partial, environment: nested blocks [first :: rest], the variables set in both runs. The file has the variables of the
    outermost block, with their values, and no others; so a replay succeeds if, and only if, the inner blocks name no variable that
    the outermost does not name. *)
Theorem C111_env_partial first rest file complete body e :
  (forall names n, In names (first :: rest) -> In n names -> e n <> None) ->
  exists e' f, nested_env (first :: rest) file true complete body e None = (e', true, Some f) /\
  (forall n, tget n f = if str_mem n first then Some (e n) else None) /\
  forall body2 e2, (forall names n, In names (first :: rest) -> In n names -> e2 n <> None) ->
    (snd (fst (nested_env (first :: rest) (Some f) false false body2 e2 None)) = true <->
     forall names n, In names rest -> In n names -> In n first).
Proof.
  intros Hset. set (U := fun n => exists names, In names (first :: rest) /\ In n names).
  assert (HU : forall names n, In names (first :: rest) -> In n names -> U n) by (intros names n A B; now exists names).
  assert (L0 : snap_load file true = []) by (now destruct file).
  assert (He : all_set U e) by (intros n (names & A & B); now apply (Hset names)).
  assert (OK : snd (fst (nested_env (first :: rest) file true complete body e None)) = true).
  { apply (nested_set U); try assumption; [rewrite L0; intros n; discriminate|]. intros; apply orb_true_r. }
  set (f := s_capture (snap_start first file true complete e)).
  assert (Hf : forall n, tget n f = if str_mem n first then Some (e n) else None).
  { intros n. unfold f, snap_start. rewrite L0, orb_true_r. destruct (capture_fresh first e [] [] n) as [_ ->]. now destruct (str_mem n first). }
  assert (OUT : exists e', nested_env (first :: rest) file true complete body e None = (e', true, Some f)).
  { revert OK. cbn [nested_env]. destruct (s_ok _); [|discriminate].
    destruct (nested_env rest file true complete body _ None) as [[e1 ok1] out1]. destruct (snap_leave _ e1) as [e2 ok2].
    cbn [fst snd]. intros E. apply andb_true_iff in E as [-> ->]. eexists. reflexivity. }
  destruct OUT as [e' OUT]. exists e', f. split; [exact OUT|]. split; [exact Hf|].
  intros body2 e2 Hset2.
  assert (SF : solid (snap_load (Some f) false)).
  { intros n. cbn [snap_load]. rewrite Hf. destruct (str_mem n first) eqn:M; [|discriminate]. apply str_mem_In in M.
    pose proof (Hset first n (or_introl eq_refl) M). congruence. }
  rewrite (nested_set U (Some f) false false body2 (first :: rest) SF HU e2 None); [|intros n (names & A & B); now apply (Hset2 names)].
  cbn [snap_load orb]. split.
  - intros H names n A B. destruct (str_mem n first) eqn:M; [now apply str_mem_In|]. exfalso.
    assert (X : false = true); [|discriminate X]. apply (H names n (or_intror A) B). now rewrite Hf, M.
  - intros H names n A B T. exfalso. rewrite Hf in T. destruct (str_mem n first) eqn:M; [discriminate|].
    destruct A as [<-|A]; [apply str_mem_In in B; congruence|]. apply (H names n A), str_mem_In in B. congruence.
Qed.
Print Assumptions C111_env_partial.

(** Partial, HTTP: the file is that of the last block. So every block whose requests have the keys of the last one is replayed, with
    the answers that the last block got; and a request with a key that the last block did not record raises. *)
Theorem C111_http_partial cc sha ign (R X : Type) to_disk capture files refresh hide before last oss out listing cs'
  (no_collision : forall a b, HttpProps.asked cc ign (map fst (last ++ cs')) (length last) a ->
     HttpProps.asked cc ign (map fst (last ++ cs')) (length last) b -> (sha a = sha b <-> HttpProofs.same a b)) :
  http_blocks cc sha R X to_disk ign None capture files refresh hide
    (map (HttpProps.keyed cc sha ign None) (before ++ [last])) None = Some (oss, Some out) ->
  Permutation out listing ->
  (forall os, In os oss -> forall o, In o os -> exists r, o = HttpModel.Returned r) ->
  (Forall2 (fun c c' => HttpModel.k_hash (HttpProps.key_of cc sha ign None (fst c)) = HttpModel.k_hash (HttpProps.key_of cc sha ign None (fst c'))) last cs' ->
   let '(_, os', is') := HttpModel.send_all cc sha R X false (HttpModel.load cc sha R ign None listing false) [] (HttpProps.keyed cc sha ign None cs') in
   Forall2 (fun o o' => exists r r', o = HttpModel.Returned r /\ to_disk r = Some r' /\ o' = HttpModel.Returned r') (List.last oss []) os' /\
   Forall (fun i => i = false) is') /\
  (forall reqs q real, ~ In (HttpModel.k_hash (HttpModel.mark_order cc sha R reqs (HttpProps.key_of cc sha ign None q))) (map (fun x => snd (fst (snd x))) out) ->
   snd (fst (HttpModel.send cc sha R X false (HttpModel.load cc sha R ign None listing false) reqs (HttpProps.key_of cc sha ign None q) real)) = HttpModel.Missing).
Proof.
  intros E P HR. rewrite map_app in E. cbn [map] in E.
  destruct (http_blocks_last cc sha R X to_disk ign None capture files refresh hide _ _ _ _ _ E) as (oss0 & reqs & os & is & stored & -> & L & [= ->] & ES & EP).
  assert (HO : Forall (fun o => exists r, o = HttpModel.Returned r) os).
  { apply Forall_forall. apply HR. apply in_or_app. right. now left. }
  split.
  - intros F. rewrite last_last.
    exact (HttpProps.C45_partial cc sha ign R X to_disk capture files refresh last reqs os is hide stored listing cs' no_collision ES HO EP P F).
  - intros reqs' q real NI.
    pose proof (HttpProps.C43_http cc sha R X (HttpModel.load cc sha R ign None listing false) reqs' (HttpProps.key_of cc sha ign None q) real) as C.
    destruct (HttpModel.send cc sha R X false _ reqs' _ real) as [[r1 o] n]. destruct C as [_ [(s & I & EH & _)|[-> _]]]; [|reflexivity].
    exfalso. apply NI. rewrite <- EH. unfold HttpModel.load in I. apply in_map_iff in I as ([name [[ob h] r]] & <- & I).
    cbn [fst snd]. apply in_map_iff. exists (name, (ob, h, r)). split; [reflexivity|]. eapply Permutation_in; [apply Permutation_sym; exact P|exact I].
Qed.
Print Assumptions C111_http_partial.

(** Functions: true. Every call of every block has its own file, so that a replay returns for a call the last value that any block
    captured for it, and raises for a call that none captured. *)
Theorem C111_functions (V X : Type) (to_json : V -> option V) files refresh complete blocks oss dir listing cs' :
  func_blocks V X to_json (FuncModel.capturing refresh complete) (FuncModel.load V files refresh) blocks [] = Some (oss, dir) ->
  Permutation dir listing ->
  let tr := combine (map fst (concat blocks)) (concat oss) in
  let '(_, os', is') := FuncModel.run_calls V X false (FuncModel.load V listing false) [] cs' in
  Forall (fun i => i = false) is' /\
  Forall2 (fun c o =>
    (forall pre v post, tr = pre ++ (fst c, FuncModel.Returned v) :: post -> (forall v', ~ In (fst c, FuncModel.Returned v') post) ->
       exists w, to_json v = Some w /\ o = FuncModel.Returned w) /\
    ((forall v, ~ In (fst c, FuncModel.Returned v) tr) -> o = FuncModel.Missing)) cs' os'.
Proof.
  intros E P tr.
  destruct (func_blocks_dir V X to_json (FuncModel.capturing refresh complete) (FuncModel.load V files refresh) blocks [] [] oss dir (NoDup_nil _)) as (ND & AS & JS); [reflexivity|discriminate|exact E|].
  cbn [app] in AS, JS. fold tr in AS, JS. pose proof (FuncProofs.replay_spec V X listing cs' []) as RS. cbn [FuncModel.load].
  destruct (FuncModel.run_calls V X false listing [] cs') as [[c' os'] is']. destruct RS as [-> ->]. split.
  - apply Forall_forall. intros i I. apply in_map_iff in I. destruct I as (? & <- & _). reflexivity.
  - assert (AS' : forall h, FuncModel.assoc V h (rev listing) = match FuncProofs.last_value V X h tr None with Some v => to_json v | None => None end).
    { intros h. rewrite <- (FuncProofs.assoc_perm V h dir (rev listing)); [apply AS|assumption|]. etransitivity; [exact P|apply Permutation_rev]. }
    induction cs' as [|[h real] cs' IH]; cbn [map]; constructor; [|exact IH]. cbn [fst]. split.
    + intros pre v post ET H. pose proof (FuncProps.last_value_split V X h pre post v None H) as LV. rewrite <- ET in LV.
      rewrite (AS' h), LV. specialize (JS h v LV). destruct (to_json v) as [w|]; [|congruence]. eauto.
    + intros H. rewrite (AS' h). rewrite FuncProps.last_value_none by assumption. reflexivity.
Qed.
Print Assumptions C111_functions.

(** two blocks of functions; the second calls g, and f again *)
Example c111_functions_example : exists oss dir,
  func_blocks nat unit Some true [] [[(lit "f", inl 1)]; [(lit "g", inl 2); (lit "f", inl 3)]] [] = Some (oss, dir) /\
  FuncModel.assoc nat (lit "f") dir = Some 3 /\ FuncModel.assoc nat (lit "g") dir = Some 2 /\
  snd (fst (FuncModel.run_calls nat unit false dir [] [(lit "f", inr tt); (lit "h", inr tt)])) = [FuncModel.Returned 3; FuncModel.Missing].
Proof. eexists. eexists. split; [vm_compute; reflexivity|]. repeat split. Qed.
(** nested blocks for A, B and for B: nothing is lost *)
Example c111_env_example : let e : environ := fun _ => Some (lit "v") in
  exists e' f, nested_env [[lit "A"; lit "B"]; [lit "B"]] None true false (fun x => x) e None = (e', true, Some f) /\
  snd (fst (nested_env [[lit "A"; lit "B"]; [lit "B"]] (Some f) false false (fun x => x) e None)) = true.
Proof. eexists. eexists. split; [vm_compute; reflexivity|]. vm_compute. reflexivity. Qed.
(** two blocks that make the same requests: both are replayed, with the answers that the second got *)
Example c111_http_example : exists oss out,
  let keyed := HttpProps.keyed ascii_class HttpHash.demo_sha HttpModel.IgnoreAll None in
  let cs := [(HttpProps.get "a", inl 1); (HttpProps.get "b", inl 2)] in
  let ds := [(HttpProps.get "a", inl 3); (HttpProps.get "b", inl 4)] in
  http_blocks ascii_class HttpHash.demo_sha nat unit Some HttpModel.IgnoreAll None true [] true true [keyed cs; keyed ds] None = Some (oss, Some out) /\
  http_blocks ascii_class HttpHash.demo_sha nat unit Some HttpModel.IgnoreAll None false out false true [keyed cs; keyed ds] None =
    Some ([[HttpModel.Returned 3; HttpModel.Returned 4]; [HttpModel.Returned 3; HttpModel.Returned 4]], Some out).
Proof. eexists. eexists. split; [vm_compute; reflexivity|]. vm_compute. reflexivity. Qed.

(** *** The environment after nested blocks (C48) *)

(** Blocks on top of each other leave the variables as they were, if every variable they name is set, and recorded with a value or
    captured. Inside, every variable has the value recorded. *)
Theorem C48_nested_env_partial blocks (file : option table) (refresh complete : bool) body e out :
  let recorded (n : str) := if refresh then None else match file with Some d => tget n d | None => None end in
  Forall (@NoDup str) blocks ->
  (forall names n, In names blocks -> In n names ->
     e n <> None /\ recorded n <> Some None /\ (recorded n = None -> complete || refresh = true)) ->
  exists inside e' out', nested_env blocks file refresh complete body e out = (e', true, out') /\
  (forall n, In n (concat blocks) -> inside n = match recorded n with Some v => v | None => e n end) /\
  (forall n, ~ In n (concat blocks) -> inside n = e n) /\
  (forall n, In n (concat blocks) -> e' n = e n) /\
  (forall n, ~ In n (concat blocks) -> e' n = body inside n).
Proof.
  cbv zeta.
  assert (RL : forall n, (if refresh then None else match file with Some d => tget n d | None => None end) = tget n (snap_load file refresh)).
  { intros n. unfold snap_load. destruct file as [d|], refresh; reflexivity. }
  intros ND H. assert (H' : forall names n, In names blocks -> In n names -> e n <> None /\ tget n (snap_load file refresh) <> Some None /\ (tget n (snap_load file refresh) = None -> complete || refresh = true)).
  { intros names n I J. rewrite <- RL. exact (H names n I J). }
  cut (exists inside e' out', nested_env blocks file refresh complete body e out = (e', true, out') /\
    (forall n, In n (concat blocks) -> inside n = inner (snap_load file refresh) e n) /\
    (forall n, ~ In n (concat blocks) -> inside n = e n) /\
    (forall n, In n (concat blocks) -> e' n = e n) /\ (forall n, ~ In n (concat blocks) -> e' n = body inside n)).
  { intros (inside & e' & out' & A & B & C). exists inside, e', out'. split; [exact A|]. split; [|exact C]. intros n I. rewrite RL. exact (B n I). }
  clear H RL. revert e out H'. induction ND as [|names rest N1 ND IH]; intros e out H.
  - exists e, (body e), out. cbn [nested_env concat]. repeat split; intros n []; reflexivity.
  - assert (K : forall n, In n names -> e n <> None /\ tget n (snap_load file refresh) <> Some None /\ (tget n (snap_load file refresh) = None -> complete || refresh = true)).
    { intros n J. apply (H names n (or_introl eq_refl) J). }
    set (bd := fun x => fst (fst (nested_env rest file refresh complete body x out))).
    destruct (snap_block_spec names file refresh complete bd e N1) as (I1 & I2 & e1 & E1 & F1 & F2).
    { intros n J. apply (K n J). }
    { intros n J _. apply (K n J). }
    { intros n J Z. now elim (proj1 (K n J)). }
    set (mid := s_env (snap_start names file refresh complete e)) in *.
    destruct (IH mid out) as (inside & e2 & out2 & E2 & G1 & G2 & G3 & G4).
    { intros ns n I J. destruct (H ns n (or_intror I) J) as (A & B & C). split; [|now split]. destruct (in_dec (list_eq_dec N.eq_dec) n names) as [D|D].
      - rewrite (I1 n D). unfold inner. destruct (tget n (snap_load file refresh)) as [[v|]|]; [discriminate|now elim B|exact A].
      - now rewrite (I2 n D). }
    assert (EB : bd mid = e2) by (unfold bd; now rewrite E2).
    assert (MID : forall n, inner (snap_load file refresh) mid n = inner (snap_load file refresh) e n).
    { intros n. unfold inner. destruct (tget n (snap_load file refresh)) as [v|] eqn:T; [reflexivity|]. destruct (in_dec (list_eq_dec N.eq_dec) n names) as [D|D].
      - rewrite (I1 n D). unfold inner. now rewrite T.
      - exact (I2 n D). }
    unfold snap_block in E1. destruct (s_ok (snap_start names file refresh complete e)) eqn:OK; [|discriminate]. fold mid in E1.
    destruct (snap_leave (s_old (snap_start names file refresh complete e)) (bd mid)) as [e3 ok3] eqn:LV. injection E1 as -> -> _.
    exists inside, e1. eexists. cbn [nested_env]. rewrite OK. fold mid. rewrite E2, <- EB, LV. split; [reflexivity|]. cbn [concat]. split; [|split; [|split]].
    + intros n I. destruct (in_dec (list_eq_dec N.eq_dec) n (concat rest)) as [D|D].
      * rewrite (G1 n D). apply MID.
      * rewrite (G2 n D). apply in_app_iff in I as [I|I]; [exact (I1 n I)|contradiction].
    + intros n NI. rewrite in_app_iff in NI. rewrite G2 by tauto. apply I2. tauto.
    + intros n I. destruct (in_dec (list_eq_dec N.eq_dec) n names) as [D|D]; [exact (F1 n D)|]. rewrite (F2 n D), EB, <- (I2 n D). apply G3. apply in_app_iff in I. tauto.
    + intros n NI. rewrite in_app_iff in NI. rewrite F2 by tauto. rewrite EB. apply G4. tauto.
Qed.
Print Assumptions C48_nested_env_partial.

(** A block whose start raises (B was not recorded) leaves the variables before it changed, also inside of another block, which
    restores its own. *)
Theorem C48_nested_env_refuted : exists outer names file e e' out n,
  nested_env [outer; names] (Some file) false false (fun x => x) e None = (e', false, out) /\
  In n names /\ e' n <> e n /\ forall m, In m outer -> e' m = e m.
Proof.
  exists [lit "C"], [lit "A"; lit "B"], [(lit "C", Some (lit "1")); (lit "A", Some (lit "2"))], (fun _ => Some (lit "v")). eexists. eexists. exists (lit "A").
  split; [vm_compute; reflexivity|]. split; [now left|]. split; [discriminate|]. intros m [<-|[]]. reflexivity.
Qed.
Print Assumptions C48_nested_env_refuted.

Example C48_nested_env_example : exists inside e' out',
  nested_env [[lit "A"; lit "B"]; [lit "B"]] (Some [(lit "A", Some (lit "1"))]) false true (fun x => env_set x (lit "B") None) (fun _ => Some (lit "v")) None = (e', true, out') /\
  inside (lit "A") = Some (lit "1") /\ inside (lit "B") = Some (lit "v") /\ e' (lit "A") = Some (lit "v") /\ e' (lit "B") = Some (lit "v").
Proof.
  destruct (C48_nested_env_partial [[lit "A"; lit "B"]; [lit "B"]] (Some [(lit "A", Some (lit "1"))]) false true (fun x => env_set x (lit "B") None) (fun _ => Some (lit "v")) None) as (i & e' & o & E & A & _ & B & _).
  - repeat constructor; cbn [In]; intuition discriminate.
  - intros names n I J. split; [discriminate|]. split; [|reflexivity]. cbn [tget]. destruct (str_eqb n (lit "A")); discriminate.
  - exists i, e', o. split; [exact E|]. rewrite (A (lit "A")), (A (lit "B")), (B (lit "A")), (B (lit "B")) by (cbn [concat app In]; auto). repeat split; reflexivity.
Qed.
