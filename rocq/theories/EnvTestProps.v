(** C121: a whole test inside snapshot_env, recorded, accepted and run again. *)
From Coq Require Import Lia.
From Verif Require Import RunCaseSpec PyStrFacts RunCaseProofs RunnerProofs RunCaseProps RecordProofs RecordProps TokenizerProps CaseRunProps RepeatProps.
From Verif Require Import EnvTestModel EnvModel EnvProofs.
From Verif Require JsonSpec JsonProps BytesFacts.

Lemma enter_ok names snapshots capturing : forall e old cap, NoDup names -> s_ok (snap_enter names snapshots capturing e old cap) = true ->
  forall n, In n names -> (tget n snapshots = None -> capturing = true) /\ (tget n snapshots = Some None -> e n <> None).
Proof.
  induction names as [|m names IH]; intros e old cap ND OK n I; [destruct I|]. inversion ND as [|? ? N1 N2]; subst. cbn [snap_enter] in OK.
  destruct (tget m snapshots) as [[v|]|] eqn:TG.
  - destruct I as [<-|I]; [rewrite TG; split; discriminate|]. destruct (IH _ _ _ N2 OK n I) as [A B]. split; [exact A|]. intros H. specialize (B H). rewrite set_other in B; [exact B|congruence].
  - unfold env_del in OK. destruct (e m) as [x|] eqn:EM; [|discriminate]. destruct I as [<-|I]; [rewrite TG; split; [discriminate|congruence]|].
    destruct (IH _ _ _ N2 OK n I) as [A B]. split; [exact A|]. intros H. specialize (B H). rewrite set_other in B; [exact B|congruence].
  - destruct capturing; [|discriminate]. destruct I as [<-|I]; [rewrite TG; split; [reflexivity|discriminate]|]. exact (IH _ _ _ N2 OK n I).
Qed.

(** *** C121. The test does not depend on other variables of the environment, and does not remove those. *)
Record recorded_env_test refloat names refresh complete file (T : env_test) e b e' : Prop := {
  re_names : NoDup names;
  re_texts : forall n, In n names -> JsonSpec.text n /\ (forall v, e n = Some v -> JsonSpec.text v);
  re_earlier : forall d n v, recorded_env refloat refresh file = Some (Some d) -> In (n, Some v) d -> JsonSpec.text v;
  re_depends : forall x y, (forall n, In n names -> x n = y n) -> fst (T x) = fst (T y);
  re_keeps : forall x n, In n names -> x n <> None -> snd (T x) n <> None;
  re_run : env_run refloat names refresh complete file T e b e'
}.
(** the same for a test [T'] that does what [T] does but may leave another environment *)
Lemma env_again refloat names refresh complete file (T T' : env_test) e b e' :
  recorded_env_test refloat names refresh complete file T e b e' ->
  (forall x y, (forall n, In n names -> x n = y n) -> fst (T' y) = fst (T x)) -> (forall x n, In n names -> x n <> None -> snd (T' x) n <> None) ->
  exists saved d, last_write (lit ".env.json") (b_files b) = Some saved /\ read_env refloat saved = Some d /\ map fst d = names /\
  forall e2, (forall n, In (n, None) d -> e2 n <> None) ->
    (exists e3, env_run refloat names false false (Some saved) T' e2 b e3 /\ forall n, In n names -> e3 n = e2 n) /\
    forall b' e3, env_run refloat names false false (Some saved) T' e2 b' e3 -> b' = b.
Proof.
  intros [ND TX EA _ _ (loaded & d & text & EL & ES & EF & ->)] DP KP.
  unfold snap_block in ES. destruct (s_ok (snap_start names loaded refresh complete e)) eqn:OK; [|discriminate].
  pose proof (enter_ok names (snap_load loaded refresh) (complete || refresh) e [] [] ND OK) as EO.
  destruct (snap_enter_spec names (snap_load loaded refresh) (complete || refresh) e [] []) as (_ & SO & SC & SI & SX); [exact ND|exact ND|intros n I; apply (EO n I)|intros n I; apply (EO n I)|].
  change (snap_enter names (snap_load loaded refresh) (complete || refresh) e [] []) with (snap_start names loaded refresh complete e) in *.
  destruct (snap_leave (s_old (snap_start names loaded refresh complete e)) (snd (T (s_env (snap_start names loaded refresh complete e))))) as [e1 ok]. destruct ok; [|discriminate].
  assert (ED : s_capture (snap_start names loaded refresh complete e) = d) by congruence. clear ES.
  set (inside := s_env (snap_start names loaded refresh complete e)) in *.
  rewrite SC in ED. cbn [app] in ED.
  assert (NM : map fst d = names) by (rewrite <- ED, map_map; apply map_id).
  assert (DI : forall n v, In (n, v) d <-> In n names /\ v = inside n).
  { intros n v. rewrite <- ED, in_map_iff. split.
    - intros (m & E & I). injection E as -> <-. split; [exact I|]. symmetry. now apply SI.
    - intros [I ->]. exists n. split; [|exact I]. now rewrite SI. }
  assert (TD : Forall (fun nv => JsonSpec.text (fst nv) /\ forall v, snd nv = Some v -> JsonSpec.text v) d).
  { apply Forall_forall. intros [n v] I. apply DI in I as [I ->]. cbn [fst snd]. split; [exact (proj1 (TX n I))|]. intros v EV. rewrite SI in EV by exact I. unfold inner in EV.
    destruct (tget n (snap_load loaded refresh)) as [w|] eqn:TG; [|now apply (TX n I)]. subst w. destruct refresh; [destruct loaded; discriminate TG|]. destruct loaded as [l|]; [|discriminate TG].
    cbn [snap_load] in TG. apply (EA l n v EL). clear - TG. induction l as [|[m w] l IH]; [discriminate|]. cbn [tget] in TG. destruct (str_eqb_spec n m) as [->|_]; [left; congruence|right; now apply IH]. }
  assert (ND2 : NoDup (map fst d)) by (now rewrite NM).
  destruct (JsonProps.C92_env_file refloat d ND2 TD) as (saved & EF2 & RD). rewrite EF in EF2. apply BytesFacts.some_inv in EF2. subst saved. exists text, d.
  split; [unfold with_env, last_write; cbn [b_files]; rewrite rev_app_distr; cbn [rev app lookup]; now rewrite str_eqb_refl|]. split; [exact RD|]. split; [exact NM|].
  intros e2 NN.
  assert (TG : forall n, In n names -> tget n d = Some (inside n)) by (intros n I; apply tget_In; [exact ND2|]; apply DI; now split).
  destruct (snap_block_spec names (Some d) false false (fun x => snd (T' x)) e2) as (BI & BX & e3 & EB & B1 & B2); [exact ND| | | |].
  - cbn [snap_load]. intros n I H. rewrite (TG n I) in H. discriminate.
  - cbn [snap_load]. intros n I H. rewrite (TG n I) in H. apply NN. apply DI. split; [exact I|congruence].
  - intros n I E2. apply KP; [exact I|].
    destruct (snap_enter_spec names d false e2 [] []) as (_ & _ & _ & SI2 & _); [exact ND|exact ND|intros m J H; rewrite (TG m J) in H; discriminate|intros m J H; rewrite (TG m J) in H; apply NN, DI; split; [exact J|congruence]|].
    change (snap_enter names d false e2 [] []) with (snap_start names (Some d) false false e2) in SI2. rewrite SI2 by exact I. unfold inner. rewrite (TG n I). intros H. apply (NN n); [|exact E2]. apply DI. split; [exact I|congruence].
  - cbn [snap_load] in BI, EB.
    assert (VI : forall n, In n names -> s_env (snap_start names (Some d) false false e2) n = inside n) by (intros n I; rewrite BI by exact I; unfold inner; now rewrite (TG n I)).
    assert (EC : map (fun n => (n, inner d e2 n)) names = d).
    { etransitivity; [|exact ED]. apply map_ext_in. intros n I. f_equal. transitivity (inside n); [unfold inner; now rewrite (TG n I)|now apply SI]. }
    assert (EQ : fst (T' (s_env (snap_start names (Some d) false false e2))) = fst (T inside)) by (apply DP; intros n I; symmetry; now apply VI).
    rewrite EC in EB. split.
    + exists e3. split; [|exact B1]. exists (Some d), d, text. split; [unfold recorded_env; cbn iota; now rewrite RD|]. split; [exact EB|]. split; [exact EF|]. now rewrite EQ.
    + intros b' e4 (l2 & d2 & t2 & EL2 & ES2 & EF2 & ->). unfold recorded_env in EL2. rewrite RD in EL2. cbn [option_map] in EL2. apply BytesFacts.some_inv in EL2. subst l2.
      rewrite EB in ES2. assert (d2 = d) by congruence. subst d2. rewrite EF in EF2. apply BytesFacts.some_inv in EF2. subst t2. now rewrite EQ.
Qed.
Theorem C121_env refloat names refresh complete file (T : env_test) e b e' :
  recorded_env_test refloat names refresh complete file T e b e' ->
  exists saved d, last_write (lit ".env.json") (b_files b) = Some saved /\ read_env refloat saved = Some d /\ map fst d = names /\
  forall e2, (forall n, In (n, None) d -> e2 n <> None) ->
    (exists e3, env_run refloat names false false (Some saved) T e2 b e3 /\ forall n, In n names -> e3 n = e2 n) /\
    forall b' e3, env_run refloat names false false (Some saved) T e2 b' e3 -> b' = b.
Proof.
  intros R. apply (env_again refloat names refresh complete file T T e b e' R); [|exact (re_keeps _ _ _ _ _ _ _ _ _ R)].
  intros x y H. symmetry. now apply (re_depends _ _ _ _ _ _ _ _ _ R).
Qed.
Print Assumptions C121_env.

(** Recorded with -s or -S, -a and -u, such tests pass from then on, whatever the environment is. *)
Theorem C121_recorded_then_green :
  forall cc, TokClassOK cc -> forall refloat E o c1 c2 body1 body2 b (D : Type) (show_dur : D -> str) parse_dur sp dur1 dur2 all1 all2 metrics1 metrics2
    selected answers1 answers2 f recs rest g
    jfloat vars refresh complete (T : str -> env_test) e e',
  plain_dir E -> plain o -> starts_with [DOT] o = true -> let O := E ++ SLASH :: o in
  batch c1 -> accept c1 = true -> update c1 = true -> cont c1 = false -> batch c2 ->
  separate selected -> NoDup selected -> (forall n, In n selected -> steady cc (b n)) ->
  (forall n, In n selected -> ready E O n f) ->
  let recording n := E ++ SLASH :: n ++ SLASH :: lit ".env.json" in
  (forall n, In n selected -> recorded_env_test jfloat (vars n) refresh complete (lookup (recording n) f) (T n) (e n) (b n) (e' n)) ->
  (forall n h, In n selected -> lookup (recording n) h = lookup (recording n) f -> body1 n h = b n) ->
  (forall n h saved, In n selected -> lookup (recording n) h = Some saved ->
     exists e2, (forall d x, read_env jfloat saved = Some d -> In (x, None) d -> e2 x <> None) /\
     let again := env_run jfloat (vars n) false false (Some saved) (T n) e2 in
     ((exists b' e3, again b' e3) -> exists e3, again (body2 n h) e3)) ->
  run_async cc refloat E O O c1 body1 show_dur parse_dur sp dur1 all1 metrics1 selected answers1 f = Some (Ret (OK, recs, rest) g) ->
  exists recs2 h,
    run_async cc refloat E O O c2 body2 show_dur parse_dur sp dur2 all2 metrics2 selected answers2 g = Some (Ret (OK, recs2, answers2) h) /\
    (cont c2 = false -> forall n, In n selected -> In (n, OK, dur2 n) recs2) /\
    forall n, In n selected -> lookup (recording n) g = last_write (lit ".env.json") (b_files (b n)) /\ lookup (recording n) h = lookup (recording n) g.
Proof.
  intros cc TOK refloat E o c1 c2 body1 body2 b D show_dur parse_dur sp dur1 dur2 all1 all2 metrics1 metrics2 selected answers1 answers2 f recs rest g
    jfloat vars refresh complete T e e' HE Ho Hdot O HB1 HA HU HC1 HB2 SEP ND HST HR recording RR HB HB' H.
  destruct (C119_recorded_then_green cc TOK refloat E o c1 c2 body1 body2 b D show_dur parse_dur sp dur1 dur2 all1 all2 metrics1 metrics2 selected answers1 answers2 f recs rest g)
    as (recs2 & h & R2 & A & B); try assumption.
  - intros n h Hn L. apply HB; [exact Hn|apply L].
  - intros n h Hn L. destruct (C121_env _ _ _ _ _ _ _ _ _ (RR n Hn)) as (saved & d & LW & RD & _ & AG).
    assert (LS : lookup (recording n) h = Some saved) by (unfold recording; rewrite L; exact LW).
    destruct (HB' n h saved Hn LS) as (e2 & NN & RUN). destruct (AG e2 (fun x => NN d x RD)) as [(e3 & R3 & _) ALL].
    destruct RUN as (e4 & R4); [do 2 eexists; exact R3|]. exact (ALL _ _ R4).
  - exists recs2, h. split; [exact R2|]. split; [exact A|]. intros n Hn. destruct (B n Hn) as (_ & _ & _ & K). destruct (K (lit ".env.json")) as [K1 K2].
    unfold recording. rewrite K1, K2. auto.
Qed.
Print Assumptions C121_recorded_then_green.

(** *** Examples. A test that writes the variable USER. *)
Definition user_test : env_test := fun x =>
  ({| b_ops := [OH 1 (lit "user"); OTln (match x (lit "USER") with Some v => lit "I am " ++ v | None => lit "nobody" end)];
      b_exc := None; b_files := []; b_tmp := []; b_log := []; b_value := None |}, x).
Definition user_is (v : option str) : environ := env_set (fun _ => None) (lit "USER") v.
Definition user_b : body_run := with_env (fst (user_test (user_is (Some (lit "ann"))))) [(lit "USER", Some (lit "ann"))]
  (match env_file [(lit "USER", Some (lit "ann"))] with Some t => t | None => [] end).
Example C121_example : recorded_env_test (fun t => t) [lit "USER"] true false None user_test (user_is (Some (lit "ann"))) user_b
  (fst (fst (snap_block [lit "USER"] None true false (fun x => x) (user_is (Some (lit "ann")))))).
Proof.
  split.
  - repeat constructor. intros [].
  - assert (TX : forall s, forallb (fun c => N.ltb c 55296) s = true -> JsonSpec.text s).
    { intros s H. apply JsonProps.lit_text. rewrite forallb_forall in H. apply Forall_forall. intros c I. now apply N.ltb_lt, H. }
    intros n [<-|[]]. split; [now apply TX|]. intros v H. vm_compute in H. injection H as <-. now apply TX.
  - intros d n v H. discriminate H.
  - intros x y H. unfold user_test. cbn [fst]. rewrite (H (lit "USER")) by (now left). reflexivity.
  - intros x n _ H. exact H.
  - exists None, [(lit "USER", Some (lit "ann"))]. eexists. split; [reflexivity|]. split; [reflexivity|]. split; [vm_compute; reflexivity|vm_compute; reflexivity].
Qed.
Definition ego (c : config) (body : str -> fs -> body_run) (f : fs) :=
  run_async ascii_class no_float demo_E demo_O demo_O c body (fun d : str => d) Some (fun c => N.eqb c SP) (fun _ => lit "7") [lit "t/env"] (lit "{}") [lit "t/env"] [] f.
Definition user_offline (h : fs) : body_run :=
  match lookup (lit "books/t/env/.env.json") h with
  | Some t => match read_env (fun t => t) t with
              | Some d => let s := snap_start [lit "USER"] (Some d) false false (user_is (Some (lit "bob"))) in
                          with_env (fst (user_test (s_env s))) (s_capture s) (match env_file (s_capture s) with Some t => t | None => [] end)
              | None => fst (user_test (user_is None))
              end
  | None => fst (user_test (user_is None))
  end.
Example C121_run_example :
  ready demo_E demo_O (lit "t/env") [] /\ steady ascii_class user_b /\
  exists recs rest g recs2 h, ego (talk_conf true true) (fun _ _ => user_b) [] = Some (Ret (OK, recs, rest) g) /\
    lookup (lit "books/t/env/.env.json") g <> None /\
    ego (talk_conf false false) (fun _ => user_offline) g = Some (Ret (OK, recs2, []) h) /\ recs2 = [(lit "t/env", OK, lit "7")].
Proof.
  split; [apply readyb_ok; vm_compute; reflexivity|]. split.
  - split; [vm_compute; reflexivity|]. split; [apply repeatableb_ok; vm_compute; reflexivity|]. split; [apply freeb_ok; vm_compute; reflexivity|].
    eexists. split; [vm_compute; reflexivity|]. apply well_pieced_of; [exact ascii_TokClassOK|]. apply tokenize_iff; [exact ascii_TokClassOK|]. vm_compute. reflexivity.
  - do 5 eexists. split; [vm_compute; reflexivity|]. split; [vm_compute; discriminate|]. split; vm_compute; reflexivity.
Qed.

(** A variable that was recorded as not set cannot be replayed where it is not set: start raises. A test that sets the variable itself
    can be recorded in this way. *)
Definition setter : env_test := fun x => (fst (user_test (user_is None)), env_set x (lit "USER") (Some (lit "eve"))).
Theorem C121_null_refuted : exists b e' saved,
  env_run (fun t => t) [lit "USER"] true false None setter (user_is None) b e' /\
  last_write (lit ".env.json") (b_files b) = Some saved /\
  forall b2 e3, ~ env_run (fun t => t) [lit "USER"] false false (Some saved) setter (user_is None) b2 e3.
Proof.
  do 3 eexists. split; [exists None, [(lit "USER", None)]; eexists; split; [reflexivity|]; split; [reflexivity|]; split; [vm_compute; reflexivity|reflexivity]|]. split; [vm_compute; reflexivity|].
  intros b2 e3 (l & d & t & EL & ES & _). vm_compute in EL. injection EL as <-. discriminate ES.
Qed.
Print Assumptions C121_null_refuted.
