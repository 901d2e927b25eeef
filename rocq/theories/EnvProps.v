(** Mocked and recorded environments. *)
From Verif Require Import PyStrFacts EnvModel EnvProofs.

(** ** C47 *)

(** [body] is whatever the body does to the environment, however it ends; [inside] is the
    environment it starts with. The table is a dict: its keys are distinct. *)
Theorem C47_mock_env_restores env body e : NoDup (map fst env) ->
  exists inside,
  mock_block env body e = mock_block env (fun _ => body inside) e /\
  (forall n v, In (n, v) env -> inside n = v) /\
  (forall n, ~ In n (map fst env) -> inside n = e n) /\
  (forall n, In n (map fst env) -> mock_block env body e n = e n) /\
  (forall n, ~ In n (map fst env) -> mock_block env body e n = body inside n).
Proof. exact (mock_block_spec env body e). Qed.
Print Assumptions C47_mock_env_restores.

(** an object that is started can not be started again, and stopping makes it usable again *)
Theorem C47_reuse env e saved e1 : mock_start env None e = Some (saved, e1) ->
  (forall env' e', mock_start env' saved e' = None) /\
  forall e2, exists e3, mock_stop saved e2 = Some (None, e3).
Proof.
  unfold mock_start at 1. destruct (mock_enter env e []) as [e' old]. intros [= <- <-].
  split; [reflexivity|]. intros e2. now eexists.
Qed.
Print Assumptions C47_reuse.

Definition ex_env : environ := fun n =>
  if str_eqb n (lit "HOME") then Some (lit "/root") else if str_eqb n (lit "KEY") then Some (lit "secret") else None.
Definition ex_table : table := [(lit "KEY", None); (lit "URL", Some (lit "http://x")); (lit "HOME", Some (lit "/tmp"))].

Example C47_ex : NoDup (map fst ex_table) /\
  let body (e : environ) := env_set (env_set (env_set e (lit "KEY") (Some (lit "new"))) (lit "URL") None) (lit "OTHER") (Some (lit "o")) in
  map (mock_block ex_table body ex_env) [lit "KEY"; lit "URL"; lit "HOME"; lit "OTHER"]
  = [Some (lit "secret"); None; Some (lit "/root"); Some (lit "o")].
Proof. split; [repeat constructor; cbn; intuition discriminate|vm_compute; reflexivity]. Qed.

(** ** C48 *)

(** [snap_block names file refresh complete body e] = (environment afterwards, no exception, file) *)
Theorem C48_snapshot_env_refuted :
  (* capturing a variable that is not set *)
  (exists names body e, NoDup names /\ snd (fst (snap_block names None true false body e)) = false) /\
  (* replaying "not set" where it is not set *)
  (exists names file body e, NoDup names /\ (forall n, In n names -> tget n file <> None) /\
     snd (fst (snap_block names (Some file) false false body e)) = false) /\
  (* a missing snapshot leaves the variables before it changed *)
  (exists names file body e e' n, NoDup names /\
     snap_block names (Some file) false false body e = (e', false, None) /\ In n names /\ e' n <> e n) /\
  (* a name given twice is not restored *)
  (exists names file e e' n cap, snap_block names (Some file) false false (fun x => x) e = (e', true, Some cap) /\
     In n names /\ e' n <> e n).
Proof.
  split; [|split; [|split]].
  - exists [lit "A"], (fun x => x), (fun _ => None). split; [repeat constructor; auto|reflexivity].
  - exists [lit "A"], [(lit "A", None)], (fun x => x), (fun _ => None).
    split; [repeat constructor; auto|]. split; [intros n [<-|[]]; discriminate|reflexivity].
  - exists [lit "A"; lit "B"], [(lit "A", Some (lit "1"))], (fun x => x), (fun _ => None). eexists. exists (lit "A").
    split; [repeat constructor; cbn; intuition discriminate|]. split; [reflexivity|]. split; [now left|discriminate].
  - exists [lit "A"; lit "A"], [(lit "A", Some (lit "1"))], (fun _ => Some (lit "0")). eexists. exists (lit "A"). eexists.
    split; [reflexivity|]. split; [now left|discriminate].
Qed.
Print Assumptions C48_snapshot_env_refuted.

(** Distinct names, all recorded or capturing; a variable recorded as "not set" is set; a variable
    that was not set is set when the body ends. Then the block starts with the recorded values (or
    the current ones when capturing), writes them, and restores. *)
Theorem C48_snapshot_env_partial names (file : option table) (refresh complete : bool) body e :
  let recorded (n : str) := if refresh then None else match file with Some d => tget n d | None => None end in
  NoDup names ->
  (forall n, In n names -> recorded n = None -> complete || refresh = true) ->
  (forall n, In n names -> recorded n = Some None -> e n <> None) ->
  let inside := s_env (snap_start names file refresh complete e) in
  let value n := match recorded n with Some v => v | None => e n end in
  (forall n, In n names -> e n = None -> body inside n <> None) ->
  (forall n, In n names -> inside n = value n) /\
  (forall n, ~ In n names -> inside n = e n) /\
  exists e', snap_block names file refresh complete body e =
    (e', true, Some (map (fun n => (n, value n)) names)) /\
  (forall n, In n names -> e' n = e n) /\
  (forall n, ~ In n names -> e' n = body inside n).
Proof.
  intros recorded. assert (R : forall n, recorded n = tget n (snap_load file refresh)) by (intros n; unfold recorded, snap_load; now destruct file, refresh).
  intros ND H1 H2 inside value HB. pose proof (snap_block_spec names file refresh complete body e ND) as S. cbv zeta in S.
  assert (EV : forall n, value n = match tget n (snap_load file refresh) with Some v => v | None => e n end) by (intros n; unfold value; now rewrite R).
  destruct S as (S1 & S2 & e' & S3 & S4 & S5).
  - intros n I. rewrite <- R. now apply H1.
  - intros n I. rewrite <- R. now apply H2.
  - exact HB.
  - split; [intros n I; rewrite EV; now apply S1|]. split; [exact S2|]. exists e'. split; [|now split]. refine (eq_trans S3 _). do 2 f_equal. apply map_ext. intros n. now rewrite EV.
Qed.
Print Assumptions C48_snapshot_env_partial.

(** Capturing where all variables are set, then replaying anywhere: the body sees the captured
    values and the environment is restored. *)
Theorem C48_capture_replay_partial names body body2 e e2 :
  NoDup names -> (forall n, In n names -> e n <> None) ->
  exists e' cap, snap_block names None true false body e = (e', true, Some cap) /\
  (forall n, In n names -> e' n = e n) /\
  let inside := s_env (snap_start names (Some cap) false false e2) in
  (forall n, In n names -> inside n = e n) /\
  (forall n, ~ In n names -> inside n = e2 n) /\
  ((forall n, In n names -> e2 n = None -> body2 inside n <> None) ->
   exists e3, snap_block names (Some cap) false false body2 e2 = (e3, true, Some cap) /\
   (forall n, In n names -> e3 n = e2 n) /\ (forall n, ~ In n names -> e3 n = body2 inside n)).
Proof.
  intros ND HS.
  destruct (snap_block_spec names None true false body e ND) as (_ & _ & e' & E & E1 & _).
  { intros; apply orb_true_r. } { discriminate. } { intros n Hn X. now apply HS in Hn. }
  exists e'. eexists. split; [exact E|]. split; [exact E1|].
  set (cap := map _ names).
  assert (TG : forall n, In n names -> tget n cap = Some (e n)).
  { intros n Hn. apply tget_In.
    - unfold cap. rewrite map_map. cbn. now rewrite map_id.
    - unfold cap. apply in_map_iff. now exists n. }
  assert (H2 : forall n, In n names -> tget n (snap_load (Some cap) false) = None -> false || false = true).
  { intros n Hn X. cbn [snap_load] in X. rewrite TG in X by assumption. discriminate. }
  assert (H3 : forall n, In n names -> tget n (snap_load (Some cap) false) = Some None -> e2 n <> None).
  { intros n Hn X. cbn [snap_load] in X. rewrite TG in X by assumption. injection X as X. now apply HS in Hn. }
  cbn zeta. set (inside := s_env _).
  destruct (snap_enter_spec names cap false e2 [] [] ND ND H2 H3) as (_ & _ & _ & D & F).
  fold (snap_start names (Some cap) false false e2) in D, F.
  split; [|split].
  - intros n Hn. unfold inside. change (snap_start names (Some cap) false false e2) with (snap_enter names cap false e2 [] []).
    rewrite D by assumption. unfold inner. now rewrite TG.
  - exact F.
  - intros HB. destruct (snap_block_spec names (Some cap) false false body2 e2 ND H2 H3 HB) as (_ & _ & e3 & E3 & G1 & G2).
    exists e3. split; [|split; assumption]. etransitivity; [exact E3|]. f_equal. f_equal. apply map_ext_in.
    intros n Hn. f_equal. unfold inner. cbn [snap_load]. now rewrite TG.
Qed.
Print Assumptions C48_capture_replay_partial.

(** MockMissingEnv: variables that are set keep their value, others get the given one; restored
    if the body leaves them set. *)
Theorem C48_mock_missing_partial env body e : NoDup (map fst env) ->
  (forall n, In (n, None) env -> e n <> None) ->
  exists inside,
  (forall n v, In (n, v) env -> inside n = match e n with Some x => Some x | None => v end) /\
  (forall n, ~ In n (map fst env) -> inside n = e n) /\
  ((forall n, In n (map fst env) -> e n = None -> body inside n <> None) ->
   exists e', missing_block env body e = (e', true) /\
   (forall n, In n (map fst env) -> e' n = e n) /\
   (forall n, ~ In n (map fst env) -> e' n = body inside n)).
Proof. exact (missing_block_spec env body e). Qed.
Print Assumptions C48_mock_missing_partial.

Example C48_ex :
  let names := [lit "HOME"; lit "KEY"] in
  exists e', snap_block names None true false (fun e => env_set e (lit "KEY") None) ex_env
    = (e', true, Some [(lit "HOME", Some (lit "/root")); (lit "KEY", Some (lit "secret"))]) /\
  e' (lit "KEY") = Some (lit "secret") /\ (forall n, In n names -> ex_env n <> None).
Proof.
  eexists. split; [vm_compute; reflexivity|]. split; [vm_compute; reflexivity|]. intros n [<-|[<-|[]]]; discriminate.
Qed.

(** ** C65 *)

(** mock_missing_env is documented to be off while snapshots are captured; the flag is computed
    but not used. *)
Theorem C65_mock_missing_off_refuted :
  exists env e n e' old, do_mock true false = false /\ do_mock false true = false /\
    missing_enter env e [] = (e', old, true) /\ e' n <> e n.
Proof.
  exists [(lit "A", Some (lit "1"))], (fun _ => None), (lit "A"). eexists. eexists.
  split; [reflexivity|]. split; [reflexivity|]. split; [reflexivity|]. discriminate.
Qed.
Print Assumptions C65_mock_missing_off_refuted.

(** true when every variable is set *)
Theorem C65_mock_missing_off_partial env e : NoDup (map fst env) ->
  (forall n, In n (map fst env) -> e n <> None) ->
  exists e' old, missing_enter env e [] = (e', old, true) /\ forall n, e' n = e n.
Proof.
  intros ND H. destruct (missing_enter_spec env e [] ND) as (e' & E & A & B).
  { intros n Hn. apply H. apply in_map_iff. now exists (n, None). }
  exists e'. eexists. split; [exact E|]. intros n.
  destruct (in_dec (list_eq_dec N.eq_dec) n (map fst env)) as [I|I]; [|now apply B].
  pose proof (H n I) as Hn. apply in_map_iff in I. destruct I as ([m v] & <- & I). cbn in *.
  rewrite (A m v I). unfold or_else. destruct (e m); [reflexivity|congruence].
Qed.
Print Assumptions C65_mock_missing_off_partial.
