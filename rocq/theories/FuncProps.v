(** C42, C44, C71, and C43 for functions. *)
From Verif Require Import PyStrFacts FuncModel FuncProofs.
From Coq Require Import Permutation.

Lemma last_value_none V X h (tr : list (str * outcome V X)) : forall acc,
  (forall v, ~ In (h, Returned v) tr) -> last_value V X h tr acc = acc.
Proof.
  induction tr as [|[k o] tr IH]; intros acc H; [reflexivity|]. cbn [last_value].
  destruct o as [v| |x]; try (apply IH; intros v I; apply (H v); now right).
  destruct (str_eqb_spec k h) as [->|]; [exfalso; apply (H v); now left|]. apply IH. intros v' I. apply (H v'). now right.
Qed.
Lemma last_value_split V X h (pre post : list (str * outcome V X)) v : forall acc,
  (forall v', ~ In (h, Returned v') post) -> last_value V X h (pre ++ (h, Returned v) :: post) acc = Some v.
Proof.
  induction pre as [|[k o] pre IH]; intros acc H; cbn [app last_value].
  - rewrite str_eqb_refl. now apply last_value_none.
  - destruct o; now apply IH.
Qed.

Lemma last_occurrence V X h (v : V) (tr : list (str * outcome V X)) : In (h, Returned v) tr ->
  exists pre w post, tr = pre ++ (h, Returned w) :: post /\ forall v', ~ In (h, Returned v') post.
Proof.
  induction tr as [|[k o] tr IH] using rev_ind; [easy|]. intros I.
  assert (D : (k = h /\ exists w, o = Returned w) \/ ~ (k = h /\ exists w, o = Returned w)).
  { destruct (str_dec k h) as [->|]; [|right; tauto]. destruct o; [left; eauto|right..]; intros [_ [w E]]; discriminate. }
  destruct D as [[-> [w ->]]|N].
  - exists tr, w, []. split; [reflexivity|easy].
  - apply in_app_or in I. destruct I as [I|[E|[]]]; [|exfalso; apply N; injection E as -> ->; eauto].
    destruct (IH I) as (pre & w & post & -> & NP). exists pre, w, (post ++ [(k, o)]). split; [now rewrite <- app_assoc|].
    intros v' I'. apply in_app_or in I'. destruct I' as [I'|[E|[]]]; [exact (NP v' I')|]. apply N. injection E as -> ->. eauto.
Qed.

(** *** C42: after a capture (-s or -S, with any snapshots from before), whatever the functions returned or
    raised, and the snapshots read in any order: a replay returns for every call the last value captured for the same
    call, as it comes back from JSON, without calling the function; calls never captured raise. *)
Theorem C42_partial (V X : Type) (to_json : V -> option V) files refresh complete cs calls os is saved listing cs' :
  run_calls V X (capturing refresh complete) (load V files refresh) [] cs = (calls, os, is) ->
  store V to_json calls = Some saved ->
  Permutation saved listing ->
  let '(_, os', is') := run_calls V X (capturing false false) (load V listing false) [] cs' in
  Forall (fun i => i = false) is' /\
  Forall2 (fun c o =>
    (forall pre v post, combine (map fst cs) os = pre ++ (fst c, Returned v) :: post -> (forall v', ~ In (fst c, Returned v') post) ->
       exists w, to_json v = Some w /\ o = Returned w) /\
    ((forall v, ~ In (fst c, Returned v) (combine (map fst cs) os)) -> o = Missing)) cs' os'.
Proof.
  intros ER ES EP. pose proof (replay_spec V X listing cs' []) as RS. cbn [capturing load orb].
  destruct (run_calls V X false listing [] cs') as [[c' os'] is']. destruct RS as [-> ->]. split.
  - apply Forall_forall. intros i I. apply in_map_iff in I. destruct I as (? & <- & _). reflexivity.
  - assert (ND : NoDup (map fst saved)) by (rewrite (store_fst V to_json calls saved ES); eapply run_nodup; [|exact ER]; constructor).
    assert (RL : forall h, assoc V h calls = last_value V X h (combine (map fst cs) os) None)
      by (intros h; apply (run_last V X (capturing refresh complete) (load V files refresh) cs [] calls os is h); [now left|exact ER]).
    assert (AS : forall h, assoc V h (rev listing) = match last_value V X h (combine (map fst cs) os) None with Some v => to_json v | None => None end).
    { intros h. rewrite <- (assoc_perm V h saved (rev listing)); [|assumption|etransitivity; [exact EP|apply Permutation_rev]].
      rewrite (store_assoc V to_json calls saved h ES). now rewrite RL. }
    assert (JS : forall h v, last_value V X h (combine (map fst cs) os) None = Some v -> to_json v <> None).
    { intros h v E. rewrite <- RL in E.
      assert (I : In h (map fst saved)).
      { rewrite (store_fst V to_json calls saved ES). apply assoc_In in E. apply in_map_iff. now exists (h, v). }
      apply in_map_iff in I. destruct I as ([k w] & EK & I). cbn [fst] in EK. subst k. apply In_assoc in I; [|assumption].
      rewrite (store_assoc V to_json calls saved h ES), E in I. congruence. }
    induction cs' as [|[h real] cs' IH]; cbn [map]; constructor; [|exact IH]. cbn [fst]. split.
    + intros pre v post E H. pose proof (last_value_split V X h pre post v None H) as LV. rewrite <- E in LV.
      rewrite (AS h), LV. specialize (JS h v LV). destruct (to_json v) as [w|]; [|congruence]. eauto.
    + intros H. rewrite (AS h). rewrite last_value_none by assumption. reflexivity.
Qed.
Print Assumptions C42_partial.

(** With one value per call (one call per key, or functions that return the same for the same arguments) that JSON keeps,
    and no exceptions, the replay of the same calls returns what the capture returned. *)
Theorem C42_same_values_partial (V X : Type) (to_json : V -> option V) files refresh complete cs calls os is saved listing :
  run_calls V X (capturing refresh complete) (load V files refresh) [] cs = (calls, os, is) ->
  store V to_json calls = Some saved -> Permutation saved listing ->
  (forall o, In o os -> exists v, o = Returned v /\ to_json v = Some v) ->
  (forall h v w, In (h, Returned v) (combine (map fst cs) os) -> In (h, Returned w) (combine (map fst cs) os) -> v = w) ->
  let '(_, os', _) := run_calls V X (capturing false false) (load V listing false) [] cs in os' = os.
Proof.
  intros ER ES EP HV HU. pose proof (C42_partial V X to_json files refresh complete cs calls os is saved listing cs ER ES EP) as R.
  destruct (run_calls V X (capturing false false) (load V listing false) [] cs) as [[c' os'] is']. destruct R as [_ R].
  assert (LEN : length os = length cs).
  { clear -ER. revert calls os is ER. generalize (@nil (str * V)). generalize (load V files refresh). generalize (capturing refresh complete).
    intros cap ld. induction cs as [|[h real] cs IH]; cbn [run_calls]; intros c0 calls os is E; [injection E as _ <- _; reflexivity|].
    destruct (snapshot V X cap ld c0 h real) as [[c1 o] i]. destruct (run_calls V X cap ld c1 cs) as [[c2 os'] is'] eqn:E2.
    injection E as _ <- _. cbn [length]. f_equal. eapply IH. exact E2. }
  (* compare position by position *)
  clear ER ES EP. remember (combine (map fst cs) os) as tr eqn:TR.
  assert (SUB : forall e, In e (combine (map fst cs) os) -> In e tr) by now rewrite TR.
  clear TR.
  assert (G : forall cs1 os1 os2, Forall2 (fun (c : str * (V + X)) (o : outcome V X) =>
    (forall pre v post, tr = pre ++ (fst c, Returned v) :: post -> (forall v', ~ In (fst c, Returned v') post) ->
       exists w, to_json v = Some w /\ o = Returned w) /\ ((forall v, ~ In (fst c, Returned v) tr) -> o = Missing)) cs1 os2 ->
    length os1 = length cs1 -> (forall e, In e (combine (map fst cs1) os1) -> In e tr) ->
    (forall o, In o os1 -> exists v, o = Returned v /\ to_json v = Some v) -> os2 = os1).
  { induction cs1 as [|[h real] cs1 IH]; intros os1 os2 F L S HR; inversion F as [|? ? ? ? [F1 _] F2]; subst; destruct os1 as [|o1 os1]; try discriminate; [reflexivity|].
    cbn [map fst combine] in *. f_equal.
    - destruct (HR o1) as (v & -> & EV); [now left|]. assert (IT : In (h, Returned v) tr) by (apply S; now left).
      pose proof (last_occurrence V X h v _ IT) as LO.
      destruct LO as (pre & w & post & E & NP). destruct (F1 pre w post E NP) as (w' & EW & ->).
      assert (w = v) by (eapply HU; [rewrite E; apply in_or_app; right; now left|exact IT]). subst w. congruence.
    - apply (IH os1 l'); [assumption|now injection L|intros e I; apply S; now right|intros o I; apply HR; now right]. }
  apply (G cs os os'); [exact R|assumption|exact SUB|exact HV].
Qed.
Print Assumptions C42_same_values_partial.

(** The function is identified by its qualified name alone: false when two functions of different modules have the
    same one. *)
Theorem C42_refuted : forall (hash_of : str -> list nat -> list (str * nat) -> str), exists f g : func,
  f_module f <> f_module g /\
  let cs := [(call_hash nat hash_of f [1] [], inl 10); (call_hash nat hash_of g [1] [], inl 20)] in
  let '(calls, os, _) := run_calls nat nat true [] [] cs in
  os = [Returned 10; Returned 20] /\
  exists saved, store nat (fun v => Some v) calls = Some saved /\
  let '(_, os', _) := run_calls nat nat false saved [] cs in os' = [Returned 20; Returned 20].
Proof.
  intros hash_of. exists {| f_module := lit "a"; f_qualname := lit "f"; f_id := 0 |}, {| f_module := lit "b"; f_qualname := lit "f"; f_id := 1 |}.
  split; [discriminate|]. cbn zeta. unfold call_hash. cbn [f_qualname]. generalize (hash_of (lit "f") [1] []). intros h.
  cbn [run_calls snapshot assoc rev app filter fst]. rewrite str_eqb_refl. cbn [negb filter app]. split; [reflexivity|].
  exists [(h, 20)]. split; [reflexivity|]. unfold snapshot. cbn [assoc rev app]. now rewrite !str_eqb_refl.
Qed.
Print Assumptions C42_refuted.

Definition c42_cs : list (str * (nat + nat)) := [(lit "f1", inl 10); (lit "g", inr 3); (lit "f2", inl 20); (lit "f1", inl 11); (lit "g", inl 30)].
Example C42_example :
  run_calls nat nat (capturing false true) (load nat [(lit "f2", 22)] false) [] c42_cs =
    ([(lit "f2", 22); (lit "f1", 11); (lit "g", 30)], [Returned 10; Raised 3; Returned 22; Returned 11; Returned 30], [true; true; false; true; true]) /\
  run_calls nat nat false (load nat [(lit "g", 30); (lit "f1", 11); (lit "f2", 22)] false) [] c42_cs =
    ([(lit "f1", 11); (lit "g", 30); (lit "f2", 22)], [Returned 11; Returned 30; Returned 22; Returned 11; Returned 30], [false; false; false; false; false]).
Proof. split; vm_compute; reflexivity. Qed.
Example C42_same_values_example :
  let cs : list (str * (nat + nat)) := [(lit "f1", inl 10); (lit "f2", inl 20); (lit "f1", inl 10)] in
  run_calls nat nat (capturing true false) (load nat [(lit "f1", 7)] true) [] cs =
    ([(lit "f2", 20); (lit "f1", 10)], [Returned 10; Returned 20; Returned 10], [true; true; true]) /\
  store nat (fun v => Some v) [(lit "f2", 20); (lit "f1", 10)] = Some [(lit "f2", 20); (lit "f1", 10)] /\
  (forall h v w, In (h, Returned v) (combine (map fst cs) [@Returned nat nat 10; Returned 20; Returned 10]) ->
                 In (h, Returned w) (combine (map fst cs) [@Returned nat nat 10; Returned 20; Returned 10]) -> v = w).
Proof.
  cbn zeta. split; [vm_compute; reflexivity|]. split; [reflexivity|]. intros h v w. cbn [map fst combine In].
  intros [E|[E|[E|[]]]] [E'|[E'|[E'|[]]]]; injection E as E1 E2; injection E' as E3 E4; subst; (reflexivity || discriminate).
Qed.

(** *** C43 for functions: without -s and -S a snapshotted function is never called; a call returns a value that was
    loaded for it, or raises. *)
Theorem C43_functions (V X : Type) files calls cs :
  let '(_, os, is) := run_calls V X (capturing false false) files calls cs in
  Forall (fun i => i = false) is /\
  Forall2 (fun c o => (exists v, o = Returned v /\ In (fst c, v) files) \/ (o = Missing /\ forall v, ~ In (fst c, v) files)) cs os.
Proof.
  cbn [capturing orb]. pose proof (replay_spec V X files cs calls) as RS. destruct (run_calls V X false files calls cs) as [[c' os] is].
  destruct RS as [-> ->]. split.
  - apply Forall_forall. intros i I. apply in_map_iff in I. destruct I as (? & <- & _). reflexivity.
  - induction cs as [|[h real] cs IH]; cbn [map fst]; constructor; [|exact IH]. cbn [fst]. destruct (assoc V h (rev files)) as [v|] eqn:E.
    + left. exists v. split; [reflexivity|]. apply assoc_In in E. now apply in_rev.
    + right. split; [reflexivity|]. intros v I. apply in_rev in I. apply (in_map fst) in I. apply recorded_In in I.
      rewrite recorded_assoc in I. cbn [fst] in I. rewrite E in I. discriminate.
Qed.
Print Assumptions C43_functions.

Example C43_functions_example :
  run_calls nat nat (capturing false false) [(lit "f", 1)] [] [(lit "f", inl 5); (lit "g", inl 6)] = ([(lit "f", 1)], [Returned 1; Missing], [false; false]).
Proof. reflexivity. Qed.

(** *** C71: the list of calls that a snapshotted test prints is the same in the capture and in the replay. False when
    a call is repeated: the capture lists it where it was made last, the replay where it was made first. *)
Theorem C71_refuted : exists (cs : list (str * (nat + nat))) calls calls' os os' is is',
  run_calls nat nat true [] [] cs = (calls, os, is) /\
  run_calls nat nat false calls [] cs = (calls', os', is') /\ os = os' /\
  listed nat calls <> listed nat calls'.
Proof.
  exists [(lit "a", inl 1); (lit "b", inl 2); (lit "a", inl 1)]. do 6 eexists. split; [reflexivity|]. split; [reflexivity|].
  split; [reflexivity|]. discriminate.
Qed.
Print Assumptions C71_refuted.

(** True when no call is repeated (and none raises). *)
Theorem C71_partial (V X : Type) (to_json : V -> option V) files refresh complete cs calls os is saved listing calls' os' is' :
  NoDup (map fst cs) ->
  run_calls V X (capturing refresh complete) (load V files refresh) [] cs = (calls, os, is) ->
  (forall o, In o os -> exists v, o = Returned v) ->
  store V to_json calls = Some saved -> Permutation saved listing ->
  run_calls V X false listing [] cs = (calls', os', is') ->
  listed V calls' = listed V calls.
Proof.
  intros ND ER HR ES EP ER'. unfold listed.
  rewrite (run_listed V X (capturing refresh complete) (load V files refresh) cs [] calls os is ND ER HR).
  rewrite (run_listed V X false listing cs [] calls' os' is' ND ER'); [reflexivity|].
  pose proof (replay_spec V X listing cs []) as RS. rewrite ER' in RS. destruct RS as [-> _].
  intros o I. apply in_map_iff in I. destruct I as ([h real] & <- & I). cbn [fst].
  assert (HH : In h (map fst listing)).
  { eapply Permutation_in; [apply Permutation_map; exact EP|]. rewrite (store_fst V to_json calls saved ES).
    rewrite (run_listed V X (capturing refresh complete) (load V files refresh) cs [] calls os is ND ER HR). cbn [map app]. apply (in_map fst) in I. exact I. }
  apply recorded_In in HH. rewrite recorded_assoc in HH. destruct (assoc V h (rev listing)) as [v|] eqn:E; [eauto|]. exfalso.
  destruct (assoc V h listing) as [v|] eqn:E2; [|discriminate]. apply assoc_In in E2. apply in_rev in E2. apply (in_map fst) in E2.
  apply recorded_In in E2. rewrite recorded_assoc in E2. cbn [fst] in E2. rewrite E in E2. discriminate.
Qed.
Print Assumptions C71_partial.
Example C71_example :
  let cs : list (str * (nat + nat)) := [(lit "b", inl 1); (lit "a", inl 2)] in
  run_calls nat nat true [] [] cs = ([(lit "b", 1); (lit "a", 2)], [Returned 1; Returned 2], [true; true]) /\
  run_calls nat nat false [(lit "a", 2); (lit "b", 1)] [] cs = ([(lit "b", 1); (lit "a", 2)], [Returned 1; Returned 2], [false; false]) /\
  NoDup (map fst cs).
Proof. cbn zeta. split; [reflexivity|]. split; [reflexivity|]. repeat constructor; cbn; intros H; repeat (destruct H as [H|H]; try discriminate); destruct H. Qed.

(** *** C44: after a block every patched function is what it was before, whatever the body did and however it ended;
    nothing else changed, other than by the body. True when the functions were unpatched on entry and can be set. *)
Theorem C44_restored_partial (L : Type) (L_eqb : L -> L -> bool) (HL : forall a b, L_eqb a b = true <-> a = b)
  (P F : Type) (place : F -> L) (itself : F -> P) settable fs body (ns : names L P) :
  (forall f, In f (map fst fs) -> ns (place f) = Some (itself f)) ->
  (forall f, In f (map fst fs) -> settable (place f) = true) ->
  exists ns1 ns2,
    mock_block L L_eqb P F place itself settable fs body ns = (ns2, true) /\
    (forall m, (forall f, In f (map fst fs) -> m <> place f) -> ns1 m = ns m /\ ns2 m = body ns1 m) /\
    (forall f, In f (map fst fs) -> ns2 (place f) = ns (place f)).
Proof.
  intros HN HS. unfold mock_block.
  destruct (patch_ok L L_eqb HL P F place settable fs ns) as (ns1 & E1 & K1).
  { apply Forall_forall. intros [f p] I. apply (in_map fst) in I. cbn [fst] in *. now apply HS. }
  rewrite E1. destruct (unpatch_ok L L_eqb HL P F place itself settable (map fst fs) (body ns1)) as (ns2 & E2 & K2 & K3).
  { apply Forall_forall. exact HS. }
  exists ns1, ns2. split; [exact E2|]. split.
  - intros m Hm. split; [now apply K1|now apply K2].
  - intros f I. rewrite HN by assumption. apply K3; [assumption|]. intros g Ig E. apply HN in I, Ig. rewrite E in Ig. congruence.
Qed.
Print Assumptions C44_restored_partial.

(** False for nested blocks on the same function: after the inner one the function is the original, not the mock. *)
Inductive thing := Orig | Mock (k : nat).
Theorem C44_nested_refuted : exists ns inside after : names unit thing,
  let place (_ : unit) := tt in
  ns tt = Some Orig /\
  patch unit (fun _ _ => true) thing unit place (fun _ => true) [(tt, Mock 1)] ns = (inside, true) /\          (* in the outer block *)
  mock_block unit (fun _ _ => true) thing unit place (fun _ => Orig) (fun _ => true) [(tt, Mock 2)] (fun n => n) inside = (after, true) /\
  inside tt = Some (Mock 1) /\ after tt = Some Orig.
Proof. exists (fun _ => Some Orig). do 2 eexists. cbn zeta. split; [reflexivity|]. split; [reflexivity|]. split; [reflexivity|]. split; reflexivity. Qed.
Print Assumptions C44_nested_refuted.

(** False when a function can not be set: those before it stay patched. *)
Theorem C44_failed_start_refuted : exists (ns ns' : names nat thing),
  mock_block nat Nat.eqb thing nat (fun f => f) (fun _ => Orig) (fun l => l <? 2) [(1, Mock 1); (5, Mock 5)] (fun n => n) ns = (ns', false) /\
  (forall l, ns l = Some Orig) /\ ns' 1 = Some (Mock 1).
Proof. exists (fun _ => Some Orig). eexists. split; [reflexivity|]. split; reflexivity. Qed.
Print Assumptions C44_failed_start_refuted.

(** False for a method that is looked up in the class of its object: the object has an attribute afterwards. *)
Theorem C44_method_refuted : exists (ns ns' : names nat thing),
  mock_block nat Nat.eqb thing nat (fun f => f) (fun _ => Orig) (fun _ => true) [(1, Mock 1)] (fun n => n) ns = (ns', true) /\
  ns 1 = None /\ ns' 1 = Some Orig.
Proof. exists (fun _ => None). eexists. split; [reflexivity|]. split; reflexivity. Qed.
Print Assumptions C44_method_refuted.

Example C44_example :
  let ns : names nat thing := fun _ => Some Orig in
  let fs := [(1, Mock 1); (2, Mock 2)] in
  let body : names nat thing -> names nat thing := fun n l => if l =? 1 then None else n l in
  (forall f, In f (map fst fs) -> ns f = Some Orig) /\
  fst (mock_block nat Nat.eqb thing nat (fun f => f) (fun _ => Orig) (fun _ => true) fs body ns) 1 = Some Orig /\
  fst (mock_block nat Nat.eqb thing nat (fun f => f) (fun _ => Orig) (fun _ => true) fs body ns) 2 = Some Orig.
Proof. cbn zeta. repeat split. Qed.

(** requests and httpx put back what was there; their blocks nest *)
Theorem C44_saved_nested (L : Type) (L_eqb : L -> L -> bool) (HL : forall a b, L_eqb a b = true <-> a = b)
  (P : Type) l p body (ns : names L P) o :
  ns l = Some o ->
  saved_block L L_eqb P l p body ns l = Some o /\
  (forall m, m <> l -> saved_block L L_eqb P l p body ns m = body (put L L_eqb P ns l p) m).
Proof.
  intros E. unfold saved_block. rewrite E. unfold put at 1 3. rewrite (proj2 (HL l l) eq_refl). split; [reflexivity|].
  intros m N. destruct (L_eqb m l) eqn:EQ; [apply HL in EQ; contradiction|reflexivity].
Qed.
Print Assumptions C44_saved_nested.
Example C44_saved_example :
  let inner := saved_block unit (fun _ _ => true) thing tt (Mock 2) (fun n => n) in
  saved_block unit (fun _ _ => true) thing tt (Mock 1) (fun n => match inner n tt with Some (Mock 1) => inner n | _ => fun _ => None end) (fun _ => Some Orig) tt = Some Orig.
Proof. reflexivity. Qed.
