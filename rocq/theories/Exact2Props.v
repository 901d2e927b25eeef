(** More partial properties said exactly: recorded functions, keyword arguments, patches and environments. *)
From Verif Require Import PyStrFacts EnvModel EnvProofs EnvProps FuncModel FuncProofs FuncProps JsonModel JsonSpec JsonFacts JsonProofs JsonFilesModel JsonProps.
From Verif Require SuiteProofs.
From Coq Require Import Permutation Lia.

(** ** C65 *)
(** With and without -s or -S: the environment of a mock_missing_env block is the one outside exactly if every variable was set already. *)
Theorem C65_mock_missing_exact env e e' old : NoDup (map fst env) -> missing_enter env e [] = (e', old, true) ->
  ((forall n, e' n = e n) <-> (forall n, In n (map fst env) -> e n <> None)).
Proof.
  intros ND. generalize (@nil (str * option str)) as acc. revert e. induction env as [|[n v] env IH]; intros e acc H; cbn [missing_enter map fst] in *.
  - injection H as <- _. split; [intros _ m []|reflexivity].
  - inversion ND as [|? ? N1 N2]; subst. destruct (e n) as [x|] eqn:EN.
    + rewrite (IH N2 e _ H). split; [intros A m [<-|I]; [congruence|now apply A]|intros A m I; apply A; now right].
    + destruct v as [x|]; [|discriminate]. split; [|intros A; elim (A n); [now left|exact EN]]. intros A. exfalso.
      assert (K : forall env e acc e' old, missing_enter env e acc = (e', old, true) -> forall n, e n <> None -> e' n <> None).
      { clear. induction env as [|[m w] env IH]; intros e acc e' old H n EN; cbn [missing_enter] in H; [injection H as <- _; exact EN|]. destruct (e m) eqn:EM; [now apply (IH _ _ _ _ H)|].
        destruct w; [|discriminate]. apply (IH _ _ _ _ H). unfold env_set. destruct (str_eqb_spec n m); [discriminate|exact EN]. }
      apply (K _ _ _ _ _ H n); [unfold env_set; rewrite str_eqb_refl; discriminate|]. now rewrite A.
Qed.
Print Assumptions C65_mock_missing_exact.

(** ** C71 *)
(** the calls that a list shows, [before] being listed already: an [early] one where it is made first, another where it is made last *)
Fixpoint shown_calls (early : str -> Prop) (before hs shown : list str) : Prop :=
  match hs with
  | [] => shown = []
  | h :: r =>
      exists rest, shown_calls early (h :: before) r rest /\
        ((early h /\ ((In h before /\ shown = rest) \/ (~ In h before /\ shown = h :: rest))) \/
         (~ early h /\ ((In h r /\ shown = rest) \/ (~ In h r /\ shown = h :: rest))))
  end.
Lemma shown_calls_fun early hs : forall before s1 s2, shown_calls early before hs s1 -> shown_calls early before hs s2 -> s1 = s2.
Proof.
  induction hs as [|h r IH]; cbn [shown_calls]; intros before s1 s2; [congruence|]. intros (r1 & A1 & B1) (r2 & A2 & B2). rewrite (IH _ _ _ A1 A2) in B1.
  destruct B1 as [[E1 [[I1 ->]|[I1 ->]]]|[E1 [[I1 ->]|[I1 ->]]]], B2 as [[E2 [[I2 ->]|[I2 ->]]]|[E2 [[I2 ->]|[I2 ->]]]]; tauto.
Qed.
Section Listed.
  Variables V X : Type.
  Definition early_in (loaded : snaps V) (h : str) : Prop := In h (map fst loaded).
  Lemma assoc_early loaded h : match assoc V h (rev loaded) with Some _ => early_in loaded h | None => ~ early_in loaded h end.
  Proof.
    pose proof (recorded_assoc V h (rev loaded)) as R. destruct (assoc V h (rev loaded)) as [v|] eqn:E.
    - apply assoc_In in E. apply in_rev in E. apply in_map_iff. now exists (h, v).
    - intros I. unfold early_in in I. apply in_map_iff in I as (x & <- & I). apply in_rev in I. apply (in_map fst) in I. apply recorded_In in I. rewrite R in I. discriminate.
  Qed.
  Definition keeps (hs : list str) (P : str -> bool) : list str := filter P hs.
  Lemma run_shown capture (loaded : snaps V) cs : forall calls before calls' os is,
    NoDup (map fst calls) ->
    (forall h, early_in loaded h -> (In h before <-> In h (map fst calls))) ->
    run_calls V X capture loaded calls cs = (calls', os, is) ->
    (forall o, In o os -> exists v, o = Returned v) ->
    exists P shown, (forall k, In k (map fst calls) -> (P k = true <-> (early_in loaded k \/ ~ In k (map fst cs)))) /\
      shown_calls (early_in loaded) before (map fst cs) shown /\ map fst calls' = keeps (map fst calls) P ++ shown.
  Proof.
    induction cs as [|[h real] cs IH]; cbn [run_calls]; intros calls before calls' os is ND HB.
    - intros [= <- _ _] _. exists (fun _ => true), []. split; [intros k _; cbn; tauto|]. split; [reflexivity|]. rewrite app_nil_r. unfold keeps. clear. induction (map fst calls) as [|x l IH]; [reflexivity|]. cbn. now rewrite <- IH.
    - destruct (snapshot V X capture loaded calls h real) as [[c1 o] i] eqn:E.
      destruct (run_calls V X capture loaded c1 cs) as [[c2 os'] is'] eqn:E2. intros [= <- <- <-] HR. cbn [map fst].
      pose proof (assoc_early loaded h) as EA. unfold snapshot in E. destruct (assoc V h (rev loaded)) as [v|].
      + injection E as <- _ _. destruct (recorded V h calls) eqn:R.
        * apply recorded_In in R. destruct (IH calls (h :: before) c2 os' is' ND) as (P & shown & HP & HS & EQ); [|exact E2|intros o' I; apply HR; now right|].
          { intros k EK. cbn [In]. rewrite <- (HB k EK). split; [|tauto]. intros [<-|I]; [now apply HB|exact I]. }
          exists P, shown. split; [|split; [|exact EQ]].
          { intros k I. rewrite (HP k I). cbn [In]. split; [intros [A|A]; [tauto|]|tauto]. destruct (str_eqb_spec h k) as [->|NE]; [tauto|right; tauto]. }
          cbn [shown_calls]. exists shown. split; [exact HS|]. left. split; [exact EA|]. left. split; [now apply HB|reflexivity].
        * assert (NR : ~ In h (map fst calls)) by (intros I; apply recorded_In in I; congruence).
          destruct (IH (calls ++ [(h, v)]) (h :: before) c2 os' is') as (P & shown & HP & HS & EQ); [| |exact E2|intros o' I; apply HR; now right|].
          { rewrite map_app. cbn [map fst]. apply SuiteProofs.NoDup_app_iff_snoc. split; assumption. }
          { intros k EK. rewrite map_app, in_app_iff. cbn [map fst In]. rewrite <- (HB k EK). tauto. }
          exists P, (h :: shown). split; [|split].
          { intros k I. rewrite HP by (rewrite map_app; apply in_or_app; now left). cbn [In]. split; [intros [A|A]; [tauto|]|tauto]. destruct (str_eqb_spec h k) as [->|NE]; [tauto|right; tauto]. }
          { cbn [shown_calls]. exists shown. split; [exact HS|]. left. split; [exact EA|]. right. split; [|reflexivity]. intros I. apply NR. now apply HB. }
          rewrite EQ, map_app. unfold keeps. rewrite filter_app. cbn [map fst filter]. assert (P h = true) as -> by (apply HP; [rewrite map_app; apply in_or_app; right; now left|now left]). now rewrite <- app_assoc.
      + destruct capture.
        * destruct real as [v|x]; [|injection E as _ <- _; destruct (HR (Raised x)) as [v Ev]; [now left|discriminate]].
          injection E as <- _ _. set (calls1 := filter (fun e => negb (str_eqb (fst e) h)) calls) in *.
          assert (M1 : map fst calls1 = filter (fun k => negb (str_eqb k h)) (map fst calls)).
          { subst calls1. clear. induction calls as [|[k w] calls IH]; [reflexivity|]. cbn [filter map fst]. destruct (str_eqb k h); cbn [negb map fst]; now rewrite <- IH. }
          destruct (IH (calls1 ++ [(h, v)]) (h :: before) c2 os' is') as (P & shown & HP & HS & EQ); [| |exact E2|intros o' I; apply HR; now right|].
          { rewrite map_app. cbn [map fst]. apply SuiteProofs.NoDup_app_iff_snoc. split; [rewrite M1; now apply NoDup_filter|]. rewrite M1. intros I. apply filter_In in I as [_ I]. rewrite str_eqb_refl in I. discriminate. }
          { intros k EK. rewrite map_app, in_app_iff, M1, filter_In. cbn [map fst In]. rewrite <- (HB k EK). split; [intros [<-|I]; [tauto|left; split; [exact I|]]|tauto].
            destruct (str_eqb_spec k h) as [->|]; [contradiction|reflexivity]. }
          assert (HK : map fst (calls1 ++ [(h, v)]) = map fst calls1 ++ [h]) by now rewrite map_app.
          exists (fun k => negb (str_eqb k h) && P k), ((if P h then [h] else []) ++ shown). split; [|split].
          { intros k I. cbn [In]. destruct (str_eqb_spec k h) as [->|NE]; cbn [negb andb]; [split; [discriminate|tauto]|]. rewrite HP; [split; [intros [A|A]; [tauto|right; intros [B|B]; [now apply NE|tauto]]|tauto]|].
            rewrite HK, M1. apply in_or_app. left. apply filter_In. split; [exact I|]. destruct (str_eqb_spec k h); [contradiction|reflexivity]. }
          { cbn [shown_calls]. exists shown. split; [exact HS|]. right. split; [exact EA|]. assert (HH : In h (map fst (calls1 ++ [(h, v)]))) by (rewrite HK; apply in_or_app; right; now left).
            specialize (HP h HH). destruct (P h); [right; split; [|reflexivity]; destruct HP as [HP _]; destruct HP as [HP|HP]; [reflexivity|contradiction|exact HP]|].
            left. split; [|reflexivity]. destruct (in_dec (list_eq_dec N.eq_dec) h (map fst cs)) as [I|I]; [exact I|]. destruct HP as [_ HP]. specialize (HP (or_intror I)). discriminate. }
          rewrite EQ, HK, M1. unfold keeps. rewrite filter_app. cbn [filter]. rewrite <- app_assoc. f_equal.
          clear. induction (map fst calls) as [|k l IH]; [reflexivity|]. cbn [filter]. destruct (str_eqb k h); cbn [negb andb filter]; [exact IH|]. destruct (P k); now rewrite IH.
        * injection E as _ <- _. destruct (HR Missing) as [v Ev]; [now left|discriminate].
  Qed.
End Listed.

(** The list of calls, exactly. A run that captures shows a call that was recorded before where it is made first, another where it is made
    last; the replay shows every call where it is made first. Both show the same exactly if these two orders are one. *)
Theorem C71_listed_exact (V X : Type) (to_json : V -> option V) files refresh complete cs calls os is saved listing calls' os' is' :
  run_calls V X (capturing refresh complete) (load V files refresh) [] cs = (calls, os, is) ->
  (forall o, In o os -> exists v, o = Returned v) ->
  store V to_json calls = Some saved -> Permutation saved listing ->
  run_calls V X false listing [] cs = (calls', os', is') ->
  let before h := refresh = false /\ In h (map fst files) in
  shown_calls before [] (map fst cs) (listed V calls) /\
  shown_calls (fun _ => True) [] (map fst cs) (listed V calls').
Proof.
  intros ER HR ES EP ER' before.
  destruct (run_shown V X (capturing refresh complete) (load V files refresh) cs [] [] calls os is) as (P & shown & _ & HS & EQ); [constructor|intros; cbn; tauto|exact ER|exact HR|]. cbn [map keeps filter app] in EQ.
  assert (EX : forall e1 e2 : str -> Prop, forall hs, (forall h, In h hs -> (e1 h <-> e2 h)) -> forall b s, shown_calls e1 b hs s -> shown_calls e2 b hs s).
  { clear. intros e1 e2. induction hs as [|h r IH]; cbn [shown_calls]; intros H b s; [trivial|]. intros (rest & A & B). exists rest. split; [apply IH; [intros x I; apply H; now right|exact A]|]. rewrite <- (H h) by now left. exact B. }
  assert (SH : forall (e : str -> Prop), (forall h, e h \/ ~ e h) -> forall hs b s, shown_calls e b hs s -> forall h, In h hs -> In h s \/ (e h /\ In h b)).
  { clear. intros e D. induction hs as [|g r IH]; cbn [shown_calls]; intros b s; [intros _ h []|]. intros (rest & A & B) h I. destruct I as [<-|I].
    - destruct B as [[E [[I ->]|[_ ->]]]|[E [[I ->]|[_ ->]]]]; [now right|left; now left| |left; now left]. destruct (IH _ _ A g I) as [J|[J _]]; tauto.
    - destruct (IH _ _ A h I) as [J|[J [<-|K]]]; [| |now right].
      + destruct B as [[_ [[_ ->]|[_ ->]]]|[_ [[_ ->]|[_ ->]]]]; cbn [In]; auto.
      + destruct B as [[E [[K ->]|[_ ->]]]|[E _]]; [now right|left; now left|tauto]. }
  assert (SUB : forall h, In h (map fst cs) -> In h (map fst listing)).
  { intros h I. assert (J : In h shown).
    { destruct (SH _ (fun h => match in_dec (list_eq_dec N.eq_dec) h (map fst (load V files refresh)) with left a => or_introl a | right b => or_intror b end) _ _ _ HS h I) as [J|[_ []]]. exact J. }
    eapply Permutation_in; [apply Permutation_map; exact EP|]. rewrite (store_fst V to_json calls saved ES). now rewrite EQ. }
  assert (HR' : forall o, In o os' -> exists v, o = Returned v).
  { pose proof (replay_spec V X listing cs []) as RS. rewrite ER' in RS. destruct RS as [-> _]. intros o I. apply in_map_iff in I. destruct I as ([h real] & <- & I). cbn [fst].
    apply (in_map fst) in I. apply SUB in I. pose proof (assoc_early V listing h) as EA. cbn [fst] in I. destruct (assoc V h (rev listing)) as [v|]; [eauto|]. elim EA. exact I. }
  destruct (run_shown V X false listing cs [] [] calls' os' is') as (P' & shown' & _ & HS' & EQ'); [constructor|intros; cbn; tauto|exact ER'|exact HR'|]. cbn [map keeps filter app] in EQ'.
  unfold listed. rewrite EQ, EQ'. split.
  - apply (EX _ _ (map fst cs)) with (2 := HS). intros h _. unfold early_in, before, load. destruct refresh; cbn [map In]; [split; [tauto|intros [? _]; discriminate]|tauto].
  - apply (EX _ _ (map fst cs)) with (2 := HS'). intros h I. split; [trivial|]. intros _. now apply SUB.
Qed.
Print Assumptions C71_listed_exact.
(** so the lists are the same exactly if the two orders are *)
Corollary C71_same_exact (V X : Type) (to_json : V -> option V) files refresh complete cs calls os is saved listing calls' os' is' :
  run_calls V X (capturing refresh complete) (load V files refresh) [] cs = (calls, os, is) ->
  (forall o, In o os -> exists v, o = Returned v) ->
  store V to_json calls = Some saved -> Permutation saved listing ->
  run_calls V X false listing [] cs = (calls', os', is') ->
  (listed V calls' = listed V calls <->
   exists order, shown_calls (fun h => refresh = false /\ In h (map fst files)) [] (map fst cs) order /\ shown_calls (fun _ => True) [] (map fst cs) order).
Proof.
  intros ER HR ES EP ER'. destruct (C71_listed_exact V X to_json files refresh complete cs calls os is saved listing calls' os' is' ER HR ES EP ER') as [A B]. split.
  - intros E. rewrite E in B. eauto.
  - intros (order & C & D). rewrite (shown_calls_fun _ _ _ _ _ A C). apply (shown_calls_fun _ _ _ _ _ B D).
Qed.
Print Assumptions C71_same_exact.
Example C71_exact_example :
  shown_calls (fun _ => False) [] [lit "a"; lit "b"; lit "a"] [lit "b"; lit "a"] /\ shown_calls (fun _ => True) [] [lit "a"; lit "b"; lit "a"] [lit "a"; lit "b"] /\
  shown_calls (fun _ => False) [] [lit "a"; lit "a"; lit "b"] [lit "a"; lit "b"] /\ shown_calls (fun _ => True) [] [lit "a"; lit "a"; lit "b"] [lit "a"; lit "b"].
Proof.
  assert (N : lit "a" <> lit "b") by discriminate. assert (M : lit "b" <> lit "a") by discriminate. cbn [shown_calls In].
  split; [|split; [|split]].
  - exists [lit "b"; lit "a"]. split; [|right; split; [tauto|left; auto]]. exists [lit "a"]. split; [|right; split; [tauto|right; split; [tauto|reflexivity]]]. exists []. split; [reflexivity|right; split; [tauto|right; auto]].
  - exists [lit "b"]. split; [|left; split; [exact I|right; auto]]. exists []. split; [|left; split; [exact I|right; split; [tauto|reflexivity]]]. exists []. split; [reflexivity|left; split; [exact I|left; auto]].
  - exists [lit "a"; lit "b"]. split; [|right; split; [tauto|left; auto]]. exists [lit "b"]. split; [|right; split; [tauto|right; split; [tauto|reflexivity]]]. exists []. split; [reflexivity|right; split; [tauto|right; auto]].
  - exists [lit "b"]. split; [|left; split; [exact I|right; auto]]. exists [lit "b"]. split; [|left; split; [exact I|left; auto]]. exists []. split; [reflexivity|left; split; [exact I|right; split; [tauto|reflexivity]]].
Qed.

(** ** C94 *)
Lemma str_dict_inj a b : str_dict a = str_dict b -> a = b.
Proof.
  unfold str_dict. intros H. injection H as H. revert b H. induction a as [|[k v] a IH]; intros [|[j w] b] H; try discriminate; [reflexivity|]. cbn [map fst snd] in H. injection H as -> -> H. f_equal. now apply IH.
Qed.
(** Two ways to write the same keyword arguments have one key exactly if the names come in the same order. *)
Theorem C94_keyword_order_exact refloat sha1 f args kwargs kwargs' h h' :
  value_ok refloat (JDict (call_entries f args kwargs)) -> Permutation kwargs kwargs' -> NoDup (map fst kwargs) ->
  call_key sha1 f args kwargs = Some h -> call_key sha1 f args kwargs' = Some h' ->
  (forall a b, dumps None 0 (JDict (call_entries f args kwargs)) = Some a -> dumps None 0 (JDict (call_entries f args kwargs')) = Some b -> sha1 a = sha1 b -> a = b) ->
  (h' = h <-> map fst kwargs' = map fst kwargs).
Proof.
  intros OK PE ND K K' INJ. split.
  - intros ->. unfold call_key in K, K'. destruct (dumps None 0 (JDict (call_entries f args kwargs))) as [a|] eqn:D; [|discriminate].
    destruct (dumps None 0 (JDict (call_entries f args kwargs'))) as [b|] eqn:D'; [|discriminate]. cbn [option_map] in K, K'.
    assert (a = b) as <- by (apply INJ; congruence).
    assert (OK' : value_ok refloat (JDict (call_entries f args kwargs'))).
    { revert OK. unfold call_entries. cbn [value_ok fold_right fst snd key_ok]. intros (A & B & (C & O) & _). split; [exact A|]. split; [exact B|]. split; [split; [exact C|]|exact I]. revert O. clear - PE.
      assert (G : forall l, fold_right (fun (kv : jkey * jv) (P : Prop) => (key_ok refloat (fst kv) /\ value_ok refloat (snd kv)) /\ P) True l <-> Forall (fun kv => key_ok refloat (fst kv) /\ value_ok refloat (snd kv)) l).
      { induction l as [|x l IH]; cbn [fold_right]; [split; constructor|]. rewrite IH. split; [intros [? ?]; now constructor|intros H; inversion H; now split]. }
      rewrite !G. intros H. eapply Permutation_Forall; [apply Permutation_map; exact PE|exact H]. }
    pose proof (loads_dumps refloat _ _ _ OK D) as L. rewrite (loads_dumps refloat _ _ _ OK' D') in L. injection L as L.
    set (D0 := fun kw : list (str * jv) => dict_of (map (fun kv => (key_back (fst kv), read_back (snd kv))) (map (fun kv => (JKStr (fst kv), snd kv)) kw))).
    assert (L2 : str_dict (D0 kwargs') = str_dict (D0 kwargs)) by exact (f_equal JDict L).
    assert (DX : forall kw, NoDup (map fst kw) -> map fst (D0 kw) = map fst kw).
    { intros kw N. unfold D0. rewrite map_map. cbn [fst snd]. rewrite dict_of_nodup; rewrite map_map; [reflexivity|exact N]. }
    apply str_dict_inj, (f_equal (map fst)) in L2. rewrite !DX in L2; [exact L2|exact ND|]. eapply Permutation_NoDup; [apply Permutation_map; exact PE|exact ND].
  - intros E. destruct (C94_keyword_order_partial sha1 f args kwargs kwargs' h JNone PE (eq_sym E) ND K) as [K2 _]. congruence.
Qed.
Print Assumptions C94_keyword_order_exact.
Example C94_exact_example : let kw := [(lit "a", JInt 1); (lit "b", JInt 2)] in
  value_ok (fun t => t) (JDict (call_entries (lit "f") [] kw)) /\ Permutation kw (rev kw) /\ NoDup (map fst kw) /\
  call_key (fun t => t) (lit "f") [] kw <> call_key (fun t => t) (lit "f") [] (rev kw) /\ call_key (fun t => t) (lit "f") [] kw <> None.
Proof.
  cbv zeta. split; [|split; [apply Permutation_rev|split; [repeat constructor; cbn; intuition discriminate|split; vm_compute; discriminate]]].
  unfold call_entries. cbn [value_ok fold_right fst snd key_ok map]. repeat split; repeat constructor; cbn; intuition discriminate.
Qed.

(** ** C44 *)
(** A block whose functions can all be set leaves the functions themselves at their places, so what was there before is restored exactly if it was
    these functions. If one can not be set, the block does not start, and what was put in place of those before it stays there. *)
Theorem C44_restored_exact (L : Type) (L_eqb : L -> L -> bool) (HL : forall a b, L_eqb a b = true <-> a = b)
  (P F : Type) (place : F -> L) (itself : F -> P) settable fs body (ns : names L P) :
  (forall f g, In f (map fst fs) -> In g (map fst fs) -> place f = place g -> itself f = itself g) ->
  ((forall f, In f (map fst fs) -> settable (place f) = true) ->
     exists ns2, mock_block L L_eqb P F place itself settable fs body ns = (ns2, true) /\
       (forall f, In f (map fst fs) -> ns2 (place f) = Some (itself f)) /\
       ((forall f, In f (map fst fs) -> ns2 (place f) = ns (place f)) <-> (forall f, In f (map fst fs) -> ns (place f) = Some (itself f)))) /\
  (forall before f p rest, fs = before ++ (f, p) :: rest -> (forall g, In g (map fst before) -> settable (place g) = true) -> settable (place f) = false ->
     exists ns1, mock_block L L_eqb P F place itself settable fs body ns = (ns1, false) /\
       (forall m, (forall g, In g (map fst before) -> m <> place g) -> ns1 m = ns m) /\
       (forall b g q a, before = b ++ (g, q) :: a -> (forall h, In h (map fst a) -> place h <> place g) -> ns1 (place g) = Some q)).
Proof.
  intros CO. split.
  - intros HS. unfold mock_block. destruct (patch_ok L L_eqb HL P F place settable fs ns) as (ns1 & E1 & K1).
    { apply Forall_forall. intros [f p] I. apply (in_map fst) in I. cbn [fst] in *. now apply HS. }
    rewrite E1. destruct (unpatch_ok L L_eqb HL P F place itself settable (map fst fs) (body ns1)) as (ns2 & E2 & K2 & K3).
    { apply Forall_forall. exact HS. }
    assert (K : forall f, In f (map fst fs) -> ns2 (place f) = Some (itself f)) by (intros f I; apply K3; [exact I|]; intros g Ig E; now apply CO).
    exists ns2. split; [exact E2|]. split; [exact K|]. split; intros H f I; [rewrite <- H by exact I; now apply K|rewrite H by exact I; now apply K].
  - intros before f p rest -> HB HF. unfold mock_block. clear CO.
    assert (G : forall before ns, (forall g, In g (map fst before) -> settable (place g) = true) ->
      exists ns1, patch L L_eqb P F place settable (before ++ (f, p) :: rest) ns = (ns1, false) /\
       (forall m, (forall g, In g (map fst before) -> m <> place g) -> ns1 m = ns m) /\
       (forall b g q a, before = b ++ (g, q) :: a -> (forall h, In h (map fst a) -> place h <> place g) -> ns1 (place g) = Some q)).
    { clear before HB ns. induction before as [|[g q] before IH]; intros ns HB; cbn [app patch]; unfold set_function.
      - rewrite HF. exists ns. split; [reflexivity|]. split; [reflexivity|]. intros [|? b] g q a E; discriminate.
      - rewrite (HB g) by now left. destruct (IH (put L L_eqb P ns (place g) q)) as (ns1 & E & A & B); [intros h I; apply HB; now right|]. exists ns1. split; [exact E|]. split.
        + intros m Hm. rewrite A by (intros h I; apply Hm; now right). unfold put. destruct (L_eqb m (place g)) eqn:EQ; [|reflexivity]. apply HL in EQ. elim (Hm g); [now left|exact EQ].
        + intros [|[g' q'] b] h r a EB NA; cbn [app] in EB.
          * assert (g = h) as <- by congruence. assert (q = r) as <- by congruence. assert (before = a) as <- by congruence.
            rewrite A; [|intros h I E'; apply (NA h I); now symmetry]. unfold put. assert (L_eqb (place g) (place g) = true) as -> by now apply HL. reflexivity.
          * apply (B b h r a); [congruence|exact NA]. }
    destruct (G before ns HB) as (ns1 & E & A & B). rewrite E. exists ns1. auto.
Qed.
Print Assumptions C44_restored_exact.
Example C44_exact_example :
  let '(after, ok) := mock_block nat Nat.eqb nat nat (fun f => f) (fun f => f) (fun _ => true) [(1, 10); (2, 20)] (fun n => n) (fun l => Some (if l =? 1 then 7 else l)) in
  (ok, after 1, after 2) = (true, Some 1, Some 2) /\
  let '(after, ok) := mock_block nat Nat.eqb nat nat (fun f => f) (fun f => f) (fun l => l <? 2) [(1, 10); (2, 20)] (fun n => n) Some in
  (ok, after 1, after 2) = (false, Some 10, Some 2).
Proof. vm_compute. split; reflexivity. Qed.

(** ** C48 *)
Section SnapshotEnv.
  Variables (snapshots : table) (capturing : bool).
  (** what the variable has in the block, if it starts *)
  Definition env_value (e : environ) (n : str) : option str := match tget n snapshots with Some v => v | None => e n end.
  (** the start can go past this variable *)
  Definition env_ready (e : environ) (n : str) : Prop := (tget n snapshots = None -> capturing = true) /\ (tget n snapshots = Some None -> e n <> None).

  Lemma tput_new n v d : ~ In n (map fst d) -> tput n v d = d ++ [(n, v)].
  Proof. induction d as [|[m w] d IH]; cbn [tput map fst In app]; [reflexivity|]. intros H. destruct (str_eqb_spec n m) as [->|]; [tauto|]. now rewrite IH by tauto. Qed.
  Lemma enter_past before rest : forall e old cap, NoDup before -> (forall n, In n before -> ~ In n (map fst old)) -> (forall n, In n before -> env_ready e n) ->
    exists e1 cap1, snap_enter (before ++ rest) snapshots capturing e old cap = snap_enter rest snapshots capturing e1 (old ++ map (fun n => (n, e n)) before) cap1 /\
      (forall n, In n before -> e1 n = env_value e n) /\ (forall n, ~ In n before -> e1 n = e n).
  Proof.
    induction before as [|n before IH]; intros e old cap ND HF HR; [exists e, cap; cbn [app map]; rewrite app_nil_r; repeat split; easy|].
    inversion ND as [|? ? N1 N2]; subst. cbn [app snap_enter]. rewrite tput_new by (apply HF; now left).
    assert (STEP : forall e2 cap2, (forall m, m <> n -> e2 m = e m) -> e2 n = env_value e n ->
      exists e1 cap1, snap_enter (before ++ rest) snapshots capturing e2 (old ++ [(n, e n)]) cap2 = snap_enter rest snapshots capturing e1 (old ++ map (fun n => (n, e n)) (n :: before)) cap1 /\
      (forall m, In m (n :: before) -> e1 m = env_value e m) /\ (forall m, ~ In m (n :: before) -> e1 m = e m)).
    { intros e2 cap2 E1 E2. assert (NB : forall m, In m before -> m <> n) by (intros m I ->; contradiction).
      destruct (IH e2 (old ++ [(n, e n)]) cap2 N2) as (e1 & cap1 & E & A & B).
      { intros m I. rewrite map_app, in_app_iff. cbn [map fst In]. intros [J|[J|[]]]; [apply (HF m); [now right|exact J]|now apply (NB m I)]. }
      { intros m I. unfold env_ready. rewrite E1 by now apply NB. apply HR. now right. }
      exists e1, cap1. split; [|split].
      - rewrite E. f_equal. cbn [map]. rewrite <- app_assoc. cbn [app]. f_equal. f_equal. apply map_ext_in. intros m I. now rewrite E1 by now apply NB.
      - intros m [<-|I]; [rewrite B by exact N1; exact E2|]. rewrite A by exact I. unfold env_value. now rewrite E1 by now apply NB.
      - intros m NI. cbn [In] in NI. rewrite B by tauto. apply E1. intros ->. apply NI. now left. }
    destruct (HR n (or_introl eq_refl)) as [R1 R2]. unfold env_value in STEP. destruct (tget n snapshots) as [[v|]|] eqn:ET.
    - apply STEP; unfold env_set; [intros m NE; destruct (str_eqb_spec m n); [contradiction|reflexivity]|]. now rewrite str_eqb_refl.
    - unfold env_del. destruct (e n) as [x|] eqn:EN; [|now elim R2]. rewrite <- EN in *. apply STEP; unfold env_set; [intros m NE; destruct (str_eqb_spec m n); [contradiction|reflexivity]|]. now rewrite str_eqb_refl.
    - assert (C : capturing = true) by now apply R1. rewrite C in STEP |- *. apply STEP; reflexivity.
  Qed.
  Lemma enter_stuck n rest e old cap : ~ env_ready e n -> s_env (snap_enter (n :: rest) snapshots capturing e old cap) = e /\ s_ok (snap_enter (n :: rest) snapshots capturing e old cap) = false.
  Proof.
    unfold env_ready. intros H. cbn [snap_enter]. destruct (tget n snapshots) as [[v|]|]; [elim H; split; discriminate| |].
    - unfold env_del. destruct (e n); [elim H; split; [discriminate|intros _; discriminate]|split; reflexivity].
    - destruct capturing; [elim H; split; [reflexivity|discriminate]|split; reflexivity].
  Qed.
End SnapshotEnv.
Lemma leave_past before rest (e : environ) : forall b, NoDup before -> (forall n, In n before -> e n = None -> b n <> None) ->
  exists b1, snap_leave (map (fun n => (n, e n)) (before ++ rest)) b = snap_leave (map (fun n => (n, e n)) rest) b1 /\
    (forall n, In n before -> b1 n = e n) /\ (forall n, ~ In n before -> b1 n = b n).
Proof.
  induction before as [|n before IH]; intros b ND HB; [exists b; repeat split; easy|]. inversion ND as [|? ? N1 N2]; subst. cbn [app map snap_leave].
  assert (STEP : exists b1, snap_leave (map (fun n => (n, e n)) (before ++ rest)) (env_set b n (e n)) = snap_leave (map (fun n => (n, e n)) rest) b1 /\
    (forall m, In m (n :: before) -> b1 m = e m) /\ (forall m, ~ In m (n :: before) -> b1 m = b m)).
  { destruct (IH (env_set b n (e n)) N2) as (b1 & E & A & B).
    { intros m I EM. unfold env_set. destruct (str_eqb_spec m n) as [->|]; [contradiction|]. apply HB; [now right|exact EM]. }
    exists b1. split; [exact E|]. split.
    - intros m [<-|I]; [rewrite B by exact N1; unfold env_set; now rewrite str_eqb_refl|now apply A].
    - intros m NI. cbn [In] in NI. rewrite B by tauto. unfold env_set. destruct (str_eqb_spec m n) as [->|]; [exfalso; apply NI; now left|reflexivity]. }
  destruct (e n) as [v|] eqn:EN; [exact STEP|]. unfold env_del. destruct (b n) eqn:EB; [exact STEP|]. elim (HB n (or_introl eq_refl) EN EB).
Qed.
(** the first of a list without a property *)
Lemma first_without (P : str -> Prop) (D : forall n, P n \/ ~ P n) ns : (forall n, In n ns -> P n) \/ exists before n after, ns = before ++ n :: after /\ (forall m, In m before -> P m) /\ ~ P n.
Proof.
  induction ns as [|n ns IH]; [left; intros ? []|]. destruct (D n) as [H|H]; [|right; exists [], n, ns; repeat split; [easy|exact H]].
  destruct IH as [A|(before & m & after & -> & A & B)]; [left; intros m [<-|I]; auto|]. right. exists (n :: before), m, after. repeat split; [|exact B]. intros k [<-|I]; auto.
Qed.

(** Exactly when a snapshot_env block works, and what it leaves when it does not. It starts if every variable is recorded or may be recorded and none is
    recorded as unset that is unset already; it ends well if no variable that was unset is unset when the body ends. A block that does not start leaves the
    variables before the first unready one with their recorded values; one that fails at the end leaves those from there on as the body did. *)
Theorem C48_snapshot_env_exact names (file : option table) (refresh complete : bool) body e :
  NoDup names ->
  let snapshots := if refresh then [] else match file with Some d => d | None => [] end in
  let value n := match tget n snapshots with Some v => v | None => e n end in
  let ready n := (tget n snapshots = None -> complete || refresh = true) /\ (tget n snapshots = Some None -> e n <> None) in
  let inside := s_env (snap_start names file refresh complete e) in
  let '(after, ok, written) := snap_block names file refresh complete body e in
  (ok = true <-> (forall n, In n names -> ready n /\ (e n = None -> body inside n <> None))) /\
  (forall before n rest, names = before ++ n :: rest -> (forall m, In m before -> ready m) -> ~ ready n ->
     (forall m, In m before -> after m = value m) /\ (forall m, ~ In m before -> after m = e m) /\ written = None) /\
  (forall before n rest, names = before ++ n :: rest -> (forall m, In m names -> ready m) ->
     (forall m, In m before -> e m = None -> body inside m <> None) -> e n = None -> body inside n = None ->
     (forall m, In m before -> after m = e m) /\ (forall m, ~ In m before -> after m = body inside m) /\ written = None).
Proof.
  intros ND snapshots value ready inside. destruct (snap_block names file refresh complete body e) as [[after ok] written] eqn:EB.
  assert (SL : snap_load file refresh = snapshots) by (unfold snap_load, snapshots; destruct file, refresh; reflexivity).
  unfold snap_block in EB. unfold inside, snap_start in *. rewrite SL in *. clear SL inside.
  assert (RD : forall n, ready n <-> env_ready snapshots (complete || refresh) e n) by reflexivity.
  assert (DEC : forall n, ready n \/ ~ ready n).
  { intros n. unfold ready. destruct (tget n snapshots) as [[v|]|]; [left; split; discriminate| |].
    - destruct (e n); [left; split; [discriminate|intros _; discriminate]|right; intros [_ H]; now apply H].
    - destruct (complete || refresh); [left; split; [reflexivity|discriminate]|right; intros [H _]; now specialize (H eq_refl)]. }
  (* a variable that is not ready *)
  assert (STUCK : forall before n rest, names = before ++ n :: rest -> (forall m, In m before -> ready m) -> ~ ready n ->
    ok = false /\ (forall m, In m before -> after m = value m) /\ (forall m, ~ In m before -> after m = e m) /\ written = None).
  { intros before n rest -> HB HN. pose proof ND as ND0. apply NoDup_remove in ND as [NDb NI]. assert (NDB : NoDup before) by (clear - NDb; induction before as [|x l IH]; [constructor|]; cbn [app] in NDb; inversion NDb; subst; constructor; [intros I; apply H1; apply in_or_app; now left|auto]).
    destruct (enter_past snapshots (complete || refresh) before (n :: rest) e [] [] NDB) as (e1 & cap1 & E & A & B); [intros m I []|intros m I; apply RD; now apply HB|].
    rewrite E in EB. destruct (enter_stuck snapshots (complete || refresh) n rest e1 ([] ++ map (fun n => (n, e n)) before) cap1) as [S1 S2].
    { intros [R1 R2]. apply HN. unfold ready. assert (e1 n = e n) as <- by (apply B; intros I; apply NI; apply in_or_app; now left). now split. }
    rewrite S2, S1 in EB. injection EB as <- <- <-. repeat split; [exact A|exact B]. }
  (* all are ready *)
  assert (STARTED : (forall m, In m names -> ready m) -> s_ok (snap_enter names snapshots (complete || refresh) e [] []) = true /\
    snap_leave (map (fun n => (n, e n)) names) (body (s_env (snap_enter names snapshots (complete || refresh) e [] []))) = (after, ok) /\ (ok = false -> written = None)).
  { intros HR. destruct (enter_past snapshots (complete || refresh) names [] e [] [] ND) as (e1 & cap1 & E & A & B); [intros m I []|intros m I; apply RD; now apply HR|].
    rewrite app_nil_r in E. rewrite E in *. cbn [snap_enter s_ok s_env s_old s_capture app] in *. split; [reflexivity|]. destruct (snap_leave (map (fun n => (n, e n)) names) (body e1)) as [a o]. injection EB as <- <- <-. split; [reflexivity|]. intros ->. reflexivity. }
  set (inside := s_env (snap_enter names snapshots (complete || refresh) e [] [])) in *.
  assert (LATE : forall before n rest, names = before ++ n :: rest -> (forall m, In m names -> ready m) ->
     (forall m, In m before -> e m = None -> body inside m <> None) -> e n = None -> body inside n = None ->
     ok = false /\ (forall m, In m before -> after m = e m) /\ (forall m, ~ In m before -> after m = body inside m) /\ written = None).
  { intros before n rest EN HR HB HE HN. destruct (STARTED HR) as (_ & EL & EW). rewrite EN in EL. pose proof ND as ND0. rewrite EN in ND0. apply NoDup_remove in ND0 as [NDb NI].
    assert (NDB : NoDup before) by (clear - NDb; induction before as [|x l IH]; [constructor|]; cbn [app] in NDb; inversion NDb; subst; constructor; [intros I; apply H1; apply in_or_app; now left|auto]).
    destruct (leave_past before (n :: rest) e (body inside) NDB HB) as (b1 & E & A & B). rewrite E in EL. cbn [map snap_leave] in EL. rewrite HE in EL. unfold env_del in EL.
    rewrite (B n), HN in EL by (intros I; apply NI; apply in_or_app; now left). injection EL as <- <-. repeat split; [exact A|exact B|now apply EW]. }
  split; [|split; [intros before n rest A B C; now apply (STUCK before n rest)|intros before n rest A B C D E; now apply (LATE before n rest)]].
  destruct (first_without ready DEC names) as [HR|(before & n & rest & EN & HB & HN)].
  - assert (D2 : forall n, (e n = None -> body inside n <> None) \/ ~ (e n = None -> body inside n <> None)).
    { intros n. destruct (e n); [left; discriminate|]. destruct (body inside n); [left; discriminate|right; intros H; now apply H]. }
    destruct (first_without _ D2 names) as [HL|(before & n & rest & EN & HB & HN)].
    + split; [intros _ n I; split; auto|]. intros _. destruct (STARTED HR) as (_ & EL & _).
      destruct (leave_past names [] e (body inside) ND HL) as (b1 & E & _). rewrite app_nil_r in E. rewrite E in EL. cbn in EL. congruence.
    + assert (EE : e n = None /\ body inside n = None) by (destruct (e n); [elim HN; discriminate|]; destruct (body inside n); [elim HN; discriminate|auto]). destruct EE as [E1 E2].
      destruct (LATE before n rest EN HR HB E1 E2) as (-> & _). split; [discriminate|]. intros H. exfalso. apply HN. apply (H n). rewrite EN. apply in_or_app. right. now left.
  - destruct (STUCK before n rest EN HB HN) as (-> & _). split; [discriminate|]. intros H. exfalso. apply HN. apply (H n). rewrite EN. apply in_or_app. right. now left.
Qed.
Print Assumptions C48_snapshot_env_exact.
Example C48_exact_example :
  let e n := if str_eqb n (lit "A") then Some (lit "1") else None in
  let file := Some [(lit "A", Some (lit "x")); (lit "B", None)] in
  let '(after, ok, written) := snap_block [lit "A"; lit "B"] file false false (fun e => e) e in
  (ok, after (lit "A"), after (lit "B"), written) = (false, Some (lit "x"), None, None) /\
  let '(after, ok, written) := snap_block [lit "A"; lit "B"] file true false (fun e => env_set e (lit "B") (Some (lit "2"))) e in
  (ok, after (lit "A"), after (lit "B"), written) = (true, Some (lit "1"), None, Some [(lit "A", Some (lit "1")); (lit "B", None)]).
Proof. vm_compute. split; reflexivity. Qed.
Example C65_exact_example :
  let e n := if str_eqb n (lit "A") then Some (lit "1") else None in
  let '(after, _, ok) := missing_enter [(lit "A", Some (lit "x")); (lit "B", Some (lit "y"))] e [] in
  (ok, after (lit "A"), after (lit "B")) = (true, Some (lit "1"), Some (lit "y")).
Proof. vm_compute. reflexivity. Qed.

Lemma missing_enter_started env : forall e old, NoDup (map fst env) -> (forall n, In n (map fst env) -> ~ In n (map fst old)) ->
  (snd (missing_enter env e old) = true <-> (forall n, In (n, None) env -> e n <> None)) /\
  (snd (missing_enter env e old) = true -> snd (fst (missing_enter env e old)) = old ++ map (fun n => (n, e n)) (map fst env)).
Proof.
  induction env as [|[n v] env IH]; intros e old ND HF; cbn [missing_enter map fst].
  - cbn [snd fst map]. rewrite app_nil_r. repeat split; easy.
  - inversion ND as [|? ? N1 N2]; subst. rewrite tput_new by (apply HF; now left).
    assert (STEP : forall e1, (forall m, m <> n -> e1 m = e m) -> (v = None -> e n <> None) ->
      (snd (missing_enter env e1 (old ++ [(n, e n)])) = true <-> (forall m, In (m, None) ((n, v) :: env) -> e m <> None)) /\
      (snd (missing_enter env e1 (old ++ [(n, e n)])) = true -> snd (fst (missing_enter env e1 (old ++ [(n, e n)]))) = old ++ map (fun n => (n, e n)) (n :: map fst env))).
    { intros e1 E1 HN. assert (NB : forall m, In m (map fst env) -> m <> n) by (intros m I ->; contradiction).
      destruct (IH e1 (old ++ [(n, e n)]) N2) as [A B].
      { intros m I. rewrite map_app, in_app_iff. cbn [map fst In]. intros [J|[J|[]]]; [apply (HF m); [now right|exact J]|now apply (NB m I)]. }
      split.
      - rewrite A. split.
        + intros H m [E|I]; [|rewrite <- E1; [now apply H|apply NB; now apply (in_map fst) in I]]. assert (n = m) as <- by congruence. apply HN. congruence.
        + intros H m I. rewrite E1 by (apply NB; now apply (in_map fst) in I). apply H. now right.
      - intros H. rewrite (B H), <- app_assoc. cbn [app map]. f_equal. f_equal. apply map_ext_in. intros m I. now rewrite E1 by now apply NB. }
    cbn [map] in STEP. destruct (e n) as [x|] eqn:EN; [apply STEP; [reflexivity|discriminate]|]. destruct v as [x|].
    + apply STEP; [|discriminate]. intros m NE. unfold env_set. destruct (str_eqb_spec m n); [contradiction|reflexivity].
    + cbn [snd]. split; [split; [discriminate|]|discriminate]. intros H. elim (H n); [now left|exact EN].
Qed.
(** The same of mock_missing_env: a value None needs a variable that is set, and what was unset must be set when the body ends. *)
Theorem C48_mock_missing_exact env body e : NoDup (map fst env) ->
  let inside := fst (fst (missing_enter env e [])) in
  (snd (missing_block env body e) = true <->
   (forall n, In (n, None) env -> e n <> None) /\ (forall n, In n (map fst env) -> e n = None -> body inside n <> None)).
Proof.
  intros ND inside. destruct (missing_enter_started env e [] ND) as [A B]; [intros n I []|]. unfold missing_block. unfold inside. destruct (missing_enter env e []) as [[e1 old] [|]] eqn:EM; cbn [fst snd app] in *.
  - rewrite (B eq_refl). assert (A' : forall n, In (n, None) env -> e n <> None) by now apply A.
    assert (D2 : forall n, (e n = None -> body e1 n <> None) \/ ~ (e n = None -> body e1 n <> None)).
    { intros n. destruct (e n); [left; discriminate|]. destruct (body e1 n); [left; discriminate|right; intros H; now apply H]. }
    destruct (first_without _ D2 (map fst env)) as [HL|(before & n & rest & EN & HB & HN)].
    + destruct (leave_past (map fst env) [] e (body e1) ND HL) as (b1 & E & _). rewrite app_nil_r in E. rewrite E. cbn. tauto.
    + pose proof ND as ND0. rewrite EN in ND0. apply NoDup_remove in ND0 as [NDb NI].
      assert (NDB : NoDup before) by (clear - NDb; induction before as [|x l IH]; [constructor|]; cbn [app] in NDb; inversion NDb; subst; constructor; [intros I; apply H1; apply in_or_app; now left|auto]).
      destruct (leave_past before (n :: rest) e (body e1) NDB HB) as (b1 & E & _ & F). rewrite EN, E. cbn [map snap_leave].
      assert (EE : e n = None /\ body e1 n = None) by (destruct (e n); [elim HN; discriminate|]; destruct (body e1 n); [elim HN; discriminate|auto]). destruct EE as [E1 E2].
      rewrite E1. unfold env_del. rewrite (F n), E2 by (intros I; apply NI; apply in_or_app; now left). cbn [snd]. split; [discriminate|]. intros [_ H]. elim HN. intros _. apply H; [|exact E1]. apply in_or_app. right. now left.
  - split; [discriminate|]. intros [H _]. now apply A in H.
Qed.
Print Assumptions C48_mock_missing_exact.
