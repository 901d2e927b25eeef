From Verif Require Import PyStrFacts FuncModel.
From Coq Require Import Permutation Lia.

Section Func.
  Variable V X : Type.
  Notation snaps := (snaps V).
  Notation assoc := (assoc V).
  Notation recorded := (recorded V).
  Notation run_calls := (run_calls V X).

  (** the last value that a trace of calls returned for a hash *)
  Fixpoint last_value (h : str) (tr : list (str * outcome V X)) (acc : option V) : option V :=
    match tr with
    | [] => acc
    | (k, Returned v) :: r => last_value h r (if str_eqb k h then Some v else acc)
    | _ :: r => last_value h r acc
    end.

  Lemma assoc_app h (a b : snaps) : assoc h (a ++ b) = match assoc h a with Some v => Some v | None => assoc h b end.
  Proof. induction a as [|[k v] a IH]; [reflexivity|]. cbn [app FuncModel.assoc]. now destruct (str_eqb k h). Qed.
  Lemma assoc_filter h k (l : snaps) :
    assoc h (filter (fun e => negb (str_eqb (fst e) k)) l) = if str_eqb k h then None else assoc h l.
  Proof.
    induction l as [|[j v] l IH]; cbn [filter FuncModel.assoc fst]; [now destruct (str_eqb k h)|].
    destruct (str_eqb_spec j k) as [->|N]; cbn [negb FuncModel.assoc fst].
    - rewrite IH. destruct (str_eqb k h) eqn:E; reflexivity.
    - rewrite IH. destruct (str_eqb_spec j h) as [->|N2]; [|reflexivity]. destruct (str_eqb_spec k h); [congruence|reflexivity].
  Qed.
  Lemma recorded_assoc h (l : snaps) : recorded h l = match assoc h l with Some _ => true | None => false end.
  Proof. unfold FuncModel.recorded. induction l as [|[k v] l IH]; [reflexivity|]. cbn [existsb FuncModel.assoc fst]. now destruct (str_eqb k h). Qed.
  Lemma assoc_In h v (l : snaps) : assoc h l = Some v -> In (h, v) l.
  Proof. induction l as [|[k w] l IH]; [discriminate|]. cbn [FuncModel.assoc]. destruct (str_eqb_spec k h) as [->|]; [intros [= ->]; now left|right; auto]. Qed.
  Lemma In_assoc h v (l : snaps) : NoDup (map fst l) -> In (h, v) l -> assoc h l = Some v.
  Proof.
    induction l as [|[k w] l IH]; [easy|]. cbn [map fst FuncModel.assoc]. intros ND I. inversion ND as [|? ? NI ND']; subst.
    destruct (str_eqb_spec k h) as [->|N].
    - destruct I as [[= ->]|I]; [reflexivity|]. exfalso. apply NI. apply in_map_iff. now exists (h, v).
    - destruct I as [[= -> _]|I]; [congruence|auto].
  Qed.
  Lemma assoc_perm h (l l' : snaps) : NoDup (map fst l) -> Permutation l l' -> assoc h l = assoc h l'.
  Proof.
    intros ND P. assert (ND' : NoDup (map fst l')) by (eapply Permutation_NoDup; [apply Permutation_map; eassumption|assumption]).
    destruct (assoc h l) as [v|] eqn:E.
    - symmetry. apply In_assoc; [assumption|]. eapply Permutation_in; [eassumption|]. now apply assoc_In.
    - destruct (assoc h l') as [v|] eqn:E'; [|reflexivity]. apply assoc_In in E'. apply Permutation_sym in P.
      eapply Permutation_in in E'; [|eassumption]. apply In_assoc in E'; [congruence|assumption].
  Qed.

  Lemma NoDup_snoc (l : list str) x : NoDup l -> ~ In x l -> NoDup (l ++ [x]).
  Proof.
    intros ND NI. apply (Permutation_NoDup (l := x :: l)); [apply Permutation_cons_append|]. now constructor.
  Qed.
  Lemma NoDup_filter_fst (p : str * V -> bool) l : NoDup (map fst l) -> NoDup (map fst (filter p l)).
  Proof.
    induction l as [|e l IH]; [auto|]. cbn [map filter]. intros ND. inversion ND as [|? ? NI ND']; subst. destruct (p e); [|auto].
    cbn [map]. constructor; [|auto]. intros I. apply NI. apply in_map_iff in I. destruct I as (e' & E & I). apply filter_In in I.
    apply in_map_iff. exists e'. tauto.
  Qed.
  Lemma recorded_In h (l : snaps) : recorded h l = true <-> In h (map fst l).
  Proof.
    unfold FuncModel.recorded. rewrite existsb_exists, in_map_iff. split; intros (e & A & B).
    - apply str_eqb_eq in B. eauto.
    - exists e. split; [assumption|]. now apply str_eqb_eq.
  Qed.

  Lemma snapshot_nodup capture loaded calls h real calls' o i :
    NoDup (map fst calls) -> snapshot V X capture loaded calls h real = (calls', o, i) -> NoDup (map fst calls').
  Proof.
    intros ND. unfold snapshot. destruct (assoc h (rev loaded)) as [v|].
    - intros [= <- _ _]. destruct (recorded h calls) eqn:R; [assumption|]. rewrite map_app. apply NoDup_snoc; [assumption|].
      intros I. cbn [fst] in I. apply recorded_In in I. rewrite I in R. discriminate.
    - destruct capture; [|intros [= <- _ _]; assumption]. destruct real as [v|x]; intros [= <- _ _]; [|assumption].
      rewrite map_app. apply NoDup_snoc; [now apply NoDup_filter_fst|]. rewrite in_map_iff. intros (e & E & I). apply filter_In in I.
      destruct I as [_ I]. cbn [map fst] in E. rewrite E, str_eqb_refl in I. discriminate.
  Qed.
  Lemma run_nodup capture loaded cs : forall calls calls' os is,
    NoDup (map fst calls) -> run_calls capture loaded calls cs = (calls', os, is) -> NoDup (map fst calls').
  Proof.
    induction cs as [|[h real] cs IH]; cbn [FuncModel.run_calls]; intros calls calls' os is ND; [intros [= <- _ _]; assumption|].
    destruct (snapshot V X capture loaded calls h real) as [[c1 o] i] eqn:E.
    destruct (run_calls capture loaded c1 cs) as [[c2 os'] is'] eqn:E2. intros [= <- _ _]. eapply IH; [|eassumption].
    eapply snapshot_nodup; eassumption.
  Qed.

  (** the calls hold the last value returned for every hash *)
  Lemma run_last capture loaded cs : forall calls calls' os is h,
    (forall v, assoc h (rev loaded) = Some v -> assoc h calls = None \/ assoc h calls = Some v) ->
    run_calls capture loaded calls cs = (calls', os, is) ->
    assoc h calls' = last_value h (combine (map fst cs) os) (assoc h calls).
  Proof.
    induction cs as [|[k real] cs IH]; cbn [FuncModel.run_calls]; intros calls calls' os is h HL; [intros [= <- <- _]; reflexivity|].
    destruct (snapshot V X capture loaded calls k real) as [[c1 o] i] eqn:E.
    destruct (run_calls capture loaded c1 cs) as [[c2 os'] is'] eqn:E2. intros [= <- <- _].
    cbn [map fst combine]. unfold snapshot in E. destruct (assoc k (rev loaded)) as [v|] eqn:EA.
    - injection E as <- <- <-. cbn [last_value].
      assert (A1 : assoc h (if recorded k calls then calls else calls ++ [(k, v)]) = if str_eqb k h then Some v else assoc h calls).
      { rewrite recorded_assoc. destruct (str_eqb_spec k h) as [->|N].
        - destruct (HL v EA) as [H|H]; rewrite H; [|exact H]. rewrite assoc_app, H. cbn [FuncModel.assoc]. now rewrite str_eqb_refl.
        - destruct (assoc k calls); [reflexivity|]. rewrite assoc_app. destruct (assoc h calls); [reflexivity|]. cbn [FuncModel.assoc].
          apply str_eqb_neq in N. now rewrite N. }
      rewrite <- A1. eapply IH; [|exact E2]. intros w Hw. rewrite A1. destruct (str_eqb_spec k h) as [->|N]; [right; congruence|now apply HL].
    - destruct capture.
      + destruct real as [v|x].
        * injection E as <- <- <-. cbn [last_value].
          assert (A1 : assoc h (filter (fun e => negb (str_eqb (fst e) k)) calls ++ [(k, v)]) = if str_eqb k h then Some v else assoc h calls).
          { rewrite assoc_app, assoc_filter. destruct (str_eqb_spec k h) as [->|N]; cbn [FuncModel.assoc]; [now rewrite str_eqb_refl|].
            destruct (assoc h calls); [reflexivity|]. apply str_eqb_neq in N. now rewrite N. }
          rewrite <- A1. eapply IH; [|exact E2]. intros w Hw. rewrite A1. destruct (str_eqb_spec k h) as [->|N]; [congruence|now apply HL].
        * injection E as <- <- <-. cbn [last_value]. eapply IH; eassumption.
      + injection E as <- <- <-. cbn [last_value]. eapply IH; eassumption.
  Qed.

  Variable to_json : V -> option V.
  Lemma store_assoc calls : forall files h, store V to_json calls = Some files ->
    assoc h files = match assoc h calls with Some v => to_json v | None => None end.
  Proof.
    induction calls as [|[k v] calls IH]; cbn [store]; intros files h; [intros [= <-]; reflexivity|].
    destruct (to_json v) as [w|] eqn:E; [|discriminate]. destruct (store V to_json calls) as [s|]; [|discriminate]. intros [= <-].
    cbn [FuncModel.assoc]. destruct (str_eqb k h); [now symmetry|now apply IH].
  Qed.
  Lemma store_fst calls : forall files, store V to_json calls = Some files -> map fst files = map fst calls.
  Proof.
    induction calls as [|[k v] calls IH]; cbn [store]; intros files; [intros [= <-]; reflexivity|].
    destruct (to_json v); [|discriminate]. destruct (store V to_json calls) as [s|]; [|discriminate]. intros [= <-].
    cbn [map fst]. f_equal. now apply IH.
  Qed.

  (** a replay: every call is looked up in what was loaded *)
  Lemma replay_spec loaded cs : forall calls,
    let '(_, os, is) := run_calls false loaded calls cs in
    os = map (fun c => match assoc (fst c) (rev loaded) with Some v => Returned v | None => Missing end) cs /\
    is = map (fun _ => false) cs.
  Proof.
    induction cs as [|[h real] cs IH]; intros calls; cbn [FuncModel.run_calls]; [auto|].
    destruct (snapshot V X false loaded calls h real) as [[c1 o] i] eqn:E. specialize (IH c1).
    destruct (run_calls false loaded c1 cs) as [[c2 os] is]. destruct IH as [-> ->]. cbn [map fst].
    unfold snapshot in E. destruct (assoc h (rev loaded)); injection E as _ <- <-; auto.
  Qed.

  (** without repetition, the calls are listed in the order made, in both modes *)
  Lemma run_listed capture loaded cs : forall calls calls' os is,
    NoDup (map fst calls ++ map fst cs) -> run_calls capture loaded calls cs = (calls', os, is) ->
    (forall o, In o os -> exists v, o = Returned v) ->
    map fst calls' = map fst calls ++ map fst cs.
  Proof.
    induction cs as [|[h real] cs IH]; cbn [FuncModel.run_calls]; intros calls calls' os is ND; [intros [= <- _ _] _; cbn [map]; now rewrite app_nil_r|].
    destruct (snapshot V X capture loaded calls h real) as [[c1 o] i] eqn:E.
    destruct (run_calls capture loaded c1 cs) as [[c2 os'] is'] eqn:E2. intros [= <- <- <-] HR. cbn [map fst] in *.
    assert (NI : ~ In h (map fst calls)) by (apply NoDup_remove_2 in ND; intros I; apply ND; apply in_or_app; now left).
    assert (E1 : map fst c1 = map fst calls ++ [h]).
    { unfold snapshot in E. destruct (assoc h (rev loaded)) as [v|].
      - injection E as <- _ _. destruct (recorded h calls) eqn:R; [apply recorded_In in R; contradiction|]. now rewrite map_app.
      - destruct capture.
        + destruct real as [v|x].
          * injection E as <- _ _. rewrite map_app. cbn [map fst]. f_equal. f_equal. clear -NI. induction calls as [|[k w] calls IH]; [reflexivity|].
            cbn [map fst In filter] in *. destruct (str_eqb_spec k h) as [->|]; [tauto|]. cbn [negb]. f_equal. apply IH. tauto.
          * injection E as _ <- _. destruct (HR (Raised x)) as [v Ev]; [now left|discriminate].
        + injection E as _ <- _. destruct (HR Missing) as [v Ev]; [now left|discriminate]. }
    rewrite (IH c1 c2 os' is'); [| |assumption|intros o' Io; apply HR; now right].
    - rewrite E1, <- app_assoc. reflexivity.
    - rewrite E1, <- app_assoc. exact ND.
  Qed.
End Func.

Section Patch.
  Variable L : Type.
  Variable L_eqb : L -> L -> bool.
  Hypothesis L_eqb_eq : forall a b, L_eqb a b = true <-> a = b.
  Variable P F : Type.
  Variable place : F -> L.
  Variable itself : F -> P.
  Variable settable : L -> bool.

  Lemma put_eq (ns : names L P) l p m : put L L_eqb P ns l p m = if L_eqb m l then Some p else ns m.
  Proof. reflexivity. Qed.

  Lemma patch_ok fs : forall ns, Forall (fun fp => settable (place (fst fp)) = true) fs ->
    exists ns', patch L L_eqb P F place settable fs ns = (ns', true) /\ (forall m, (forall f, In f (map fst fs) -> m <> place f) -> ns' m = ns m).
  Proof.
    induction fs as [|[f p] fs IH]; cbn [patch]; intros ns HS; [exists ns; auto|]. inversion HS as [|? ? S1 S2]; subst. cbn [fst] in S1.
    unfold set_function. rewrite S1. destruct (IH (put L L_eqb P ns (place f) p) S2) as (ns' & E & K). exists ns'. split; [exact E|].
    intros m Hm. rewrite K by (intros g Ig; apply Hm; now right). rewrite put_eq. destruct (L_eqb m (place f)) eqn:EQ; [|reflexivity].
    apply L_eqb_eq in EQ. exfalso. apply (Hm f); [now left|exact EQ].
  Qed.
  Lemma unpatch_ok fs : forall ns, Forall (fun f => settable (place f) = true) fs ->
    exists ns', unpatch L L_eqb P F place itself settable fs ns = (ns', true) /\
      (forall m, (forall f, In f fs -> m <> place f) -> ns' m = ns m) /\
      (forall f, In f fs -> (forall g, In g fs -> place g = place f -> itself g = itself f) -> ns' (place f) = Some (itself f)).
  Proof.
    induction fs as [|f fs IH]; cbn [unpatch]; intros ns HS; [exists ns; repeat split; auto; easy|]. inversion HS as [|? ? S1 S2]; subst.
    unfold set_function. rewrite S1. destruct (IH (put L L_eqb P ns (place f) (itself f)) S2) as (ns' & E & K1 & K2). exists ns'.
    split; [exact E|]. split.
    - intros m Hm. rewrite K1 by (intros g Ig; apply Hm; now right). rewrite put_eq. destruct (L_eqb m (place f)) eqn:EQ; [|reflexivity].
      apply L_eqb_eq in EQ. exfalso. apply (Hm f); [now left|exact EQ].
    - intros g [<-|Ig] HG.
      + assert (D : (exists h, In h fs /\ place h = place f) \/ (forall h, In h fs -> place f <> place h)).
        { clear -L_eqb_eq. induction fs as [|h fs IH]; [right; easy|]. destruct (L_eqb (place h) (place f)) eqn:EQ.
          - apply L_eqb_eq in EQ. left. exists h. split; [now left|assumption].
          - destruct IH as [(h' & I & E)|N]; [left; exists h'; split; [now right|assumption]|right]. intros h' [<-|I]; [|now apply N].
            intros EE. symmetry in EE. apply L_eqb_eq in EE. congruence. }
        destruct D as [(h & Ih & Eh)|N].
        * rewrite <- Eh. rewrite K2; [f_equal; apply HG; [now right|assumption]|assumption|].
          intros g Ig Eg. rewrite (HG g), (HG h); try (now right); congruence.
        * rewrite K1 by assumption. rewrite put_eq. now rewrite (proj2 (L_eqb_eq _ _) eq_refl).
      + apply K2; [assumption|]. intros h Ih. apply HG. now right.
  Qed.
End Patch.
