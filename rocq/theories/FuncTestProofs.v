From Coq Require Import Lia Permutation.
From Verif Require Import FuncTestModel RunCaseSpec.
From Verif Require Import PyStrFacts FuncModel FuncProofs JsonModel JsonSpec JsonFacts JsonProps JsonFilesModel.
From Verif Require HttpFilesProofs.

(** ** Runs in which no call is repeated *)
Section Fresh.
  Variables V X : Type.
  Lemma run_fresh capture loaded (cs : list (str * (V + X))) : forall calls calls' os is,
    NoDup (map fst calls ++ map fst cs) -> run_calls V X capture loaded calls cs = (calls', os, is) ->
    Forall (fun o => exists v, o = Returned v) os ->
    exists vals, os = map Returned vals /\ calls' = calls ++ combine (map fst cs) vals /\
      Forall2 (fun c v => assoc V (fst c) (rev loaded) = Some v \/ snd c = inl v) cs vals.
  Proof.
    induction cs as [|[h real] cs IH]; cbn [run_calls]; intros calls calls' os is ND.
    - intros [= <- <- _] _. exists []. split; [reflexivity|]. split; [now rewrite app_nil_r|constructor].
    - destruct (snapshot V X capture loaded calls h real) as [[c1 o] i] eqn:E.
      destruct (run_calls V X capture loaded c1 cs) as [[c2 os'] is'] eqn:E2. intros [= <- <- <-] HR. cbn [map fst] in *.
      assert (NI : ~ In h (map fst calls)) by (apply NoDup_remove_2 in ND; intros I; apply ND; apply in_or_app; now left).
      assert (E1 : exists v, o = Returned v /\ c1 = calls ++ [(h, v)] /\ (assoc V h (rev loaded) = Some v \/ real = inl v)).
      { unfold snapshot in E. destruct (assoc V h (rev loaded)) as [v|] eqn:EA.
        - injection E as <- <- _. exists v. split; [reflexivity|]. split; [|now left]. destruct (recorded V h calls) eqn:R; [apply recorded_In in R; contradiction|reflexivity].
        - destruct capture.
          + destruct real as [v|x].
            * injection E as <- <- _. exists v. split; [reflexivity|]. split; [|now right]. f_equal. clear -NI. induction calls as [|[k w] calls IH]; [reflexivity|].
              cbn [map fst In filter] in *. destruct (str_eqb_spec k h) as [->|]; [tauto|]. cbn [negb]. f_equal. apply IH. tauto.
            * injection E as _ <- _. apply Forall_inv in HR as [v Ev]. discriminate.
          + injection E as _ <- _. apply Forall_inv in HR as [v Ev]. discriminate. }
      destruct E1 as (v & -> & -> & K).
      destruct (IH (calls ++ [(h, v)]) c2 os' is') as (vals & -> & -> & F); [|exact E2|exact (Forall_inv_tail HR)|].
      + rewrite map_app, <- app_assoc. exact ND.
      + exists (v :: vals). cbn [map combine]. split; [reflexivity|]. split; [now rewrite <- app_assoc|]. constructor; [exact K|exact F].
  Qed.
  Lemma replay_fresh loaded (cs : list (str * (V + X))) vals : Forall2 (fun c v => assoc V (fst c) (rev loaded) = Some v) cs vals ->
    forall calls, NoDup (map fst calls ++ map fst cs) ->
    run_calls V X false loaded calls cs = (calls ++ combine (map fst cs) vals, map Returned vals, map (fun _ => false) vals).
  Proof.
    induction 1 as [|[h real] v cs vals EA F IH]; intros calls ND; cbn [run_calls map combine fst]; [now rewrite app_nil_r|]. cbn [fst map] in *.
    assert (NI : ~ In h (map fst calls)) by (apply NoDup_remove_2 in ND; intros I; apply ND; apply in_or_app; now left).
    unfold snapshot. rewrite EA. destruct (recorded V h calls) eqn:R; [apply recorded_In in R; contradiction|].
    rewrite (IH (calls ++ [(h, v)])); [now rewrite <- app_assoc|]. rewrite map_app, <- app_assoc. exact ND.
  Qed.
End Fresh.

(** ** A file, written and read *)
Definition same_json (v : jv) : Prop := as_json v = read_back v.
Definition text_keys (d : list (jkey * jv)) : Prop := Forall (fun kv => exists s, fst kv = JKStr s) d.
Record entry_ok refloat (e : str * held) : Prop := {
  e_name : text (fst e); e_flat : ~ In SLASH (fst e); e_keys : text_keys (fst (snd e)); e_hash : dict_get (lit "hash") (fst (snd e)) = Some (JStr (fst e));
  e_call : value_ok refloat (JDict (fst (snd e))); e_writable : writable (JDict (fst (snd e))); e_same : same_json (JDict (fst (snd e)));
  e_result : value_ok refloat (snd (snd e)); e_plain : JsonSpec.plain (snd (snd e))
}.
Definition back_entry (e : str * held) : str * held := (fst e, (map (fun kv => (fst kv, as_json (snd kv))) (fst (snd e)), snd (snd e))).

Lemma as_json_keys d : text_keys d -> as_json (JDict d) = JDict (map (fun kv => (fst kv, as_json (snd kv))) d).
Proof.
  intros K. change (as_json (JDict d)) with (str_dict (map (fun kv => (key_back (fst kv), as_json (snd kv))) d)). unfold str_dict. rewrite map_map. f_equal.
  apply map_ext_in. intros [k v] I. unfold text_keys in K. rewrite Forall_forall in K. destruct (K _ I) as [s EK]. cbn [fst] in EK. subst k. reflexivity.
Qed.
Lemma dict_get_map k (f : jv -> jv) d : dict_get k (map (fun kv => (fst kv, f (snd kv))) d) = option_map f (dict_get k d).
Proof.
  induction d as [|[j v] d IH]; [reflexivity|]. cbn [map fst snd dict_get]. destruct j; try exact IH. destruct (str_eqb _ _); [reflexivity|exact IH].
Qed.
Lemma plain_json v : JsonSpec.plain v -> as_json v = v.
Proof. apply HttpFilesProofs.plain_json. Qed.

Lemma short_text s : forallb (fun c => N.ltb c 55296) s = true -> text s.
Proof. intros H. apply lit_text. rewrite forallb_forall in H. apply Forall_forall. intros c I. now apply N.ltb_lt, H. Qed.
Lemma text_call : text (lit "call").
Proof. now apply short_text. Qed.
Lemma text_result : text (lit "result").
Proof. now apply short_text. Qed.
Section Entry.
  Variables sha1 refloat : str -> str.
  Lemma held_again e : entry_ok refloat e -> held_file (snd (back_entry e)) = held_file (snd e).
  Proof.
    intros [_ _ K _ _ W _ _ P]. unfold held_file, back_entry. cbn [fst snd]. rewrite <- (as_json_keys _ K). destruct e as [h [c r]]. cbn [fst snd] in *.
    assert (WW : writable (JDict [(JKStr (lit "call"), JDict c); (JKStr (lit "result"), r)])).
    { change (fold_right (fun kv P => (fst kv <> JKOther /\ writable (snd kv)) /\ P) True [(JKStr (lit "call"), JDict c); (JKStr (lit "result"), r)]).
      apply (fold_and (fun kv => fst kv <> JKOther /\ writable (snd kv))). constructor; [split; [discriminate|exact W]|constructor; [split; [discriminate|now apply plain_writable]|constructor]]. }
    rewrite <- (dumps_as_json _ WW). rewrite (as_json_keys [(JKStr (lit "call"), JDict c); (JKStr (lit "result"), r)]); [|constructor; [eexists; reflexivity|constructor; [eexists; reflexivity|constructor]]]. cbn [map fst snd]. now rewrite (plain_json r P).
  Qed.
  Lemma held_back e : entry_ok refloat e -> exists t, held_file (snd e) = Some t /\ read_held sha1 refloat t = Some (back_entry e).
  Proof.
    intros [T _ K EH V W S VR P]. destruct e as [h [c r]]. cbn [fst snd] in *. unfold held_file. cbn [fst snd].
    set (v := JDict [(JKStr (lit "call"), JDict c); (JKStr (lit "result"), r)]).
    assert (WW : writable v).
    { change (fold_right (fun kv P => (fst kv <> JKOther /\ writable (snd kv)) /\ P) True [(JKStr (lit "call"), JDict c); (JKStr (lit "result"), r)]).
      apply (fold_and (fun kv => fst kv <> JKOther /\ writable (snd kv))). constructor; [split; [discriminate|exact W]|constructor; [split; [discriminate|now apply plain_writable]|constructor]]. }
    assert (OK : value_ok refloat v).
    { change (fold_right (fun kv P => (key_ok refloat (fst kv) /\ value_ok refloat (snd kv)) /\ P) True [(JKStr (lit "call"), JDict c); (JKStr (lit "result"), r)]).
      apply (fold_and (fun kv => key_ok refloat (fst kv) /\ value_ok refloat (snd kv))). constructor; [split; [exact text_call|exact V]|constructor; [split; [exact text_result|exact VR]|constructor]]. }
    destruct (proj1 (dumps_writable v (Some 4) 0) WW) as [t E]. exists t. split; [exact E|].
    unfold read_held. rewrite (printable_newlines t) by (eapply dumps_printable; eassumption). rewrite (loads_dumps refloat _ _ _ OK E).
    assert (EB : read_back v = JDict [(JKStr (lit "call"), read_back (JDict c)); (JKStr (lit "result"), read_back r)]).
    { unfold v. change (read_back (JDict ?d)) with (str_dict (dict_of (map (fun kv => (key_back (fst kv), read_back (snd kv))) d))) at 1. reflexivity. }
    rewrite EB. unfold field. cbn [dict_get]. change (str_eqb (lit "call") (lit "call")) with true. change (str_eqb (lit "call") (lit "result")) with false. change (str_eqb (lit "result") (lit "result")) with true.
    cbn iota. rewrite <- S, (as_json_keys _ K), (plain_back r P). rewrite dict_get_map, EH. reflexivity.
  Qed.
End Entry.

(** ** Calls that are made now, and those that were read *)
Definition fcall_ok refloat (q : fcall) : Prop :=
  let '(name, args, kwargs) := q in
  call_ok refloat name args kwargs /\ Forall same_json args /\ Forall (fun kv => same_json (snd kv)) kwargs /\ NoDup (map fst kwargs).

Lemma dict_same d : text_keys d -> NoDup (map fst d) -> Forall (fun kv => same_json (snd kv)) d -> same_json (JDict d).
Proof.
  intros K ND S. unfold same_json. change (as_json (JDict d)) with (str_dict (map (fun kv => (key_back (fst kv), as_json (snd kv))) d)).
  change (read_back (JDict d)) with (str_dict (dict_of (map (fun kv => (key_back (fst kv), read_back (snd kv))) d))).
  assert (E : map (fun kv => (key_back (fst kv), read_back (snd kv))) d = map (fun kv => (key_back (fst kv), as_json (snd kv))) d).
  { apply map_ext_in. intros kv I. rewrite Forall_forall in S. now rewrite <- (S _ I). }
  rewrite E, dict_of_nodup; [reflexivity|]. rewrite map_map. cbn [fst]. clear E S. induction d as [|[k v] d IH]; [constructor|]. cbn [map fst] in *.
  inversion K as [|? ? [s EK] K2]; subst. cbn [fst] in EK. subst k. inversion ND as [|? ? N1 N2]; subst. constructor; [|now apply IH].
  intros I. apply N1. apply in_map_iff in I as ([j w] & EQ & I). rewrite Forall_forall in K2. destruct (K2 _ I) as [s2 EJ]. cbn [fst] in EJ, EQ. subst j.
  unfold key_back in EQ. cbn [key_str] in EQ. subst s2. apply in_map_iff. exists (JKStr s, w). now split.
Qed.
Lemma list_same l : Forall same_json l -> same_json (JList l).
Proof.
  intros S. unfold same_json. change (as_json (JList l)) with (JList (map as_json l)). change (read_back (JList l)) with (JList (map read_back l)). f_equal.
  apply map_ext_in. intros v I. rewrite Forall_forall in S. now apply S.
Qed.
Lemma plain_same v : JsonSpec.plain v -> same_json v.
Proof. intros P. unfold same_json. now rewrite (plain_json v P), (plain_back v P). Qed.

Section Calls.
  Variables sha1 refloat : str -> str.
  Hypothesis sha1_ok : forall t, text (sha1 t) /\ ~ In SLASH (sha1 t).
  Lemma new_entry q h r : fcall_ok refloat q -> FuncTestModel.key_of sha1 q = Some h -> JsonSpec.plain r -> value_ok refloat r -> entry_ok refloat (h, (call_object q h, r)).
  Proof.
    intros OK EK PR VR. destruct q as [[name args] kwargs]. destruct OK as (CO & SA & SK & ND). cbn [FuncTestModel.key_of] in EK. unfold call_key in EK.
    destruct (dumps None 0 (JDict (call_entries name args kwargs))) as [t|] eqn:ED; [|discriminate]. injection EK as <-.
    assert (W : writable (JDict (call_entries name args kwargs))) by (apply (dumps_writable _ None 0); eauto).
    destruct (sha1_ok t) as [TX NS]. unfold call_object. split; cbn [fst snd].
    - exact TX.
    - exact NS.
    - unfold call_entries. repeat (constructor; [eexists; reflexivity|]). constructor.
    - reflexivity.
    - cbn [value_ok]. apply (fold_and (fun kv => key_ok refloat (fst kv) /\ value_ok refloat (snd kv))). apply Forall_app. split; [now apply call_entries_ok|].
      constructor; [|constructor]. split; [apply short_text; reflexivity|exact TX].
    - cbn [writable] in *. apply (fold_and (fun kv => fst kv <> JKOther /\ writable (snd kv))) in W. apply (fold_and (fun kv => fst kv <> JKOther /\ writable (snd kv))). apply Forall_app.
      split; [exact W|]. constructor; [|constructor]. split; [discriminate|exact I].
    - apply dict_same.
      + unfold call_entries. repeat (constructor; [eexists; reflexivity|]). constructor.
      + unfold call_entries. cbn [app map fst]. repeat constructor; cbn [In]; intuition discriminate.
      + unfold call_entries. constructor; [reflexivity|]. constructor; [now apply list_same|]. constructor; [|constructor; [reflexivity|constructor]].
        cbn [snd]. apply dict_same.
        * apply Forall_map. apply Forall_forall. intros kv _. eexists. reflexivity.
        * rewrite map_map. cbn [fst]. rewrite <- (map_map fst JKStr). apply FinFun.Injective_map_NoDup; [|exact ND]. intros a b E. now injection E.
        * apply Forall_map. exact SK.
    - exact VR.
    - exact PR.
  Qed.
  Lemma set_hash_get h d : dict_get (lit "hash") (set_hash h d) = Some (JStr h).
  Proof.
    induction d as [|[k v] d IH]; [reflexivity|]. cbn [set_hash]. destruct k; try exact IH. destruct (str_eqb s (lit "hash")) eqn:E; cbn [dict_get]; rewrite E; [reflexivity|exact IH].
  Qed.
  Lemma read_hash t h c r : read_held sha1 refloat t = Some (h, (c, r)) -> dict_get (lit "hash") c = Some (JStr h).
  Proof.
    unfold read_held. destruct (loads refloat (univ_newlines t)) as [v|]; [|discriminate]. destruct (field (lit "call") v) as [c0|]; [|discriminate]. destruct c0 as [| | | | | | |c0|]; try discriminate.
    destruct (field (lit "result") v) as [r0|]; [|discriminate]. destruct (dict_get (lit "hash") c0) as [h0|] eqn:EG.
    - destruct h0; try discriminate.
      + destruct (dumps None 0 (JDict c0)); [|discriminate]. intros [= <- <- _]. apply set_hash_get.
      + intros [= <- <- _]. exact EG.
    - destruct (dumps None 0 (JDict c0)); [|discriminate]. intros [= <- <- _]. apply set_hash_get.
  Qed.
  Lemma old_entry t h c r : read_held sha1 refloat t = Some (h, (c, r)) -> text h -> ~ In SLASH h -> JsonSpec.plain (JDict c) -> value_ok refloat (JDict c) ->
    JsonSpec.plain r -> value_ok refloat r -> entry_ok refloat (h, (c, r)).
  Proof.
    intros ER TX NS PC VC PR VR. split; cbn [fst snd]; try assumption.
    - cbn [JsonSpec.plain] in PC. destruct PC as [PC _]. apply (fold_and (fun kv => (exists s, fst kv = JKStr s) /\ JsonSpec.plain (snd kv))) in PC.
      eapply Forall_impl; [|exact PC]. intros kv [K _]. exact K.
    - now apply (read_hash t h c r).
    - now apply plain_writable.
    - now apply plain_same.
  Qed.
End Calls.

(** ** What is listed *)
Lemma all_of_perm {A B} (f : A -> option B) l l' : Permutation l l' -> forall r, all_of (map f l) = Some r -> exists r', all_of (map f l') = Some r' /\ Permutation r r'.
Proof.
  induction 1 as [|x l l' P IH|x y l|l l' l'' P1 IH1 P2 IH2]; intros r E.
  - exists r. split; [exact E|apply Permutation_refl].
  - cbn [map all_of] in *. destruct (f x) as [y|]; [|discriminate]. destruct (all_of (map f l)) as [s|]; [|discriminate]. injection E as <-.
    destruct (IH s eq_refl) as (s' & -> & P'). eexists. split; [reflexivity|now constructor].
  - cbn [map all_of] in *. destruct (f y) as [b|]; [|discriminate]. destruct (f x) as [a|]; [|discriminate]. destruct (all_of (map f l)) as [s|]; [|discriminate]. injection E as <-.
    eexists. split; [reflexivity|]. apply perm_swap.
  - destruct (IH1 r E) as (r1 & E1 & Q1). destruct (IH2 r1 E1) as (r2 & E2 & Q2). exists r2. split; [exact E2|]. now apply Permutation_trans with r1.
Qed.
Lemma all_of_eq {A B} (f g : A -> option B) l : (forall x, In x l -> f x = g x) -> all_of (map f l) = all_of (map g l).
Proof. intros H. f_equal. now apply map_ext_in. Qed.

(** the listing of the directory .functions, if [files] are the files *)
Definition lists (files : str -> option str) (listing : list (str * str)) : Prop :=
  NoDup (map fst listing) /\ forall name t, In (name, t) listing <-> ~ In SLASH name /\ files (lit ".functions/" ++ name) = Some t.

Definition file_of (e : str * held) : str := match held_file (snd e) with Some t => t | None => [] end.
Section Listing.
  Variable refloat : str -> str.
  Lemma stored_files calls files : Forall (entry_ok refloat) calls -> stored calls = Some files -> files = map (fun e : str * held => (lit ".functions/" ++ fst e ++ lit ".json", file_of e)) calls.
  Proof.
    intros OK E. unfold stored in E. apply all_of_some in E. clear OK. induction E as [|e f calls files EF E IH]; [reflexivity|]. cbn [map]. f_equal; [|exact IH].
    unfold file_of. destruct (held_file (snd e)) as [t|]; [|discriminate]. cbn [option_map] in EF. congruence.
  Qed.
  Lemma listing_is calls first listing : NoDup (map fst calls) -> Forall (entry_ok refloat) calls ->
    (forall name, last_write (lit ".functions/" ++ name) first = None) ->
    lists (fun r => last_write r (first ++ map (fun e : str * held => (lit ".functions/" ++ fst e ++ lit ".json", file_of e)) calls)) listing ->
    Permutation (map (fun e : str * held => (fst e ++ lit ".json", file_of e)) calls) listing.
  Proof.
    intros ND OK NF [NL LI].
    assert (NN : NoDup (map fst (map (fun e : str * held => (fst e ++ lit ".json", file_of e)) calls))).
    { rewrite map_map. cbn [fst]. rewrite <- (map_map fst (fun h => h ++ lit ".json")). apply FinFun.Injective_map_NoDup; [|exact ND]. intros a b E. now apply app_inv_tail in E. }
    assert (LW : forall name, last_write (lit ".functions/" ++ name) (first ++ map (fun e : str * held => (lit ".functions/" ++ fst e ++ lit ".json", file_of e)) calls)
                 = lookup name (rev (map (fun e : str * held => (fst e ++ lit ".json", file_of e)) calls))).
    { intros name. unfold last_write. rewrite rev_app_distr. specialize (NF name). unfold last_write in NF. rewrite <- !map_rev. generalize (rev calls). intros l.
      induction l as [|e l IH]; [exact NF|]. cbn [map app lookup]. destruct (str_eqb_spec (lit ".functions/" ++ name) (lit ".functions/" ++ fst e ++ lit ".json")) as [EQ|NE].
      - apply app_inv_head in EQ. rewrite EQ, str_eqb_refl. reflexivity.
      - destruct (str_eqb_spec name (fst e ++ lit ".json")) as [->|_]; [congruence|]. exact IH. }
    apply NoDup_Permutation.
    - eapply NoDup_map_inv. exact NN.
    - eapply NoDup_map_inv. exact NL.
    - intros [name t]. rewrite LI, LW. assert (LK : forall l : list (str * str), NoDup (map fst l) -> (In (name, t) l <-> lookup name l = Some t)).
      { induction l as [|[k v] l IH]; cbn [lookup map fst]; intros N; [split; [intros []|discriminate]|]. inversion N as [|? ? N1 N2]; subst. destruct (str_eqb_spec name k) as [->|NE].
        - split; [intros [E|I]; [now injection E as <-|]|intros [= <-]; now left]. exfalso. apply N1. apply in_map_iff. now exists (k, t).
        - rewrite <- (IH N2). cbn [In]. split; [intros [E|I]; [congruence|exact I]|now right]. }
      rewrite <- LK by (rewrite map_rev; now apply NoDup_rev). rewrite <- in_rev. split; [|tauto]. intros I. split; [|exact I]. apply in_map_iff in I as (e & EQ & I). injection EQ as <- _.
      rewrite in_app_iff. rewrite Forall_forall in OK. intros [J|J]; [exact (e_flat refloat e (OK e I) J)|]. revert J. vm_compute. intuition discriminate.
  Qed.
End Listing.

(** ** The test that is run again *)
Definition next_of {X} (next : list (outcome jv X) -> option fcall) (qs : list fcall) (os : list (outcome jv X)) : Prop :=
  length qs = length os /\ (forall i q, nth_error qs i = Some q -> next (firstn i os) = Some q) /\ next os = None.
Lemma next_cons {X} (next : list (outcome jv X) -> option fcall) q qs o os :
  next_of next (q :: qs) (o :: os) -> next [] = Some q /\ next_of (fun h => next (o :: h)) qs os.
Proof.
  intros (L & N & E). split; [exact (N 0 q eq_refl)|]. split; [now injection L|]. split; [|exact E]. intros i p I. exact (N (S i) p I).
Qed.
Lemma cons_next {X} (next : list (outcome jv X) -> option fcall) q qs o os :
  next [] = Some q -> next_of (fun h => next (o :: h)) qs os -> next_of next (q :: qs) (o :: os).
Proof.
  intros Q (L & N & E). split; [cbn; now rewrite L|]. split; [|exact E]. intros [|i] p I; [now injection I as <-|]. exact (N i p I).
Qed.
Lemma one_calling {X} (look : fcall -> outcome jv X) qs : forall next os qs' os',
  next_of next qs os -> next_of next qs' os' -> os = map look qs -> os' = map look qs' -> qs = qs'.
Proof.
  induction qs as [|q qs IH]; intros next os qs' os' C C' -> ->.
  - destruct qs' as [|q' qs']; [reflexivity|]. destruct C as (_ & _ & E). apply next_cons in C' as [N _]. cbn in E. congruence.
  - destruct qs' as [|q' qs'].
    + destruct C' as (_ & _ & E). apply next_cons in C as [N _]. cbn in E. congruence.
    + cbn [map] in *. apply next_cons in C as [N C]. apply next_cons in C' as [N' C']. assert (q = q') by congruence. subst q'. f_equal. eapply IH; [exact C|exact C'|reflexivity|reflexivity].
Qed.
Lemma calls_alike {X} (same : fcall -> fcall -> Prop) qs : forall (next next' : list (outcome jv X) -> option fcall) os,
  (forall h, match next h, next' h with None, None => True | Some q, Some q' => same q q' | _, _ => False end) ->
  next_of next qs os -> exists qs', next_of next' qs' os /\ Forall2 same qs qs'.
Proof.
  induction qs as [|q qs IH]; intros next next' os AL C.
  - exists []. split; [|constructor]. destruct C as (L & _ & E). destruct os; [|discriminate]. split; [reflexivity|]. split; [intros [|i] p I; discriminate|].
    specialize (AL []). rewrite E in AL. destruct (next' []); [contradiction|reflexivity].
  - destruct os as [|o os]; [destruct C; discriminate|]. apply next_cons in C as [N C].
    destruct (IH (fun h => next (o :: h)) (fun h => next' (o :: h)) os) as (qs' & C' & F); [intros h; apply AL|exact C|].
    pose proof (AL []) as A0. rewrite N in A0. destruct (next' []) as [q'|] eqn:N'; [|contradiction]. exists (q' :: qs'). split; [now apply cons_next|now constructor].
Qed.

Section Again.
  Variables sha1 refloat : str -> str.
  Variable X : Type.
  Hypothesis sha1_ok : forall t, text (sha1 t) /\ ~ In SLASH (sha1 t).
  Notation func_run := (func_run sha1 refloat X).
  Notation key_of := (FuncTestModel.key_of sha1).
  Notation hashed := (FuncTestModel.hashed sha1 X).

  Lemma hashed_keys cs : forall ks, all_of (map hashed cs) = Some ks -> map Some (map fst ks) = map (fun c => key_of (fst c)) cs.
  Proof.
    intros ks E. apply all_of_some in E. induction E as [|c k cs ks H E IH]; [reflexivity|]. cbn [map]. rewrite IH. f_equal. unfold FuncTestModel.hashed in H.
    destruct (key_of (fst c)) as [h|]; [|discriminate]. cbn [option_map] in H. now injection H as <-.
  Qed.
  Lemma hashed_some cs : forall hs, map Some hs = map (fun c => key_of (fst c)) cs -> exists ks, all_of (map hashed cs) = Some ks /\ map fst ks = hs.
  Proof.
    induction cs as [|c cs IH]; intros [|h hs] E; try discriminate; [exists []; now split|]. cbn [map] in E. injection E as E1 E2. destruct (IH hs E2) as (ks & EK & <-).
    cbn [map all_of]. assert (HC : exists k, hashed c = Some k /\ fst k = h) by (unfold FuncTestModel.hashed; rewrite <- E1; eexists; split; reflexivity).
    destruct HC as (k & -> & <-). rewrite EK. eexists. split; reflexivity.
  Qed.
  Lemma map_some_inj {A} (l l' : list A) : map Some l = map Some l' -> l = l'.
  Proof. revert l'. induction l as [|a l IH]; intros [|b l'] E; try discriminate; [reflexivity|]. cbn in E. injection E as -> E. f_equal. auto. Qed.

  Variables (capture refresh : bool) (listing listing' : list (str * str)) (T T' : func_test X) (cs : list (fcall * (jv + X))) (os : list (outcome jv X)) (b : body_run) (used : list bool).
  Hypothesis earlier_ok : forall loaded, read_all sha1 refloat refresh listing = Some loaded -> forall h c r, In (h, (c, r)) loaded ->
    text h /\ ~ In SLASH h /\ JsonSpec.plain (JDict c) /\ value_ok refloat (JDict c) /\ JsonSpec.plain r /\ value_ok refloat r.
  Hypothesis calls_ok : forall q r, In (q, r) cs -> fcall_ok refloat q /\ forall v, r = inl v -> JsonSpec.plain v /\ value_ok refloat v.
  Hypothesis returned : Forall (fun o => exists r, o = Returned r) os.
  Hypothesis once : NoDup (map (fun c => key_of (fst c)) cs).
  Hypothesis own_files : forall name, last_write (lit ".functions/" ++ name) (b_files (f_does T os)) = None.
  Hypothesis alike : forall h, f_does T' h = f_does T h /\
    match f_next T h, f_next T' h with None, None => True | Some q, Some q' => key_of q = key_of q' | _, _ => False end.
  Hypothesis listed : lists (fun r => last_write r (b_files b)) listing'.

  Lemma func_again : func_run capture refresh listing T cs os b used ->
    (exists qs, forall cs', map fst cs' = qs -> exists used', func_run false false listing' T' cs' os b used') /\
    forall cs' os' b' used', func_run false false listing' T' cs' os' b' used' ->
      b' = b /\ os' = os /\ Forall (fun u => u = false) used' /\ Forall2 (fun c c' => key_of (fst c) = key_of (fst c')) cs cs'.
  Proof.
    intros (loaded & ks & calls & hos & lines & files & EL & EK & ER & EO & EC & LN & SF & EB).
    pose proof (hashed_keys cs ks EK) as HK.
    assert (NK : NoDup (map fst ks)) by (rewrite <- HK in once; eapply NoDup_map_inv; exact once).
    assert (HR : Forall (fun o => exists v, o = Returned v) hos).
    { rewrite EO in returned. clear - returned. induction hos as [|o l IH]; [constructor|]. inversion returned as [|? ? [r R] R2]; subst. constructor; [|now apply IH].
      destruct o as [v| |x]; [now exists v|discriminate|discriminate]. }
    destruct (run_fresh held X capture loaded ks [] calls hos used) as (vals & EH & ECA & F2); [exact NK|exact ER|exact HR|]. cbn [app] in ECA.
    assert (LV : length (map fst ks) = length vals) by (rewrite map_length; clear - F2; induction F2; cbn [length]; congruence).
    assert (KC : map fst calls = map fst ks).
    { rewrite ECA. clear - LV. revert vals LV. induction (map fst ks) as [|h l IH]; intros [|v vals] L; try discriminate; [reflexivity|]. cbn. f_equal. apply IH. now injection L. }
    (* every snapshot can be written and read *)
    assert (OK : Forall (entry_ok refloat) calls).
    { rewrite ECA. assert (OKL : forall h v, assoc held h (rev loaded) = Some v -> entry_ok refloat (h, v)).
      { intros h [c r] A. apply assoc_In in A. apply in_rev in A. destruct (earlier_ok loaded EL h c r A) as (H1 & H2 & H3 & H4 & H5 & H6).
        unfold read_all in EL. destruct refresh; [apply BytesFacts.some_inv in EL; subst loaded; destruct A|]. apply all_of_some in EL.
        assert (exists t, read_held sha1 refloat t = Some (h, (c, r))) as [t RT]; [|now apply (old_entry sha1 refloat t)].
        clear - EL A. induction EL as [|t e l l' E EL IH]; [destruct A|]. destruct A as [->|A]; [now exists t|now apply IH]. }
      apply all_of_some in EK. clear - sha1_ok EK F2 OKL calls_ok. revert vals F2. induction EK as [|c k cs ks HK EK IH]; intros vals F2; inversion F2 as [|? v ? vals' K F3]; subst; [constructor|].
      cbn [map combine]. constructor; [|apply IH; [intros q r I; apply calls_ok; now right|exact F3]].
      destruct K as [K|K]; [now apply OKL|]. destruct c as [q r]. destruct (calls_ok q r (or_introl eq_refl)) as [QO VO]. unfold FuncTestModel.hashed in HK. cbn [fst snd] in HK.
      destruct (key_of q) as [h|] eqn:EQ; [|discriminate]. cbn [option_map] in HK. apply BytesFacts.some_inv in HK. subst k. cbn [fst snd] in *. destruct r as [v0|x]; [|discriminate].
      injection K as <-. destruct (VO v0 eq_refl) as [P V]. now apply (new_entry sha1 refloat sha1_ok q h v0). }
    (* the listing has their files *)
    assert (EF : files = map (fun e : str * held => (lit ".functions/" ++ fst e ++ lit ".json", file_of e)) calls) by (now apply (stored_files refloat)).
    assert (PL : Permutation (map (fun e : str * held => (fst e ++ lit ".json", file_of e)) calls) listing').
    { apply (listing_is refloat calls (b_files (f_does T os))); [now rewrite KC|exact OK|exact own_files|]. rewrite <- EF. rewrite EB in listed. exact listed. }
    assert (RD : all_of (map (read_held sha1 refloat) (map snd (map (fun e : str * held => (fst e ++ lit ".json", file_of e)) calls))) = Some (map back_entry calls)).
    { rewrite !map_map. cbn [snd]. clear - OK. induction OK as [|e calls E OK IH]; [reflexivity|]. cbn [map all_of].
      destruct (held_back sha1 refloat e E) as (t & HF & R). unfold file_of at 1. rewrite HF, R, IH. reflexivity. }
    rewrite map_map in RD. destruct (all_of_perm (fun x : str * str => read_held sha1 refloat (snd x)) _ _ PL _ RD) as (loaded' & RD' & PB).
    assert (EL' : read_all sha1 refloat false listing' = Some loaded') by (unfold read_all; rewrite map_map; exact RD').
    assert (NB : NoDup (map fst (map back_entry calls))) by (rewrite map_map; cbn [back_entry fst]; change (map (fun e : str * held => fst e) calls) with (map fst calls); now rewrite KC).
    assert (BC : map back_entry calls = combine (map fst ks) (map (fun v => snd (back_entry ([], v))) vals)).
    { rewrite ECA. clear. revert vals. induction (map fst ks) as [|h l IH]; intros [|v vals]; [reflexivity..|]. cbn [combine map]. f_equal. apply IH. }
    assert (REP : forall ks', map fst ks' = map fst ks -> run_calls held X false loaded' [] ks' =
      (map back_entry calls, map Returned (map (fun v => snd (back_entry ([], v))) vals), map (fun _ => false) vals)).
    { intros ks' E'. assert (N' : NoDup (map fst ks')) by (now rewrite E'). pose proof (replay_fresh held X loaded' ks' (map (fun v => snd (back_entry ([], v))) vals)) as RF.
      rewrite (RF) with (calls := []); [|clear RF|exact N'].
      - cbn [app]. rewrite E', <- BC. f_equal. now rewrite map_map.
      - assert (AS : forall h v, In (h, v) (map back_entry calls) -> assoc held h (rev loaded') = Some v).
        { intros h v I. rewrite (assoc_perm held h _ (map back_entry calls)); [now apply In_assoc| |].
          - rewrite map_rev. apply NoDup_rev. eapply Permutation_NoDup; [apply Permutation_map; exact PB|exact NB].
          - apply Permutation_sym. eapply Permutation_trans; [exact PB|apply Permutation_rev]. }
        rewrite BC in AS. rewrite <- E' in AS, LV. clear - AS LV. revert vals AS LV. induction ks' as [|k ks' IH]; intros [|v vals] AS LV; try discriminate; [constructor|]. cbn [map combine] in *.
        constructor; [apply AS; now left|]. apply IH; [intros h w I; apply AS; now right|now injection LV]. }
    assert (RS : map (result_of X) (map Returned (map (fun v => snd (back_entry ([], v))) vals)) = os).
    { rewrite EO, EH, !map_map. reflexivity. }
    assert (LN' : listed_lines (map back_entry calls) = Some lines).
    { rewrite <- LN. unfold listed_lines. rewrite map_map. apply all_of_eq. intros e _. cbn [back_entry fst snd]. rewrite dict_get_map. destruct (dict_get (lit "func") (fst (snd e))) as [v|]; [|reflexivity].
      cbn [option_map]. now destruct v. }
    assert (SF' : stored (map back_entry calls) = Some files).
    { rewrite <- SF. unfold stored. rewrite map_map. apply all_of_eq. intros e I. rewrite Forall_forall in OK. rewrite (held_again refloat e (OK e I)). reflexivity. }
    destruct (calls_alike (fun q q' => key_of q = key_of q') (map fst cs) (f_next T) (f_next T') os (fun h => proj2 (alike h)) EC) as (qs & CQ & FQ).
    assert (KQ : forall cs', map fst cs' = qs -> exists ks', all_of (map hashed cs') = Some ks' /\ map fst ks' = map fst ks).
    { intros cs' EQ. apply hashed_some. rewrite HK. rewrite <- (map_map fst key_of cs'), EQ. rewrite <- (map_map fst key_of cs). clear - FQ. induction FQ as [|q q' l l' E F IH]; [reflexivity|]. cbn [map]. now rewrite E, IH. }
    assert (BB : b = with_calls (f_does T' os) lines files) by (rewrite (proj1 (alike os)); exact EB).
    split.
    - exists qs. intros cs' EQ. destruct (KQ cs' EQ) as (ks' & EK' & KK). exists (map (fun _ => false) vals). exists loaded', ks'. do 4 eexists.
      split; [exact EL'|]. split; [exact EK'|]. split; [apply REP; exact KK|]. split; [now symmetry|]. split; [rewrite EQ; exact CQ|]. split; [exact LN'|]. split; [exact SF'|exact BB].
    - intros cs' os' b' used' (loaded2 & ks' & calls' & hos' & lines' & files' & EL2 & EK' & ER' & EO' & EC' & LN2 & SF2 & EB'). rewrite EL' in EL2. injection EL2 as <-.
      set (look := fun q => match key_of q with Some h => result_of X (match assoc held h (rev loaded') with Some v => Returned v | None => Missing end) | None => Missing end).
      assert (LK : forall cs1 ks1 calls1 hos1 used1, all_of (map hashed cs1) = Some ks1 -> run_calls held X false loaded' [] ks1 = (calls1, hos1, used1) ->
        map (result_of X) hos1 = map look (map fst cs1)).
      { intros cs1 ks1 calls1 hos1 used1 K1 R1. pose proof (replay_spec held X loaded' ks1 []) as RS1. rewrite R1 in RS1. destruct RS1 as [-> _]. pose proof (hashed_keys cs1 ks1 K1) as HK1. rewrite !map_map.
        clear - HK1. revert ks1 HK1. induction cs1 as [|c cs1 IH]; intros [|k ks1] HK1; try discriminate; [reflexivity|]. cbn [map] in HK1. injection HK1 as H1 H2. cbn [map]. f_equal; [|now apply IH].
        unfold look. rewrite <- H1. reflexivity. }
      assert (QQ : qs = map fst cs').
      { assert (exists cs1 : list (fcall * (jv + X)), map fst cs1 = qs) as [cs1 E1].
        { clear - FQ. revert qs FQ. induction cs as [|c l IH]; intros qs FQ; cbn [map] in FQ; inversion FQ as [|? q ? qs' E F]; subst; [now exists []|]. destruct (IH _ F) as [cs1 <-]. now exists ((q, snd c) :: cs1). }
        destruct (KQ cs1 E1) as (ks1 & EK1 & KK1). pose proof (LK cs1 ks1 _ _ _ EK1 (REP ks1 KK1)) as L1. rewrite RS, E1 in L1. pose proof (LK cs' ks' _ _ _ EK' ER') as L2. rewrite <- EO' in L2.
        exact (one_calling look qs (f_next T') os (map fst cs') os' CQ EC' L1 L2). }
      destruct (KQ cs' (eq_sym QQ)) as (ks2 & EK2 & KK). rewrite EK' in EK2. apply BytesFacts.some_inv in EK2. subst ks2. rewrite (REP ks' KK) in ER'.
      assert (calls' = map back_entry calls /\ hos' = map Returned (map (fun v => snd (back_entry ([], v))) vals) /\ used' = map (fun _ => false) vals) as (-> & -> & ->) by (repeat split; congruence).
      rewrite RS in EO'. subst os'. rewrite LN' in LN2. apply BytesFacts.some_inv in LN2. subst lines'. rewrite SF' in SF2. apply BytesFacts.some_inv in SF2. subst files'.
      split; [now rewrite EB', BB|]. split; [reflexivity|]. split; [clear; induction vals; constructor; auto|].
      clear - FQ QQ. subst qs. revert cs' FQ. induction cs as [|c l IH]; intros [|c' cs'] FQ; cbn [map] in FQ; inversion FQ; subst; constructor; auto.
  Qed.
End Again.
