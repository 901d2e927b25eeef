(** C92-C94: the JSON files of recorded values. *)
From Verif Require Import PyStrFacts JsonFacts JsonFilesModel.
From Verif Require FuncModel FuncProofs FuncProps EnvModel.
From Coq Require Import Lia Permutation.

(** ** C92 *)

(** A file of JSON data is written, and reads back as the same data. *)
Theorem C92_json_data refloat v ind : plain v -> value_ok refloat v ->
  exists file, dumps ind 0 v = Some file /\ loads refloat (univ_newlines file) = Some v.
Proof.
  intros P OK. destruct (proj1 (dumps_writable v ind 0) (plain_writable v P)) as [t E]. exists t. split; [exact E|].
  rewrite (printable_newlines t) by (eapply dumps_printable; eassumption). rewrite (loads_dumps refloat v ind t OK E). now rewrite plain_back.
Qed.
Print Assumptions C92_json_data.

(** Other values: exactly the writable ones are written; tuples come back as lists and keys as texts, and what comes back is
    JSON data, so that from then on nothing changes. *)
Theorem C92_other_values refloat v ind : value_ok refloat v ->
  (~ writable v -> dumps ind 0 v = None) /\
  (writable v -> exists file, dumps ind 0 v = Some file /\ loads refloat (univ_newlines file) = Some (read_back v) /\ plain (read_back v)).
Proof.
  intros OK. split.
  - intros W. destruct (dumps ind 0 v) as [t|] eqn:E; [|reflexivity]. exfalso. apply W. apply (dumps_writable v ind 0). eauto.
  - intros W. destruct (proj1 (dumps_writable v ind 0) W) as [t E]. exists t. split; [exact E|].
    rewrite (printable_newlines t) by (eapply dumps_printable; eassumption). split; [now apply (loads_dumps refloat v ind)|].
    destruct (read_back_plain v); [assumption|contradiction].
Qed.
Print Assumptions C92_other_values.

(** The files are printable ASCII and line ends, whatever the values contain: the encoding of the platform does not matter. *)
Theorem C92_ascii refloat v ind file : value_ok refloat v -> dumps ind 0 v = Some file ->
  Forall (fun c => c = NL \/ (32 <= c <= 126)%N) file.
Proof. intros OK E. exact (dumps_printable refloat v OK ind 0 file E). Qed.
Print Assumptions C92_ascii.

(** A snapshot file of a function call. *)
Definition call_ok refloat (name : str) (args : list jv) (kwargs : list (str * jv)) : Prop :=
  text name /\ Forall (value_ok refloat) args /\ Forall (fun kv => text (fst kv) /\ value_ok refloat (snd kv)) kwargs.
Lemma lit_text s : Forall (fun c => (c < 55296)%N) s -> text s.
Proof.
  intros H. split; [eapply Forall_impl; [|exact H]; cbn; intros; lia|]. induction H as [|c r HC HR IHR]; [exact I|]. split; [|exact IHR].
  destruct r as [|d r]; [exact I|]. intros [HH _]. unfold is_high in HH. apply andb_true_iff in HH. destruct HH as [HH _]. apply N.leb_le in HH. lia.
Qed.
Ltac lit_text := apply lit_text; vm_compute; repeat constructor.
Lemma call_entries_ok refloat name args kwargs : call_ok refloat name args kwargs ->
  Forall (fun kv => key_ok refloat (fst kv) /\ value_ok refloat (snd kv)) (call_entries name args kwargs).
Proof.
  intros (T & A & K). unfold call_entries. repeat (constructor; [split; [cbn [fst key_ok]; lit_text|cbn [snd value_ok]]|]); [exact T|now apply fold_and| |constructor].
  apply (fold_and (fun kv => key_ok refloat (fst kv) /\ value_ok refloat (snd kv))). apply Forall_map. eapply Forall_impl; [|exact K]. now intros [].
Qed.
Theorem C92_function_file sha1 refloat s :
  call_ok refloat (sn_name s) (sn_args s) (sn_kwargs s) -> text (sn_hash s) -> value_ok refloat (sn_result s) ->
  (Forall writable (sn_args s) /\ Forall (fun kv => writable (snd kv)) (sn_kwargs s) /\ writable (sn_result s) ->
   exists file, snapped_file s = Some file /\ read_snapped sha1 refloat file = Some (sn_hash s, read_back (sn_result s))) /\
  (~ writable (sn_result s) -> snapped_file s = None).
Proof.
  intros OKC OKH OKR.
  assert (OK : value_ok refloat (snapped_object s)).
  { unfold snapped_object. cbn [value_ok]. apply (fold_and (fun kv => key_ok refloat (fst kv) /\ value_ok refloat (snd kv))).
    constructor; [split; [cbn [fst key_ok]; lit_text|cbn [snd value_ok]]|constructor; [split; [cbn [fst key_ok]; lit_text|exact OKR]|constructor]].
    apply (fold_and (fun kv => key_ok refloat (fst kv) /\ value_ok refloat (snd kv))). apply Forall_app. split; [now apply call_entries_ok|].
    constructor; [|constructor]. split; [cbn [fst key_ok]; lit_text|exact OKH]. }
  split.
  - intros (WA & WK & WR).
    assert (W : writable (snapped_object s)).
    { unfold snapped_object, call_entries. cbn [app writable fold_right fst snd]. repeat split; try discriminate; [now apply fold_and| |exact WR].
      apply (fold_and (fun kv => fst kv <> JKOther /\ writable (snd kv))). apply Forall_map. eapply Forall_impl; [|exact WK]. cbn [fst snd]. intros; split; [discriminate|assumption]. }
    destruct (proj1 (dumps_writable _ (Some 4) 0) W) as [file E]. exists file. split; [exact E|].
    unfold read_snapped. rewrite (printable_newlines file) by (eapply dumps_printable; eassumption). rewrite (loads_dumps refloat _ _ _ OK E).
    unfold snapped_object, call_entries. cbn [app].
    change (read_back (JDict ?d)) with (str_dict (dict_of (map (fun kv => (key_back (fst kv), read_back (snd kv))) d))). cbn [map fst snd].
    change (read_back (JDict [(JKStr (lit "func"), JStr (sn_name s)); (JKStr (lit "args"), JList (sn_args s));
      (JKStr (lit "kwargs"), JDict (map (fun kv => (JKStr (fst kv), snd kv)) (sn_kwargs s))); (JKStr (lit "hash"), JStr (sn_hash s))]))
      with (str_dict (dict_of [(lit "func", read_back (JStr (sn_name s))); (lit "args", read_back (JList (sn_args s)));
        (lit "kwargs", read_back (JDict (map (fun kv => (JKStr (fst kv), snd kv)) (sn_kwargs s)))); (lit "hash", JStr (sn_hash s))])).
    reflexivity.
  - intros NW. unfold snapped_file. destruct (dumps (Some 4) 0 (snapped_object s)) as [t|] eqn:E; [|reflexivity]. exfalso. apply NW.
    assert (W : writable (snapped_object s)) by (apply (dumps_writable _ (Some 4) 0); eauto). unfold snapped_object in W. cbn [writable fold_right snd] in W. tauto.
Qed.
Print Assumptions C92_function_file.

(** The file of environment variables: names are distinct; variables that are not set are null. *)
Theorem C92_env_file refloat d : NoDup (map fst d) -> Forall (fun nv => text (fst nv) /\ forall v, snd nv = Some v -> text v) d ->
  exists file, env_file d = Some file /\ read_env refloat file = Some d.
Proof.
  intros ND T. set (v := JDict (map (fun nv => (JKStr (fst nv), env_value (snd nv))) d)).
  assert (P : plain v).
  { unfold v. cbn [plain]. split.
    - apply (fold_and (fun kv => (exists s, fst kv = JKStr s) /\ plain (snd kv))). apply Forall_map. apply Forall_forall. intros [n [x|]] _; cbn; eauto.
    - rewrite map_map. cbn [fst]. rewrite <- (map_map fst JKStr). apply FinFun.Injective_map_NoDup; [|exact ND]. intros a b E. now injection E. }
  assert (OK : value_ok refloat v).
  { unfold v. cbn [value_ok]. apply (fold_and (fun kv => key_ok refloat (fst kv) /\ value_ok refloat (snd kv))). apply Forall_map. eapply Forall_impl; [|exact T].
    intros [n [x|]] [TN TV]; cbn [fst snd key_ok env_value value_ok] in *; split; auto. }
  destruct (C92_json_data refloat v (Some 4) P OK) as (file & E & R). exists file. split; [exact E|]. unfold read_env. rewrite R. unfold v.
  rewrite map_map. clear. induction d as [|[n [x|]] d IH]; [reflexivity| |]; cbn [map fst snd env_value all_of]; now rewrite IH.
Qed.
Print Assumptions C92_env_file.

(** Capture and replay of function calls through the files. [calls_of] is what was called for a key; a file per call is written
    at the end of the capture, the directory is listed in any order, every file is read. *)
Definition to_file (call_of : str -> str * list jv * list (str * jv)) (c : str * jv) : option str :=
  let '(name, args, kwargs) := call_of (fst c) in
  snapped_file {| sn_name := name; sn_args := args; sn_kwargs := kwargs; sn_hash := fst c; sn_result := snd c |}.
Theorem C92_replay (X : Type) sha1 refloat call_of files refresh complete cs calls os is texts listing loaded cs' :
  FuncModel.run_calls jv X (FuncModel.capturing refresh complete) (FuncModel.load jv files refresh) [] cs = (calls, os, is) ->
  (forall h v, In (h, v) calls -> let '(name, args, kwargs) := call_of h in
     call_ok refloat name args kwargs /\ Forall writable args /\ Forall (fun kv => writable (snd kv)) kwargs /\ text h /\ value_ok refloat v) ->
  all_of (map (to_file call_of) calls) = Some texts ->
  Permutation texts listing ->
  all_of (map (read_snapped sha1 refloat) listing) = Some loaded ->
  let '(_, os', is') := FuncModel.run_calls jv X (FuncModel.capturing false false) (FuncModel.load jv loaded false) [] cs' in
  Forall (fun i => i = false) is' /\
  Forall2 (fun c o =>
    (forall pre v post, combine (map fst cs) os = pre ++ (fst c, FuncModel.Returned v) :: post -> (forall v', ~ In (fst c, FuncModel.Returned v') post) ->
       o = FuncModel.Returned (read_back v)) /\
    ((forall v, ~ In (fst c, FuncModel.Returned v) (combine (map fst cs) os)) -> o = FuncModel.Missing)) cs' os'.
Proof.
  intros RC OK AF PM AL.
  assert (TR : Forall2 (fun c t => to_file call_of c = Some t) calls texts) by (now apply all_of_some).
  assert (RD : Forall2 (fun c t => read_snapped sha1 refloat t = Some (fst c, read_back (snd c))) calls texts).
  { clear RC AF PM AL. induction TR as [|[h v] t calls texts E TR IH]; [constructor|]. constructor; [|apply IH; intros; apply OK; now right].
    specialize (OK h v (or_introl eq_refl)). unfold to_file in E. cbn [fst snd] in *. destruct (call_of h) as [[name args] kwargs]. destruct OK as (OC & WA & WK & TH & OV).
    destruct (C92_function_file sha1 refloat {| sn_name := name; sn_args := args; sn_kwargs := kwargs; sn_hash := h; sn_result := v |} OC TH OV) as [F1 F2].
    assert (WV : writable v).
    { assert (W : exists x, dumps (Some 4) 0 (snapped_object {| sn_name := name; sn_args := args; sn_kwargs := kwargs; sn_hash := h; sn_result := v |}) = Some x) by (exists t; exact E).
      apply dumps_writable in W. unfold snapped_object in W. cbn [writable fold_right snd sn_result] in W. tauto. }
    destruct (F1 (conj WA (conj WK WV))) as (file & E2 & R). rewrite E in E2. injection E2 as ->. exact R. }
  assert (ST : FuncModel.store jv (fun v => Some (read_back v)) calls = Some (map (fun c => (fst c, read_back (snd c))) calls)).
  { clear. induction calls as [|[h v] calls IH]; [reflexivity|]. cbn [FuncModel.store map fst snd]. now rewrite IH. }
  assert (PL : Permutation (map (fun c => (fst c, read_back (snd c))) calls) loaded).
  { assert (E : map (fun t => read_snapped sha1 refloat t) texts = map Some (map (fun c => (fst c, read_back (snd c))) calls)).
    { clear - RD. induction RD as [|c t calls texts E RD IH]; [reflexivity|]. cbn [map]. now rewrite E, IH. }
    assert (E2 : map (fun t => read_snapped sha1 refloat t) listing = map Some loaded).
    { apply all_of_some in AL. clear - AL. induction AL as [|t l listing loaded E AL IH]; [reflexivity|]. cbn [map]. now rewrite E, IH. }
    assert (P2 : Permutation (map Some (map (fun c => (fst c, read_back (snd c))) calls)) (map Some loaded)) by (rewrite <- E, <- E2; now apply Permutation_map).
    destruct (Permutation_map_inv Some _ P2) as (l3 & E3 & P3).
    assert (E4 : map (fun c => (fst c, read_back (snd c))) calls = l3); [|rewrite E4; now apply Permutation_sym].
    clear - E3. revert l3 E3. generalize (map (fun c => (fst c, read_back (snd c))) calls).
    intros l. induction l as [|a l IH]; intros [|b l3] E; try discriminate; [reflexivity|]. cbn [map] in E. injection E as -> E. f_equal. auto. }
  pose proof (FuncProps.C42_partial jv X (fun v => Some (read_back v)) files refresh complete cs calls os is _ loaded cs' RC ST PL) as H.
  destruct (FuncModel.run_calls jv X (FuncModel.capturing false false) (FuncModel.load jv loaded false) [] cs') as [[c' os'] is'].
  destruct H as [H1 H2]. split; [exact H1|]. clear - H2. induction H2 as [|c o cs' os' [A B] H2 IH]; constructor; [|exact IH]. split; [|exact B].
  intros pre v post E NP. destruct (A pre v post E NP) as (w & EW & ->). injection EW as <-. reflexivity.
Qed.
Print Assumptions C92_replay.

(** ** C93: the key of a function call. The two calls have the same key iff the name is the same and the arguments show the
    same JSON: tuples as lists, keys as texts; keyword arguments in the same order. (SHA-1 tells the two texts apart.) *)
Theorem C93_call_key sha1 refloat f args kwargs g args' kwargs' :
  call_ok refloat f args kwargs -> call_ok refloat g args' kwargs' ->
  Forall writable args -> Forall (fun kv => writable (snd kv)) kwargs ->
  (forall a b, dumps None 0 (JDict (call_entries f args kwargs)) = Some a -> dumps None 0 (JDict (call_entries g args' kwargs')) = Some b -> sha1 a = sha1 b -> a = b) ->
  (call_key sha1 f args kwargs = call_key sha1 g args' kwargs' <->
   f = g /\ map as_json args = map as_json args' /\ map (fun kv => (fst kv, as_json (snd kv))) kwargs = map (fun kv => (fst kv, as_json (snd kv))) kwargs' /\
   Forall writable args' /\ Forall (fun kv => writable (snd kv)) kwargs').
Proof.
  intros O1 O2 WA WK INJ. unfold call_key.
  assert (OK : forall n a k, call_ok refloat n a k -> value_ok refloat (JDict (call_entries n a k))).
  { intros n a k H. cbn [value_ok]. apply (fold_and (fun kv => key_ok refloat (fst kv) /\ value_ok refloat (snd kv))). now apply call_entries_ok. }
  assert (W : forall n a k, writable (JDict (call_entries n a k)) <-> Forall writable a /\ Forall (fun kv : str * jv => writable (snd kv)) k).
  { intros n a k. unfold call_entries. cbn [writable fold_right fst snd]. rewrite fold_and, (fold_and (fun kv => fst kv <> JKOther /\ writable (snd kv))), Forall_map. cbn [fst snd].
    assert (E : Forall (fun x : str * jv => JKStr (fst x) <> JKOther /\ writable (snd x)) k <-> Forall (fun kv : str * jv => writable (snd kv)) k).
    { split; intros H; (eapply Forall_impl; [|exact H]); cbn beta; [now intros p []|]. intros p Hp. split; [discriminate|exact Hp]. }
    rewrite E. intuition discriminate. }
  pose proof (dumps_equal refloat _ _ None 0 (OK f args kwargs O1) (OK g args' kwargs' O2) (proj2 (W f args kwargs) (conj WA WK))) as EQ.
  rewrite W in EQ.
  assert (AJ : as_json (JDict (call_entries f args kwargs)) = as_json (JDict (call_entries g args' kwargs')) <->
    f = g /\ map as_json args = map as_json args' /\ map (fun kv => (fst kv, as_json (snd kv))) kwargs = map (fun kv => (fst kv, as_json (snd kv))) kwargs').
  { assert (D : forall n a k, as_json (JDict (call_entries n a k)) =
      JDict [(JKStr (lit "func"), JStr n); (JKStr (lit "args"), JList (map as_json a));
             (JKStr (lit "kwargs"), JDict (map (fun p : str * jv => (JKStr (fst p), snd p)) (map (fun kv => (fst kv, as_json (snd kv))) k)))]).
    { intros n a k. unfold as_json, call_entries. cbn [back map fst snd str_dict]. unfold str_dict. cbn [map fst snd]. rewrite !map_map. reflexivity. }
    rewrite !D. split.
    - intros E. injection E as -> EA EK. split; [reflexivity|]. split; [exact EA|].
      revert EK. generalize (map (fun kv => (fst kv, as_json (snd kv))) kwargs) (map (fun kv => (fst kv, as_json (snd kv))) kwargs'). clear.
      intros l. induction l as [|[k v] l IH]; intros [|[j w] m] E; try discriminate; [reflexivity|]. cbn [map fst snd] in E. injection E as -> -> E. f_equal. auto.
    - intros (-> & -> & ->). reflexivity. }
  rewrite AJ in EQ. destruct (proj1 (dumps_writable _ None 0) (proj2 (W f args kwargs) (conj WA WK))) as [t E]. rewrite E in *. cbn [option_map]. split.
  - intros H. destruct (dumps None 0 (JDict (call_entries g args' kwargs'))) as [t'|]; [|discriminate]. cbn [option_map] in H. injection H as H. apply (INJ t t' eq_refl eq_refl) in H. subst t'. tauto.
  - intros H. assert (H' : Some t = dumps None 0 (JDict (call_entries g args' kwargs'))) by tauto. rewrite <- H'. reflexivity.
Qed.
Print Assumptions C93_call_key.
(** The same for the key under which the replay of FuncModel looks a call up: it tells two calls apart exactly when the names, the
    arguments or the keyword arguments differ as JSON. *)
Theorem C93_replay_key sha1 refloat hash_of f args kwargs g args' kwargs' :
  (forall n a k h, call_key sha1 n a k = Some h -> hash_of n a k = h) ->
  call_ok refloat (FuncModel.f_qualname f) args kwargs -> call_ok refloat (FuncModel.f_qualname g) args' kwargs' ->
  Forall writable args -> Forall (fun kv => writable (snd kv)) kwargs ->
  Forall writable args' -> Forall (fun kv => writable (snd kv)) kwargs' ->
  (forall a b, sha1 a = sha1 b -> a = b) ->
  (FuncModel.call_hash jv hash_of f args kwargs = FuncModel.call_hash jv hash_of g args' kwargs' <->
   FuncModel.f_qualname f = FuncModel.f_qualname g /\ map as_json args = map as_json args' /\
   map (fun kv => (fst kv, as_json (snd kv))) kwargs = map (fun kv => (fst kv, as_json (snd kv))) kwargs').
Proof.
  intros HH O1 O2 WA WK WA' WK' INJ.
  pose proof (C93_call_key sha1 refloat _ args kwargs _ args' kwargs' O1 O2 WA WK (fun a b _ _ => INJ a b)) as K.
  assert (E : forall n a k, Forall writable a -> Forall (fun kv : str * jv => writable (snd kv)) k -> exists h, call_key sha1 n a k = Some h).
  { intros n a k W1 W2. unfold call_key.
    destruct (proj1 (dumps_writable (JDict (call_entries n a k)) None 0)) as [t ->]; [|cbn [option_map]; eauto].
    unfold call_entries. cbn [writable fold_right fst snd]. repeat split; try discriminate.
    - now apply fold_and.
    - apply (fold_and (fun kv => fst kv <> JKOther /\ writable (snd kv))). rewrite Forall_map. cbn [fst snd].
      eapply Forall_impl; [|exact W2]. intros p Hp. split; [discriminate|exact Hp]. }
  destruct (E (FuncModel.f_qualname f) args kwargs WA WK) as [h Eh]. destruct (E (FuncModel.f_qualname g) args' kwargs' WA' WK') as [h' Eh'].
  unfold FuncModel.call_hash. rewrite (HH _ _ _ _ Eh), (HH _ _ _ _ Eh'). rewrite Eh, Eh' in K. split.
  - intros ->. apply proj1 in K. destruct (K eq_refl) as (A & B & C & _). auto.
  - intros (A & B & C). apply proj2 in K. assert (X : Some h = Some h') by (apply K; auto). now injection X.
Qed.
Print Assumptions C93_replay_key.

(** ** C94: the order of keyword arguments does not matter. False: the key changes, and the replay finds nothing. *)
Theorem C94_keyword_order_refuted : exists f args kwargs kwargs', Permutation kwargs kwargs' /\ NoDup (map fst kwargs) /\
  forall (sha1 : str -> str),
  (forall a b, dumps None 0 (JDict (call_entries f args kwargs)) = Some a -> dumps None 0 (JDict (call_entries f args kwargs')) = Some b -> sha1 a = sha1 b -> a = b) ->
  exists h h', call_key sha1 f args kwargs = Some h /\ call_key sha1 f args kwargs' = Some h' /\
  forall (r : jv), snd (fst (FuncModel.run_calls jv unit false [(h, r)] [] [(h', inl r)])) = [FuncModel.Missing].
Proof.
  exists (lit "f"), [], [(lit "a", JInt 1); (lit "b", JInt 2)], [(lit "b", JInt 2); (lit "a", JInt 1)].
  split; [constructor|]. split; [repeat constructor; cbn; intuition discriminate|]. intros sha1 INJ. eexists _, _. split; [reflexivity|]. split; [reflexivity|].
  intros r. cbn [FuncModel.run_calls]. unfold FuncModel.snapshot. cbn [rev app FuncModel.assoc].
  match goal with |- context [str_eqb ?x ?y] => destruct (str_eqb_spec x y) as [E|NE] end; [|reflexivity]. exfalso. pose proof (INJ _ _ eq_refl eq_refl E) as E'. vm_compute in E'. discriminate.
Qed.
Print Assumptions C94_keyword_order_refuted.
(** True when the keyword arguments come in the same order. *)
Theorem C94_keyword_order_partial sha1 f args kwargs kwargs' h (r : jv) :
  Permutation kwargs kwargs' -> map fst kwargs = map fst kwargs' -> NoDup (map fst kwargs) ->
  call_key sha1 f args kwargs = Some h ->
  call_key sha1 f args kwargs' = Some h /\
  snd (fst (FuncModel.run_calls jv unit false [(h, r)] [] [(h, inl r)])) = [FuncModel.Returned r].
Proof.
  intros P E ND K. assert (EQ : kwargs = kwargs').
  { assert (IN : forall x, In x kwargs -> In x kwargs') by (intros; eapply Permutation_in; eassumption). clear P K. revert kwargs' E IN. induction kwargs as [|[k v] l IH]; intros [|[j w] m] E IN; try discriminate; [reflexivity|].
    cbn [map fst] in *. injection E as <- E. inversion ND as [|? ? N1 N2]; subst.
    assert (v = w).
    { destruct (IN (k, v) (or_introl eq_refl)) as [H|H]; [now injection H|]. exfalso. apply N1. rewrite E. apply in_map_iff. exists (k, v). now split. }
    subst w. f_equal. apply IH; [exact N2|exact E|]. intros x I. destruct (IN x (or_intror I)) as [<-|H]; [|exact H]. exfalso. apply N1. apply in_map_iff. exists (k, v). now split. }
  subst kwargs'. split; [exact K|]. cbn [FuncModel.run_calls]. unfold FuncModel.snapshot. cbn [rev app FuncModel.assoc]. now rewrite str_eqb_refl.
Qed.
Print Assumptions C94_keyword_order_partial.

(** ** Examples *)
Definition no_refloat (t : str) : str := t.
Definition ex_value : jv :=
  JDict [(JKStr (lit "na" ++ [239; 128512; 34; 92; 10; 127]%N), JList [JInt (-12); JFloat (lit "1.5e-07"); JFloat (lit "inf"); JBool true; JNone]); (JKStr [], JDict [])].
Example C92_example : plain ex_value /\ value_ok no_refloat ex_value /\
  dumps (Some 4) 0 ex_value = Some (lit "{
    ""na\u00ef\ud83d\ude00\""\\\n\u007f"": [
        -12,
        1.5e-07,
        Infinity,
        true,
        null
    ],
    """": {}
}") /\
  loads no_refloat (lit "{""na\u00ef\ud83d\ude00\""\\\n\u007f"": [-12, 1.5e-07, Infinity, true, null], """": {}}") = Some ex_value.
Proof.
  split; [|split; [|split; vm_compute; reflexivity]].
  - unfold ex_value. cbn [plain fold_right map fst snd]. repeat split; eauto; repeat constructor; cbn; intuition discriminate.
  - unfold ex_value. cbn [value_ok fold_right fst snd key_ok]. repeat split; try exact I; try (repeat constructor; reflexivity).
    all: try (cbn; intuition discriminate).
    + right; right; right. split; [reflexivity|]. exists [], (lit "1"), (lit ".5"), (lit "e-07"). split; [reflexivity|]. split; [now left|].
      split; [split; [discriminate|repeat constructor]|]. split; [right; discriminate|]. split; [right; exists (lit "5"); split; [reflexivity|split; [discriminate|repeat constructor]]|].
      split; [|left; discriminate]. right. exists 101%N, [MINUS], (lit "07"). split; [reflexivity|]. split; [now left|]. split; [now right; right|split; [discriminate|repeat constructor]].
Qed.
(** a tuple and a number as a key: other values come back *)
Example C92_other_example : let v := JDict [(JKInt 1, JTuple [JInt 2])] in
  writable v /\ value_ok no_refloat v /\ read_back v = JDict [(JKStr (lit "1"), JList [JInt 2])] /\ ~ plain v.
Proof. cbn. repeat split; try discriminate. intros [[[[s E] _] _] _]. discriminate. Qed.
(** two surrogates in a text: excluded by [text], and they do come back as one character *)
Example C92_surrogates : ~ text [55357; 56832]%N /\ dumps (Some 4) 0 (JStr [55357; 56832]%N) = dumps (Some 4) 0 (JStr [128512]%N).
Proof. split; [|reflexivity]. intros [_ [H _]]. apply H. now split. Qed.
Definition ex_snapped : snapped := {| sn_name := lit "f"; sn_args := [JTuple [JInt 1; JStr (lit "x")]]; sn_kwargs := [(lit "k", JNone)]; sn_hash := lit "ab12"; sn_result := JList [JBool false] |}.
Example C92_function_example : call_ok no_refloat (sn_name ex_snapped) (sn_args ex_snapped) (sn_kwargs ex_snapped) /\ text (sn_hash ex_snapped) /\
  (Forall writable (sn_args ex_snapped) /\ Forall (fun kv => writable (snd kv)) (sn_kwargs ex_snapped) /\ writable (sn_result ex_snapped)) /\
  match snapped_file ex_snapped with Some file => read_snapped (fun t => t) no_refloat file = Some (lit "ab12", JList [JBool false]) | None => False end /\
  call_key (fun t => t) (lit "f") (sn_args ex_snapped) (sn_kwargs ex_snapped) = Some (lit "{""func"": ""f"", ""args"": [[1, ""x""]], ""kwargs"": {""k"": null}}").
Proof.
  split; [|split; [cbn [sn_hash ex_snapped]; lit_text|split; [repeat constructor|split; vm_compute; reflexivity]]].
  split; [cbn [sn_name ex_snapped]; lit_text|]. split; [constructor; [cbn; repeat split; repeat constructor; cbn; intuition discriminate|constructor]|].
  constructor; [split; [cbn [fst]; lit_text|exact I]|constructor].
Qed.
Example C92_env_example : env_file [(lit "HOME", Some (lit "/a")); (lit "X", None)] = Some (lit "{
    ""HOME"": ""/a"",
    ""X"": null
}").
Proof. vm_compute. reflexivity. Qed.
Example C92_replay_example : let cs := [(lit "h1", inl (JTuple [JInt 1])); (lit "h2", inr tt); (lit "h1", inl (JInt 5))] in
  let '(calls, os, is) := FuncModel.run_calls jv unit (FuncModel.capturing false true) (FuncModel.load jv [] false) [] cs in
  match all_of (map (to_file (fun h => (lit "f", [JStr h], []))) calls) with
  | Some texts =>
      match all_of (map (read_snapped (fun t => t) no_refloat) (rev texts)) with
      | Some loaded => snd (fst (FuncModel.run_calls jv unit false loaded [] cs)) = [FuncModel.Returned (JInt 5); FuncModel.Missing; FuncModel.Returned (JInt 5)]
      | None => False end
  | None => False end.
Proof. vm_compute. reflexivity. Qed.
(** a tuple and a list are the same argument, 1 and "1" are not *)
Example C93_example : forall sha1 : str -> str,
  call_key sha1 (lit "f") [JTuple [JInt 1]] [] = call_key sha1 (lit "f") [JList [JInt 1]] [] /\
  call_key (fun t => t) (lit "f") [JInt 1] [] <> call_key (fun t => t) (lit "f") [JStr (lit "1")] [].
Proof. intros sha1. split; [reflexivity|vm_compute; discriminate]. Qed.
Example C94_example : let k := [(lit "a", JInt 1); (lit "b", JInt 2)] in
  NoDup (map fst k) /\ call_key (fun t => t) (lit "f") [] k = Some (lit "{""func"": ""f"", ""args"": [], ""kwargs"": {""a"": 1, ""b"": 2}}").
Proof. split; [repeat constructor; cbn; intuition discriminate|vm_compute; reflexivity]. Qed.
