(** C59: what tformat shows of a value. *)
From Verif Require Import PyStrFacts JsonFacts TformatModel.
From Verif Require JsonProps.

Section Induction.
  Variable P : pyval -> Prop.
  Hypothesis HL : forall l, Forall P l -> P (PList l).
  Hypothesis HD : forall d, Forall (fun kv => P (snd kv)) d -> P (PDict d).
  Hypothesis HA : forall t v, P (PAtom t v).
  Fixpoint pyval_rect' (v : pyval) : P v :=
    match v with
    | PList l => HL l ((fix go l := match l return Forall P l with
                                    | [] => Forall_nil _
                                    | x :: r => Forall_cons _ (pyval_rect' x) (go r) end) l)
    | PDict d => HD d ((fix go d := match d return Forall (fun kv => P (snd kv)) d with
                                    | [] => Forall_nil _
                                    | x :: r => Forall_cons _ (pyval_rect' (snd x)) (go r) end) d)
    | PAtom t w => HA t w
    end.
End Induction.

(** The same structure and types: lists of the same length and dicts with the same keys in the same order, the elements
    pairwise the same; any other values with the same type name. [same_key] says when keys are the same. *)
Inductive alike (same_key : jkey -> jkey -> Prop) : pyval -> pyval -> Prop :=
| sf_list l l' : Forall2 (alike same_key) l l' -> alike same_key (PList l) (PList l')
| sf_dict d d' : Forall2 (fun a b => same_key (fst a) (fst b) /\ alike same_key (snd a) (snd b)) d d' -> alike same_key (PDict d) (PDict d')
| sf_atom t v v' : alike same_key (PAtom t v) (PAtom t v').
Definition same_format : pyval -> pyval -> Prop := alike eq.

(** the format seen through a function on keys *)
Fixpoint keyed_format {K} (f : jkey -> K) (object : list (K * jv) -> jv) (v : pyval) : jv :=
  match v with
  | PList l => JList (map (keyed_format f object) l)
  | PDict d => object (map (fun kv => (f (fst kv), keyed_format f object (snd kv))) d)
  | PAtom t _ => JStr t
  end.
Lemma keyed_alike {K} (f : jkey -> K) object
  (INJ : forall d e, object d = object e -> d = e) (NL : forall d l, object d <> JList l) (NS : forall d s, object d <> JStr s) v :
  forall w, keyed_format f object v = keyed_format f object w <-> alike (fun a b => f a = f b) v w.
Proof.
  induction v as [l IH|d IH|t x] using pyval_rect'; intros w; split.
  - destruct w as [l'|d'|t' x']; cbn [keyed_format]; intros E; [|symmetry in E; now apply NL in E|discriminate]. injection E as E. constructor.
    revert l' E. induction IH as [|v l Hv _ IHl]; intros [|w l'] E; try discriminate; constructor.
    + apply Hv. now injection E.
    + apply IHl. now injection E.
  - inversion 1 as [? l' F| |]; subst. cbn [keyed_format]. f_equal. clear H.
    revert l' F. induction IH as [|v l Hv _ IHl]; intros l' F; inversion F; subst; [reflexivity|]. cbn [map]. f_equal; [|auto].
    now apply Hv.
  - destruct w as [l'|d'|t' x']; cbn [keyed_format]; intros E; [now apply NL in E| |now apply NS in E]. apply INJ in E. constructor.
    revert d' E. induction IH as [|[k v] d Hv _ IHl]; intros [|[k' w] d'] E; try discriminate; constructor; cbn [map fst snd] in *.
    + injection E as E1 E2 _. split; [exact E1|]. now apply Hv.
    + apply IHl. now injection E.
  - inversion 1 as [|? d' F|]; subst. cbn [keyed_format]. f_equal. clear H.
    revert d' F. induction IH as [|[k v] d Hv _ IHl]; intros d' F; inversion F as [|? [k' w] ? ? [EK ES]]; subst; [reflexivity|].
    cbn [map fst snd] in *. f_equal; [|auto]. f_equal; [exact EK|]. now apply Hv.
  - destruct w as [l'|d'|t' x']; cbn [keyed_format]; intros E; [discriminate|symmetry in E; now apply NS in E|]. injection E as ->. constructor.
  - inversion 1; subst. reflexivity.
Qed.
Lemma value_keyed v : value_format v = keyed_format (fun k => k) JDict v.
Proof.
  induction v as [l IH|d IH|t x] using pyval_rect'; cbn [value_format keyed_format]; [| |reflexivity]; f_equal; apply map_ext_in; rewrite Forall_forall in IH.
  - exact IH.
  - intros [k v] I. cbn [fst snd]. f_equal. exact (IH _ I).
Qed.
Lemma json_keyed v : as_json (value_format v) = keyed_format key_back str_dict v.
Proof.
  unfold as_json. induction v as [l IH|d IH|t x] using pyval_rect'; cbn [value_format keyed_format back]; [| |reflexivity]; f_equal; rewrite map_map; apply map_ext_in; rewrite Forall_forall in IH.
  - exact IH.
  - intros [k v] I. cbn [fst snd]. f_equal. exact (IH _ I).
Qed.

(** *** C59: two values have the same format iff they have the same structure, keys and types *)
Theorem C59_format_is_structure v w : value_format v = value_format w <-> same_format v w.
Proof. rewrite !value_keyed. apply keyed_alike; [|discriminate|discriminate]. intros d e E. now injection E. Qed.
Print Assumptions C59_format_is_structure.

(** ** The text printed *)

(** values whose keys meet [P] and whose type names are texts *)
Fixpoint keys_ok (P : jkey -> Prop) (v : pyval) : Prop :=
  match v with
  | PList l => fold_right (fun v Q => keys_ok P v /\ Q) True l
  | PDict d => fold_right (fun kv Q => (P (fst kv) /\ keys_ok P (snd kv)) /\ Q) True d
  | PAtom t _ => text t
  end.
Lemma keys_ok_impl (P Q : jkey -> Prop) (PQ : forall k, P k -> Q k) v : keys_ok P v -> keys_ok Q v.
Proof.
  induction v as [l IH|d IH|t x] using pyval_rect'; cbn [keys_ok]; [| |auto]; intros K; induction IH as [|a l H _ IHl]; cbn [fold_right] in *; intuition auto.
Qed.
Lemma format_ok refloat v : keys_ok (key_ok refloat) v -> value_ok refloat (value_format v).
Proof.
  induction v as [l IH|d IH|t x] using pyval_rect'; cbn [keys_ok value_format value_ok]; [| |auto]; intros K; induction IH as [|a l H _ IHl]; cbn [fold_right map fst snd] in *; intuition auto.
Qed.
Lemma format_writable v : keys_ok (fun k => k <> JKOther) v -> writable (value_format v).
Proof.
  induction v as [l IH|d IH|t x] using pyval_rect'; cbn [keys_ok value_format writable]; [| |auto]; intros K; induction IH as [|a l H _ IHl]; cbn [fold_right map fst snd] in *; intuition auto.
Qed.
Lemma str_dict_inj d e : str_dict d = str_dict e -> d = e.
Proof.
  unfold str_dict. intros E. injection E as E. revert e E. induction d as [|[k v] d IH]; intros [|[j w] e] E; try discriminate; [reflexivity|].
  cbn [map fst snd] in E. injection E as -> -> E. f_equal. auto.
Qed.

(** The text shows exactly structure, types and the texts of the keys; there is one unless a key is of a kind that JSON does not know. *)
Theorem C59_text refloat v w :
  keys_ok (fun k => key_ok refloat k /\ k <> JKOther) v -> keys_ok (fun k => key_ok refloat k /\ k <> JKOther) w ->
  tformat_text v <> None /\ (tformat_text v = tformat_text w <-> alike (fun a b => key_back a = key_back b) v w).
Proof.
  intros KV KW. unfold tformat_text.
  assert (OV := format_ok refloat v (keys_ok_impl _ _ (fun k H => proj1 H) v KV)).
  assert (OW := format_ok refloat w (keys_ok_impl _ _ (fun k H => proj1 H) w KW)).
  assert (WV := format_writable v (keys_ok_impl _ _ (fun k H => proj2 H) v KV)).
  assert (WW := format_writable w (keys_ok_impl _ _ (fun k H => proj2 H) w KW)).
  split; [destruct (proj1 (dumps_writable _ (Some 2) 0) WV) as [t E]; rewrite E; discriminate|].
  rewrite (dumps_equal refloat _ _ (Some 2) 0 OV OW WV), !json_keyed, (keyed_alike key_back str_dict str_dict_inj) by discriminate. tauto.
Qed.
Print Assumptions C59_text.
Theorem C59_text_error v : tformat_text v = None <-> ~ writable (value_format v).
Proof.
  unfold tformat_text. rewrite (dumps_writable _ (Some 2) 0). destruct (dumps (Some 2) 0 (value_format v)) as [t|].
  - split; [discriminate|]. intros H. exfalso. apply H. eauto.
  - split; [|reflexivity]. intros _ [t E]. discriminate.
Qed.

(** So it tells values with text keys apart. *)
Theorem C59_text_partial v w :
  keys_ok (fun k => exists s, k = JKStr s /\ text s) v -> keys_ok (fun k => exists s, k = JKStr s /\ text s) w ->
  tformat_text v <> None /\ (tformat_text v = tformat_text w <-> same_format v w).
Proof.
  intros KV KW.
  assert (PQ : forall k, (exists s, k = JKStr s /\ text s) -> key_ok (fun t => t) k /\ k <> JKOther) by (intros k (s & -> & T); split; [exact T|discriminate]).
  destruct (C59_text (fun t => t) v w (keys_ok_impl _ _ PQ v KV) (keys_ok_impl _ _ PQ w KW)) as [H1 H2]. split; [exact H1|]. rewrite H2. clear H1 H2 PQ.
  unfold same_format. rewrite <- (keyed_alike key_back str_dict str_dict_inj) by discriminate. split.
  - revert w KW. induction v as [l IH|d IH|t x] using pyval_rect'; intros w KW E; destruct w as [l'|d'|t' x']; try discriminate.
    + constructor. cbn [keys_ok keyed_format] in *. injection E as E. revert l' KW E. induction IH as [|a l H _ IHl]; intros [|b l'] KW E; try discriminate; constructor; cbn [fold_right map] in *.
      * injection E as E1 _. apply H; tauto.
      * injection E as _ E2. apply IHl; tauto.
    + constructor. cbn [keys_ok keyed_format] in *. apply str_dict_inj in E. revert d' KW E. induction IH as [|[k a] l H _ IHl]; intros [|[j b] l'] KW E; try discriminate; constructor; cbn [fold_right map fst snd] in *.
      * injection E as E1 E2 _. split; [|apply H; tauto]. destruct KV as [[(s & -> & _) _] _], KW as [[(s' & -> & _) _] _]. f_equal. exact E1.
      * injection E as _ _ E2. apply IHl; tauto.
    + cbn [keyed_format] in E. injection E as ->. constructor.
  - intros A. apply (keyed_alike key_back str_dict str_dict_inj); try discriminate. clear KV KW. revert w A.
    induction v as [l IH|d IH|t x] using pyval_rect'; inversion 1 as [? l' F|? d' F|]; subst; constructor; clear A.
    + revert l' F. induction IH as [|a l H _ IHl]; inversion 1; subst; constructor; auto.
    + revert d' F. induction IH as [|a l H _ IHl]; inversion 1 as [|? ? ? ? [EK EA]]; subst; constructor; auto. split; [now rewrite EK|auto].
Qed.
Print Assumptions C59_text_partial.

(** Other keys: the number 1 and the text "1" print the same. *)
Theorem C59_text_refuted : exists v w, tformat_text v = tformat_text w /\ tformat_text v <> None /\ ~ same_format v w.
Proof.
  exists (PDict [(JKInt 1, PAtom (lit "int") (lit "5"))]), (PDict [(JKStr (lit "1"), PAtom (lit "int") (lit "5"))]).
  split; [reflexivity|]. split; [discriminate|]. inversion 1 as [|? ? F|]; subst. inversion F as [|? ? ? ? [E _] _]; subst. discriminate.
Qed.
Print Assumptions C59_text_refuted.

Example C59_example :
  let v := PDict [(JKStr (lit "a"), PList [PAtom (lit "int") (lit "1"); PAtom (lit "str") (lit "x")]); (JKStr (lit "b"), PDict [])] in
  let w := PDict [(JKStr (lit "a"), PList [PAtom (lit "int") (lit "7"); PAtom (lit "str") (lit "y")]); (JKStr (lit "b"), PDict [])] in
  tformat_text v = Some (lit "{
  ""a"": [
    ""int"",
    ""str""
  ],
  ""b"": {}
}") /\ tformat_text v = tformat_text w /\ keys_ok (fun k => exists s, k = JKStr s /\ text s) v /\ same_format v w.
Proof.
  cbn zeta. split; [vm_compute; reflexivity|]. split; [vm_compute; reflexivity|]. split.
  - cbn [keys_ok fold_right fst snd]. repeat split; try (eexists; split; [reflexivity|]); try JsonProps.lit_text; try (repeat constructor; fail); cbn; intuition discriminate.
  - apply C59_format_is_structure. reflexivity.
Qed.
(** tuples and sets are shown by their type name alone, and a tuple as a key is an error *)
Example C59_key_error : tformat_text (PDict [(JKOther, PAtom (lit "int") (lit "5"))]) = None.
Proof. reflexivity. Qed.
